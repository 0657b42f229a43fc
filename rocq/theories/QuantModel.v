(** The writers' quantisation on exact rational coordinates. *)
From Coq Require Import ZArith List QArith.
From Verif Require Import PyBase StreamModel NumQ.
Import ListNotations.

(** int(round(x - xx)) of the loop heads cited at [quantise], for an exact coordinate x and the
    integer position xx written so far.  Python's round rounds halves to even. *)
Definition qz_q (x : Q) (xx : Z) : Z := q_round (x - inject_Z xx).

(** The positions a reader adds up from the written displacements. *)
Definition written (l : list (stitch Q)) : list (stitch Z) := apply_rel 0 0 (quantise qz_q 0 0 l).
