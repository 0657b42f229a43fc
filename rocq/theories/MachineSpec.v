(** What embroidery machines with numbered needles are told. *)
From Coq Require Import ZArith List.
From Verif Require Import PyBase EmbConst FunctionsModel EncoderSpec FormatSpec.
Import ListNotations.
Open Scope Z_scope.

(** The needle numbers of the needle changes, in order. *)
Definition needle_numbers {C} (l : list (stitch C)) : list (option Z) := map (fun a => needle_of (scmd a)) (filter (is_cmd NEEDLE_SET) l).
(** U01 machines have fifteen needles; higher numbers come round again. *)
Definition u01_needle (n : Z) : Z := if 15 <=? n then n mod 15 + 1 else n.
