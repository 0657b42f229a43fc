(** Float coordinates. *)
From Coq Require Import ZArith Reals List.
From Flocq Require Import Core.
From Verif Require Import PyBase FloatModel.
Open Scope R_scope.

(** A whole number. *)
Definition whole (x : R) : Prop := exists n, x = IZR n.
(** All coordinates are doubles of at most 2^e. *)
Definition coordinates_within (e : Z) (l : list (stitch R)) : Prop :=
  Forall (fun s => (f64 (sx s) /\ Rabs (sx s) <= bpow radix2 e) /\ (f64 (sy s) /\ Rabs (sy s) <= bpow radix2 e)) l.
