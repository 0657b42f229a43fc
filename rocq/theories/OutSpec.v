(** What it means that a file is written at a position of a stream. *)
From Coq Require Import ZArith List.
From Verif Require Import PyBase OutModel.
Import ListNotations.

(** The stream holds [d], but from the place [k] on [b] instead of what [d] has there, and stands behind [b]. *)
Definition over (d : list Z) (k : nat) (b : list Z) : out :=
  mkOut (firstn k d ++ b ++ skipn (k + List.length b) d) (k + List.length b).
(** On a stream of the bytes [d] at the position [k], [p] writes the bytes [f] over what is there and leaves the
    rest alone; or it raises as [r] says, having changed nothing but what stands from [k] on. *)
Definition writes_at (p : prog unit) (d : list Z) (k : nat) (r : res (list Z)) : Prop :=
  match r with
  | Ok f => p (mkOut d k) = (over d k f, Ok tt)
  | Err e => exists part, p (mkOut d k) = (over d k part, Err e)
  end.
