(** pyembroidery/EmbPattern.py 145-149: what the copy module makes of a pattern, over the world of shared
    stitch objects of HeapModel.v. *)
From Coq Require Import ZArith List Bool.
From Verif Require Import PyBase HeapModel.
Import ListNotations.

(** A call of a method that takes [wants] arguments besides self with [given] of them: TypeError unless they
    are as many. *)
Definition call {A} (wants given : nat) (body : res A) : res A := if Nat.eqb wants given then body else Err TypeError.

Section DeepCopy.
  Context {T C : Type} (zero : C).
  (* EmbPattern.py 145-146; copy.copy(p) calls p.__copy__() *)
  Definition copy_copy (w : @world T C) (p : nat) : res (world * nat) := call 0 0 (copy zero w p).
  (* EmbPattern.py 148-149, called as p.__deepcopy__() *)
  Definition deepcopy_method (w : @world T C) (p : nat) (given : nat) : res (world * nat) := call 0 given (copy zero w p).
  (** copy.deepcopy(p) calls p.__deepcopy__(memo), with one argument. *)
  Definition copy_deepcopy (w : @world T C) (p : nat) : res (world * nat) := deepcopy_method w p 1.
End DeepCopy.
