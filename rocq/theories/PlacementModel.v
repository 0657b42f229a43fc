(** A translation appended to a pattern under construction. *)
From Coq Require Import ZArith List Bool.
From Verif Require Import PyBase EmbConst NumModel HeapModel.

(* EmbPattern.py 874-878 *)
Definition append_translation {T C} (plus : C -> C -> C) (w : @world T C) (p : nat) (x y : C) : res (@world T C) :=
  add_stitch_relative plus w p MATRIX_TRANSLATE x y.
