(** pyembroidery/EmbPattern.py 105-117: comparing two patterns.  Metadata is not part of these
    patterns (PatternModel.v); [list_eqb] is Python's comparison of two lists. *)
From Coq Require Import ZArith QArith List Bool.
From Verif Require Import PyBase EmbConst ThreadModel PatternModel.
Import ListNotations.
Open Scope Z_scope.

Fixpoint list_eqb {A} (eqb : A -> A -> bool) (l m : list A) : bool :=
  match l, m with
  | [], [] => true
  | a :: l, b :: m => eqb a b && list_eqb eqb l m
  | _, _ => false
  end.
(** [x, y, command] == [x', y', command'] *)
Definition stitch_eqb (s t : stitch Q) : bool :=
  Qeq_bool (sx s) (sx t) && Qeq_bool (sy s) (sy t) && (scmd s =? scmd t).
(* EmbPattern.py 108-117 *)
Definition pattern_eqb (p q : pattern thread Q) : bool :=
  if negb (list_eqb stitch_eqb (p_stitches p) (p_stitches q)) then false
  else if negb (list_eqb thread_eqb (p_threads p) (p_threads q)) then false
  else true.
(* EmbPattern.py 105-106 *)
Definition pattern_neb (p q : pattern thread Q) : bool := negb (pattern_eqb p q).
