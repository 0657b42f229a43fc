(** pyembroidery/EmbMatrix.py: matrices as objects.  The attribute m of a matrix is a tuple or a list, and Python
    tells these apart when it compares and prints. *)
From Coq Require Import ZArith List Bool.
From Verif Require Import PyBase NumModel MatrixModel.
Import ListNotations.

Inductive holder := Tuple | List.
Definition holder_eqb (a b : holder) : bool := match a, b with Tuple, Tuple | List, List => true | _, _ => false end.

Section Objects.
Context (N : Num).
Notation mat := (mat N).
Notation F := (F N).
(** The attribute m of a matrix. *)
Record mobj := mkO { held : holder; entries : mat }.

(* EmbMatrix.py 5-9 without an argument, and 32-33 *)
Definition new_matrix : mobj := mkO Tuple (get_identity N).
(* EmbMatrix.py 54-100, 35-52, 32-33, 23-24: the calls that change a matrix; matrix_multiply and inverse make lists, the
   cat functions keep what is held when the given list is empty.  Each given matrix of a cat call is a tuple or list. *)
Inductive call :=
| Post_scale (sx sy x y : F) | Post_translate (tx ty : F) | Post_rotate (theta x y : F) | Post_cat (l : list mat)
| Pre_scale (sx sy : F) | Pre_translate (tx ty : F) | Pre_rotate (theta : F) | Pre_cat (l : list mat)
| Inverse | Reset | Imatmul (other : mobj).
Definition run_call (m : mobj) (c : call) : res mobj :=
  let e := entries m in
  match c with
  | Post_scale sx sy x y => Ok (mkO List (post_scale N e sx sy x y))
  | Post_translate tx ty => Ok (mkO List (post_translate N e tx ty))
  | Post_rotate theta x y => Ok (mkO List (post_rotate N e theta x y))
  | Post_cat l => Ok (mkO (match l with [] => held m | _ => List end) (post_cat N e l))
  | Pre_scale sx sy => Ok (mkO List (pre_scale N e sx sy))
  | Pre_translate tx ty => Ok (mkO List (pre_translate N e tx ty))
  | Pre_rotate theta => Ok (mkO List (pre_rotate N e theta))
  | Pre_cat l => Ok (mkO (match l with [] => held m | _ => List end) (pre_cat N e l))
  | Inverse => do i <- inverse N e; Ok (mkO List i)
  | Reset => Ok new_matrix
  | Imatmul other => Ok (mkO List (matrix_multiply N e (entries other)))
  end.
Fixpoint run_calls (m : mobj) (l : list call) : res mobj :=
  match l with [] => Ok m | c :: r => do m <- run_call m c; run_calls m r end.
(* EmbMatrix.py 17-18; lines 20-21 are never used between matrices *)
Definition matmul (a b : mobj) : mobj := mkO List (matrix_multiply N (entries a) (entries b)).
(** EmbMatrix.py 23-24: the statement a @= b changes the object and binds the name to what the method returns,
    which is None. *)
Definition imatmul (a b : mobj) : mobj * option mobj := (mkO List (matrix_multiply N (entries a) (entries b)), None).
(* EmbMatrix.py 11-15: a tuple and a list are different; the elements are compared one by one *)
Definition same_entries (a b : mat) : bool :=
  feqb N (m0 a) (m0 b) && feqb N (m1 a) (m1 b) && feqb N (m2 a) (m2 b) && feqb N (m3 a) (m3 b) && feqb N (m4 a) (m4 b)
  && feqb N (m5 a) (m5 b) && feqb N (m6 a) (m6 b) && feqb N (m7 a) (m7 b) && feqb N (m8 a) (m8 b).
Definition matrix_eq (a b : mobj) : bool := holder_eqb (held a) (held b) && same_entries (entries a) (entries b).
(** EmbMatrix.py 26-27: % takes the nine numbers from a tuple only; a list is one argument (TypeError).  The text of
    the numbers is left to Python: the result is the numbers in order. *)
Definition matrix_str (a : mobj) : res (list F) :=
  let e := entries a in
  match held a with
  | Tuple => Ok [m0 e; m1 e; m2 e; m3 e; m4 e; m5 e; m6 e; m7 e; m8 e]
  | List => Err TypeError
  end.
End Objects.
Arguments mkO {N}. Arguments held {N}. Arguments entries {N}.
