(** pyembroidery/EmbMatrix.py over any arithmetic. *)
From Coq Require Import ZArith List.
From Verif Require Import PyBase NumModel.
Import ListNotations.

Section Matrix.
Context (N : Num).
Notation F := (F N).
Infix "+." := (fadd N) (at level 50, left associativity).
Infix "-." := (fsub N) (at level 50, left associativity).
Infix "*." := (fmul N) (at level 40, left associativity).

(** The nine entries of self.m, row by row. *)
Record mat := mkM { m0 : F; m1 : F; m2 : F; m3 : F; m4 : F; m5 : F; m6 : F; m7 : F; m8 : F }.

Notation z := (f0 N).
Notation o := (f1 N).

(* EmbMatrix.py 126-128 *)
Definition get_identity : mat := mkM o z z z o z z z o.
(* EmbMatrix.py 130-134 *)
Definition get_scale (sx sy : F) : mat := mkM sx z z z sy z z z o.
(* EmbMatrix.py 136-138 *)
Definition get_translate (tx ty : F) : mat := mkM o z z z o z tx ty o.
(* EmbMatrix.py 140-146 *)
Definition get_rotate (theta : F) : mat :=
  let ct := fcos N theta in
  let st := fsin N theta in
  mkM ct st z (fopp N st) ct z z z o.

(* EmbMatrix.py 148-160 *)
Definition matrix_multiply (a b : mat) : mat :=
  mkM (m0 b *. m0 a +. m1 b *. m3 a +. m2 b *. m6 a)
      (m0 b *. m1 a +. m1 b *. m4 a +. m2 b *. m7 a)
      (m0 b *. m2 a +. m1 b *. m5 a +. m2 b *. m8 a)
      (m3 b *. m0 a +. m4 b *. m3 a +. m5 b *. m6 a)
      (m3 b *. m1 a +. m4 b *. m4 a +. m5 b *. m7 a)
      (m3 b *. m2 a +. m4 b *. m5 a +. m5 b *. m8 a)
      (m6 b *. m0 a +. m7 b *. m3 a +. m8 b *. m6 a)
      (m6 b *. m1 a +. m7 b *. m4 a +. m8 b *. m7 a)
      (m6 b *. m2 a +. m7 b *. m5 a +. m8 b *. m8 a).

(* EmbMatrix.py 35-52; 1.0 / float(det) raises ZeroDivisionError *)
Definition inverse (m : mat) : res mat :=
  let m48s75 := m4 m *. m8 m -. m7 m *. m5 m in
  let m38s56 := m5 m *. m6 m -. m3 m *. m8 m in
  let m37s46 := m3 m *. m7 m -. m4 m *. m6 m in
  let det := m0 m *. m48s75 +. m1 m *. m38s56 +. m2 m *. m37s46 in
  do inv <- fdiv N o det;
  Ok (mkM (m48s75 *. inv)
          ((m2 m *. m7 m -. m1 m *. m8 m) *. inv)
          ((m1 m *. m5 m -. m2 m *. m4 m) *. inv)
          (m38s56 *. inv)
          ((m0 m *. m8 m -. m2 m *. m6 m) *. inv)
          ((m3 m *. m2 m -. m0 m *. m5 m) *. inv)
          (m37s46 *. inv)
          ((m6 m *. m1 m -. m0 m *. m7 m) *. inv)
          ((m0 m *. m4 m -. m3 m *. m1 m) *. inv)).

(* EmbMatrix.py 68-69 *)
Definition post_translate (m : mat) (tx ty : F) : mat := matrix_multiply m (get_translate tx ty).
(* EmbMatrix.py 54-66 *)
Definition post_scale (m : mat) (sx sy x y : F) : mat :=
  if (feqb N x z && feqb N y z)%bool then matrix_multiply m (get_scale sx sy)
  else post_translate (matrix_multiply (post_translate m x y) (get_scale sx sy)) (fopp N x) (fopp N y).
(* EmbMatrix.py 71-81 *)
Definition post_rotate (m : mat) (theta x y : F) : mat :=
  if (feqb N x z && feqb N y z)%bool then matrix_multiply m (get_rotate theta)
  else post_translate (matrix_multiply (post_translate m x y) (get_rotate theta)) (fopp N x) (fopp N y).
(* EmbMatrix.py 83-85 *)
Definition post_cat (m : mat) (l : list mat) : mat := fold_left matrix_multiply l m.
(* EmbMatrix.py 87-96 *)
Definition pre_scale (m : mat) (sx sy : F) : mat := matrix_multiply (get_scale sx sy) m.
Definition pre_translate (m : mat) (tx ty : F) : mat := matrix_multiply (get_translate tx ty) m.
Definition pre_rotate (m : mat) (theta : F) : mat := matrix_multiply (get_rotate theta) m.
(* EmbMatrix.py 98-100 *)
Definition pre_cat (m : mat) (l : list mat) : mat := fold_left (fun m mx => matrix_multiply mx m) l m.

(* EmbMatrix.py 102-117 and, in place, 119-124 *)
Definition point_in_matrix_space (m : mat) (x y : F) : F * F :=
  (x *. m0 m +. y *. m3 m +. o *. m6 m, x *. m1 m +. y *. m4 m +. o *. m7 m).
End Matrix.
Arguments mkM {N}. Arguments m0 {N}. Arguments m1 {N}. Arguments m2 {N}.
Arguments m3 {N}. Arguments m4 {N}. Arguments m5 {N}. Arguments m6 {N}.
Arguments m7 {N}. Arguments m8 {N}.
