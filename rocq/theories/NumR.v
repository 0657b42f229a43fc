(** Exact real arithmetic, for statements about rotations and directions.  Uses the axioms of
    Coq's real numbers. *)
From Coq Require Import ZArith Reals.
From Verif Require Import PyBase NumModel.
Open Scope R_scope.

(** math.atan2(y, x) *)
Definition atan2 (y x : R) : R :=
  if Rlt_dec 0 x then atan (y / x)
  else if Rlt_dec x 0 then if Rle_dec 0 y then atan (y / x) + PI else atan (y / x) - PI
  else if Rlt_dec 0 y then PI / 2
  else if Rlt_dec y 0 then - (PI / 2) else 0.

Definition r_div (a b : R) : res R := if Req_EM_T b 0 then Err ZeroDivisionError else Ok (a / b).
Definition r_ceil (a : R) : Z := (- Int_part (- a))%Z.
(** round(x): to the nearest integer, ties to the even one. *)
Definition r_round (x : R) : Z :=
  let f := Int_part x in
  let d := x - IZR f in
  if Rlt_dec d (1 / 2) then f
  else if Rlt_dec (1 / 2) d then (f + 1)%Z
  else if Z.even f then f else (f + 1)%Z.
Definition r_gt (a b : R) : bool := if Rlt_dec b a then true else false.
Definition r_eq (a b : R) : bool := if Req_EM_T a b then true else false.
(* EmbEncoder.py 665-676 *)
Definition r_distance (x0 y0 x1 y1 : R) : R := sqrt ((x1 - x0) * (x1 - x0) + (y1 - y0) * (y1 - y0)).
(* EmbEncoder.py 684-692 *)
Definition r_oriented (x0 y0 x1 y1 r : R) : R * R :=
  let a := atan2 (y1 - y0) (x1 - x0) in (x0 + r * cos a, y0 + r * sin a).

Definition RNum : Num :=
  mkNum R 0 1 Rplus Rminus Rmult Ropp r_div (fun a n => r_div a (IZR n))
    (fun a => Ok (r_ceil a)) (fun a => Ok (IZR (r_round a))) Rabs r_gt r_eq
    (fun t => cos (t * (PI * 2 / 360))) (fun t => sin (t * (PI * 2 / 360)))
    (33 / 100) (66 / 100)
    (fun x0 y0 x1 y1 r => r_gt (r_distance x0 y0 x1 y1) r) r_oriented.
