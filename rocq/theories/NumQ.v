(** Exact rational arithmetic.  cos, sin and the normalised direction of a long anchor are not
    rational functions; they are left as parameters. *)
From Coq Require Import ZArith QArith Qround Qabs.
From Verif Require Import PyBase NumModel.

(** Python's round(x) on an exact value: to the nearest integer, ties to the even one. *)
Definition q_round (x : Q) : Z :=
  let f := Qfloor x in
  let d := (2 * (x - inject_Z f))%Q in
  if Qle_bool 1 d then
    if Qeq_bool d 1 then (if Z.even f then f else f + 1)%Z else (f + 1)%Z
  else f.

Definition q_div (a b : Q) : res Q := if Qeq_bool b 0 then Err ZeroDivisionError else Ok (Qdiv a b).

(** int(x): towards zero. *)
Definition q_trunc (x : Q) : Z := if Qle_bool 0 x then Qfloor x else Qceiling x.

Definition q_gt (a b : Q) : bool := negb (Qle_bool a b).

Section QNum.
Variables (qcos qsin : Q -> Q) (qorient : Q -> Q -> Q -> Q -> Q -> Q * Q).

Definition QNum : Num :=
  mkNum Q 0%Q 1%Q Qplus Qminus Qmult Qopp q_div (fun a n => q_div a (inject_Z n))
    (fun a => Ok (Qceiling a)) (fun a => Ok (inject_Z (q_round a))) Qabs q_gt Qeq_bool qcos qsin
    (33 # 100)%Q (66 # 100)%Q
    (fun x0 y0 x1 y1 r =>
       (* sqrt(dx^2 + dy^2) > r without the square root *)
       if Qle_bool 0 r then q_gt ((x1 - x0) * (x1 - x0) + (y1 - y0) * (y1 - y0)) (r * r) else true)
    qorient.
End QNum.

(** An instance to compute with: rotations by multiples of 90 degrees, and a direction with the
    maximum norm. *)
Definition ex_cos (x : Q) : Q :=
  if Qeq_bool x 90 || Qeq_bool x (-90) then 0 else if Qeq_bool x 180 then -1 else 1.
Definition ex_sin (x : Q) : Q := if Qeq_bool x 90 then 1 else if Qeq_bool x (-90) then -1 else 0.
Definition ex_orient (x0 y0 x1 y1 r : Q) : Q * Q :=
  let dx := (x1 - x0)%Q in
  let dy := (y1 - y0)%Q in
  let m := if Qle_bool (Qabs dx) (Qabs dy) then Qabs dy else Qabs dx in
  (x0 + r * dx / m, y0 + r * dy / m)%Q.
Definition ExNum : Num := QNum ex_cos ex_sin ex_orient.
