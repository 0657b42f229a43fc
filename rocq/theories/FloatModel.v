(** The arithmetic of Python floats (IEEE 754 doubles), as real numbers rounded after each
    operation.  Simplified: no overflow, infinities, NaN or signed zeros (the results are exactly
    those of the doubles as long as nothing exceeds their range); Python ints are numbers like
    the floats (their sums, differences and quotients are the same below 2^53). *)
From Coq Require Import ZArith Reals.
From Flocq Require Import Core.
From Verif Require Import PyBase NumModel.
Open Scope R_scope.

(** Rounding to the nearest double, ties to the even one; a number that is a double. *)
Definition b64 : Z -> Z := FLT_exp (-1074) 53.
Definition rnd (x : R) : R := round radix2 b64 ZnearestE x.
Definition f64 (x : R) : Prop := generic_format radix2 b64 x.

(** dx = int(round(x - xx)) in the writers (DstWriter.py 138-141, ExpWriter.py 17-20 and the like)
    for a float x and an int xx: the difference is a float, round() gives the nearest int, ties to
    the even one. *)
Definition qz_f (x : R) (xx : Z) : Z := ZnearestE (rnd (x - IZR xx)).

Section FNum.
Variables (fcos fsin : R -> R) (forient : R -> R -> R -> R -> R -> R * R).

(** cos, sin and the point in a direction are left as parameters. *)
Definition FNum : Num :=
  mkNum R 0 1 (fun a b => rnd (a + b)) (fun a b => rnd (a - b)) (fun a b => rnd (a * b)) Ropp
    (fun a b => if Req_bool b 0 then Err ZeroDivisionError else Ok (rnd (a / b)))
    (fun a n => if (n =? 0)%Z then Err ZeroDivisionError else Ok (rnd (a / IZR n)))
    (fun a => Ok (Zceil a)) (fun a => Ok (IZR (ZnearestE a))) Rabs (fun a b => Rlt_bool b a) Req_bool
    fcos fsin (rnd (33 / 100)) (rnd (66 / 100))
    (* EmbEncoder.py 665-676 *)
    (fun x0 y0 x1 y1 r =>
       let dx := rnd (x1 - x0) in
       let dy := rnd (y1 - y0) in
       Rlt_bool r (rnd (sqrt (rnd (rnd (dx * dx) + rnd (dy * dy))))))
    forient.
End FNum.

(** EmbEncoder.py 683-692: the point at distance r in the direction of (x1, y1).  math.cos and
    math.sin are parameters, and so is angle_radians (math.atan2 of the differences). *)
Definition oriented_f (fcos fsin : R -> R) (angle : R -> R -> R -> R -> R) (x0 y0 x1 y1 r : R) : R * R :=
  let radians := angle x0 y0 x1 y1 in
  (rnd (x0 + rnd (r * fcos radians)), rnd (y0 + rnd (r * fsin radians))).
