(** The arithmetic the encoder and the matrix code work with, as a record of operations.
    Python coordinates are ints or floats; theorems about control flow are proved for every
    [Num], so they hold whatever the rounding of the operations is.  No laws are assumed. *)
From Coq Require Import ZArith.
From Verif Require Import PyBase.

Record Num := mkNum {
  F : Type;
  f0 : F;                          (* 0 *)
  f1 : F;                          (* 1 *)
  fadd : F -> F -> F;
  fsub : F -> F -> F;
  fmul : F -> F -> F;
  fopp : F -> F;
  fdiv : F -> F -> res F;          (* a / b: ZeroDivisionError when b is 0 *)
  fdivz : F -> Z -> res F;         (* a / n for an int n *)
  fceil : F -> res Z;              (* math.ceil: OverflowError/ValueError on inf and nan *)
  fround : F -> res F;             (* round(x) *)
  fabs : F -> F;
  fgtb : F -> F -> bool;           (* a > b *)
  feqb : F -> F -> bool;           (* a == b *)
  fcos : F -> F;                   (* math.cos(theta * (math.pi * 2 / 360)) *)
  fsin : F -> F;
  f33 : F;                         (* the literals 0.33 and 0.66 *)
  f66 : F;
  fdist_gt : F -> F -> F -> F -> F -> bool;
    (* distance(x0, y0, x1, y1) > r: EmbEncoder.py 665-676 *)
  foriented : F -> F -> F -> F -> F -> F * F
    (* oriented(x0, y0, x1, y1, r): EmbEncoder.py 684-692 *)
}.
