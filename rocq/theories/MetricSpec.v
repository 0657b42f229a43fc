(** Distances and positions, over exact rationals. *)
From Coq Require Import ZArith List QArith Qabs.
From Verif Require Import PyBase EmbConst.
Import ListNotations.
Open Scope Z_scope.

(** A coordinate that is a whole number. *)
Definition integral (x : Q) : Prop := exists z, (x == inject_Z z)%Q.

(** The position after a list of commands that starts at (x, y). *)
Fixpoint end_pos {C} (x y : C) (l : list (stitch C)) : C * C :=
  match l with
  | [] => (x, y)
  | s :: r => end_pos (sx s) (sy s) r
  end.

(** Commands that move the needle: STITCH, JUMP and SEQUIN_EJECT. *)
Definition travels (c : Z) : Prop :=
  Z.land c 255 = STITCH \/ Z.land c 255 = JUMP \/ Z.land c 255 = SEQUIN_EJECT.

(** Every command of [l] is at most one allowed step away from the one before on each axis, and
    the commands that do not move the needle are at the position they were reached with.
    [R a b]: a step from a to b is allowed. *)
Fixpoint walk (R : Q -> Q -> Prop) (x y : Q) (l : list (stitch Q)) : Prop :=
  match l with
  | [] => True
  | s :: r =>
      (R x (sx s) /\ R y (sy s) /\ (travels (scmd s) \/ (sx s == x /\ sy s == y)%Q))
      /\ walk R (sx s) (sy s) r
  end.

(** A step of at most [m]. *)
Definition within (m : Q) (a b : Q) : Prop := (Qabs (b - a) <= m)%Q.

(** The point at the fraction [t] of the way from (x0, y0) to (x1, y1). *)
Definition on_way (x0 y0 x1 y1 t x y : Q) : Prop :=
  (x == x0 + t * (x1 - x0) /\ y == y0 + t * (y1 - y0))%Q.

(** Points at evenly spaced fractions 1/n, 2/n, ... of the way, starting with i/n. *)
Fixpoint evenly (x0 y0 x1 y1 : Q) (n : positive) (i : Z) (l : list (stitch Q)) : Prop :=
  match l with
  | [] => True
  | s :: r => on_way x0 y0 x1 y1 (i # n) (sx s) (sy s) /\ evenly x0 y0 x1 y1 n (i + 1) r
  end.
