(** Loading and saving JEF stitches over and over. *)
From Coq Require Import ZArith QArith Qabs List Bool.
From Verif Require Import PyBase EmbConst StreamSpec QuantModel ResaveSpec.
Import ListNotations.
Open Scope Z_scope.

(** Whether a displacement asks for a trim: it exceeds the distance in one direction. *)
Definition far (dist : option Q) (dx dy : Z) : bool :=
  match dist with
  | Some d => negb (Qle_bool (inject_Z (Z.abs dy)) d) || negb (Qle_bool (inject_Z (Z.abs dx)) d)
  | None => false
  end.

(** The commands without trims: what a JEF file keeps. *)
Definition untrimmed {C} (l : list (stitch C)) : list (stitch C) := filter (fun a => negb (cmd_of (scmd a) =? TRIM)) l.

(** Something is sewn, and that before the first colour change. *)
Fixpoint sews_first {C} (l : list (stitch C)) : Prop :=
  match l with
  | [] => False
  | a :: r => cmd_of (scmd a) = STITCH \/ cmd_of (scmd a) <> COLOR_CHANGE /\ sews_first r
  end.

(** What saving does to a loaded design: with cut thread the needle jumps to where the next stitch
    is made, unless it is there, and no further trim is made. *)
Fixpoint approached (cut : bool) (px py : Z) (l : list (stitch Z)) : list (stitch Z) :=
  match l with
  | [] => []
  | a :: r =>
      (if cut && (cmd_of (scmd a) =? TRIM) then []
       else if cut && (cmd_of (scmd a) =? STITCH) && negb ((sx a =? px) && (sy a =? py)) then [mkS (sx a) (sy a) JUMP; a]
       else [a])
      ++ approached (cut_by cut (scmd a)) (sx a) (sy a) r
  end.

(** Each step is at most [m] on each axis. *)
Fixpoint within (m px py : Z) (l : list (stitch Z)) : Prop :=
  match l with [] => True | a :: r => step_within m px py (sx a) (sy a) /\ within m (sx a) (sy a) r end.

(** ** Trims in a loaded JEF file *)
(** [a] is more than [dist] millimetres (ten units each) away from (x, y) in one direction. *)
Definition far_away (dist : option Q) (x y : Z) (a : stitch Z) : Prop :=
  exists d, dist = Some d /\ ((d * 10 < inject_Z (Z.abs (sx a - x)))%Q \/ (d * 10 < inject_Z (Z.abs (sy a - y)))%Q).
(** The trim for the jumps [J] from (x, y): one, if the thread is not cut and some jump goes far away. *)
Definition trim_for (dist : option Q) (cut : bool) (x y : Z) (J mark : list (stitch Z)) : Prop :=
  cut = false /\ Exists (far_away dist x y) J /\ mark = [mkS x y TRIM] \/
  (cut = true \/ ~ Exists (far_away dist x y) J) /\ mark = [].
(** [K] are the jumps of [J] after the last that goes to (x, y). *)
Definition since_back (x y : Z) (J K : list (stitch Z)) : Prop :=
  exists before, J = before ++ K /\ Forall (fun a => ~ (sx a = x /\ sy a = y)) K /\
    (before = [] \/ exists b a, before = b ++ [a] /\ sx a = x /\ sy a = y).
(** The commands [l'] that are loaded for the stored commands [l]: each run of jumps begins with the trim for
    it, and jumps that lead back to its beginning are left out. *)
Inductive jef_loads (dist : option Q) : bool -> Z -> Z -> list (stitch Z) -> list (stitch Z) -> Prop :=
| jl_nil : forall cut x y, jef_loads dist cut x y [] []
| jl_run : forall cut x y J mark K s r r',
    Forall (fun a => scmd a = JUMP) J -> scmd s <> JUMP ->
    trim_for dist cut x y J mark -> since_back x y J K ->
    jef_loads dist (cut_by cut (scmd s)) (sx s) (sy s) r r' ->
    jef_loads dist cut x y (J ++ s :: r) (mark ++ K ++ s :: r').
