(** Vocabulary for statements about writing a pattern and reading it back. *)
From Coq Require Import ZArith List.
From Verif Require Import PyBase EmbConst.
Import ListNotations.
Open Scope Z_scope.

(** The commands before the first END. *)
Fixpoint before_end {C} (l : list (stitch C)) : list (stitch C) :=
  match l with
  | [] => []
  | s :: r => if cmd_of (scmd s) =? END then [] else s :: before_end r
  end.

(** The needle position after a list of commands that starts at (x, y). *)
Fixpoint needle_after (x y : Z) (l : list (stitch Z)) : Z * Z :=
  match l with
  | [] => (x, y)
  | s :: r => needle_after (sx s) (sy s) r
  end.

(** A command list closed by one END at the final needle position. *)
Definition closed (l : list (stitch Z)) : list (stitch Z) :=
  let '(x, y) := needle_after 0 0 l in l ++ [mkS x y END].

(** [a] is an initial segment of [b]. *)
Definition prefix_of {A} (a b : list A) : Prop := exists t, b = a ++ t.

(** A step of at most [m] on each axis. *)
Definition step_within (m px py x y : Z) : Prop :=
  -m <= x - px <= m /\ -m <= y - py <= m.

(** A pattern of which every command is one of [moves] with steps of at most [m] units
    per axis, or one of [ctrls] at the needle position; the needle starts at (px, py). *)
Fixpoint representable (m : Z) (moves ctrls : list Z) (px py : Z) (l : list (stitch Z)) : Prop :=
  match l with
  | [] => True
  | s :: r =>
      let c := cmd_of (scmd s) in
      (   In c moves /\ step_within m px py (sx s) (sy s)
       \/ In c ctrls /\ sx s = px /\ sy s = py)
      /\ representable m moves ctrls (sx s) (sy s) r
  end.

(** Rename each command with [f], dropping those it maps to None; positions are kept. *)
Fixpoint renamed {C} (f : Z -> option Z) (l : list (stitch C)) : list (stitch C) :=
  match l with
  | [] => []
  | s :: r => match f (scmd s) with
              | Some c => mkS (sx s) (sy s) c :: renamed f r
              | None => renamed f r
              end
  end.

(** Formats without a stop store a colour change instead; [drop] are not stored at all. *)
Definition as_color_change (drop : list Z) (c : Z) : option Z :=
  let c := cmd_of c in
  if existsb (Z.eqb c) drop then None
  else if c =? STOP then Some COLOR_CHANGE else Some c.
