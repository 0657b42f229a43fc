(** What a VP3 file keeps of a pattern. *)
From Coq Require Import ZArith List Bool.
From Verif Require Import PyBase EmbConst ThreadModel.
Import ListNotations.
Open Scope Z_scope.

Definition silent (c : Z) : Prop := In c [JUMP; STOP; SEQUIN_MODE; SEQUIN_EJECT].

(** Steps between consecutive penetrations fit 16 bits; the last penetration was (px, py). *)
Definition step_16 (px py x y : Z) : Prop :=
  -32768 <= x - px <= 32767 /\ -32768 <= y - py <= 32767.

(** A block of stitches and trims (commands without effect may be mixed in). *)
Fixpoint block_ok (px py : Z) (l : list (stitch Z)) : Prop :=
  match l with
  | [] => True
  | s :: r =>
      (cmd_of (scmd s) = STITCH /\ step_16 px py (sx s) (sy s) /\ block_ok (sx s) (sy s) r)
      \/ ((cmd_of (scmd s) = TRIM \/ silent (cmd_of (scmd s))) /\ block_ok px py r)
  end.
(** Its penetrations, and its trims at the penetration before. *)
Fixpoint block_view (px py : Z) (l : list (stitch Z)) : list (stitch Z) :=
  match l with
  | [] => []
  | s :: r =>
      if cmd_of (scmd s) =? STITCH then mkS (sx s) (sy s) STITCH :: block_view (sx s) (sy s) r
      else if cmd_of (scmd s) =? TRIM then mkS px py TRIM :: block_view px py r
      else block_view px py r
  end.

Definition off_axes (x y : Z) : bool := negb (x =? 0) && negb (y =? 0).

(** A whole pattern: every colour change is made at the last penetration or at a place
    with both coordinates different from zero; END comes last if at all. *)
Fixpoint vp3_ok (px py : Z) (l : list (stitch Z)) : Prop :=
  match l with
  | [] => True
  | s :: r =>
      (cmd_of (scmd s) = STITCH /\ step_16 px py (sx s) (sy s) /\ vp3_ok (sx s) (sy s) r)
      \/ ((cmd_of (scmd s) = TRIM \/ silent (cmd_of (scmd s))) /\ vp3_ok px py r)
      \/ (cmd_of (scmd s) = COLOR_CHANGE /\
          (off_axes (sx s) (sy s) = true \/ (sx s = px /\ sy s = py)) /\ vp3_ok (sx s) (sy s) r)
      \/ (cmd_of (scmd s) = END /\ r = [])
  end.

(** What is read back: penetrations where they were; trims and colour changes at the
    penetration before; a move to the new place after a colour change off the axes; END
    is stored as a trim; jumps, stops and sequins are gone. *)
Fixpoint vp3_view (px py : Z) (l : list (stitch Z)) : list (stitch Z) :=
  match l with
  | [] => [mkS px py END]
  | s :: r =>
      if cmd_of (scmd s) =? STITCH then mkS (sx s) (sy s) STITCH :: vp3_view (sx s) (sy s) r
      else if cmd_of (scmd s) =? TRIM then mkS px py TRIM :: vp3_view px py r
      else if cmd_of (scmd s) =? END then [mkS px py TRIM; mkS px py END]
      else if cmd_of (scmd s) =? COLOR_CHANGE then
        mkS px py COLOR_CHANGE
        :: (if off_axes (sx s) (sy s) then mkS (sx s) (sy s) JUMP :: vp3_view (sx s) (sy s) r
            else vp3_view px py r)
      else vp3_view px py r
  end.

(** (cx, cy) is the middle of the smallest box around all commands. *)
Definition centred {C} (f : stitch C -> Z) (c : Z) (l : list (stitch C)) : Prop :=
  exists w, (forall s, In s l -> c - w <= f s <= c + w)
    /\ (exists s, In s l /\ f s = c - w) /\ (exists s, In s l /\ f s = c + w).

Definition small_coordinates (l : list (stitch Z)) : Prop :=
  forall s, In s l -> Z.abs (sx s) <= 10000000 /\ Z.abs (sy s) <= 10000000.

(** A text of fewer than 65536 ASCII characters. *)
Definition short_ascii (t : text) : Prop :=
  Forall (fun c => 0 <= c < 128) t /\ Z.of_nat (length t) < 65536.
Definition plain_text (o : option text) : Prop := match o with Some t => short_ascii t | None => True end.
Definition plain_texts (t : thread) : Prop :=
  plain_text (t_catalog t) /\ plain_text (t_description t) /\ plain_text (t_brand t).

Definition in_hundredths (l : list (stitch Z)) : list (stitch Z) :=
  map (fun s => mkS (100 * sx s) (100 * sy s) (scmd s)) l.

(** Steps between penetrations within a section, counted from the colour change that begins it, fit 16 bits; END comes
    last if at all.  Nothing is asked of the places of the colour changes. *)
Fixpoint vp3_steps (px py : Z) (l : list (stitch Z)) : Prop :=
  match l with
  | [] => True
  | s :: r =>
      (cmd_of (scmd s) = STITCH /\ step_16 px py (sx s) (sy s) /\ vp3_steps (sx s) (sy s) r)
      \/ ((cmd_of (scmd s) = TRIM \/ silent (cmd_of (scmd s))) /\ vp3_steps px py r)
      \/ (cmd_of (scmd s) = COLOR_CHANGE /\ vp3_steps (sx s) (sy s) r)
      \/ (cmd_of (scmd s) = END /\ r = [])
  end.
(** Every colour change is made at the last penetration (or the colour change before, or the origin), or at least two
    units from both axes. *)
Fixpoint near_changes (px py : Z) (l : list (stitch Z)) : Prop :=
  match l with
  | [] => True
  | s :: r =>
      if cmd_of (scmd s) =? STITCH then near_changes (sx s) (sy s) r
      else if cmd_of (scmd s) =? COLOR_CHANGE then
        ((2 <= Z.abs (sx s) /\ 2 <= Z.abs (sy s)) \/ (sx s = px /\ sy s = py)) /\ near_changes (sx s) (sy s) r
      else near_changes px py r
  end.
