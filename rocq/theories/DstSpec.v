(** What a DST file is able to hold, in terms of the pattern's commands only. *)
From Coq Require Import ZArith List Bool.
From Verif Require Import PyBase EmbConst StreamSpec.
Import ListNotations.
Open Scope Z_scope.

(** A pattern that DST can represent, the needle standing at (px, py) and sequin mode
    being [sq]: stitches, and jumps outside / ejects inside sequin mode, of at most 121
    units per axis; colour changes, stops, sequin mode toggles, trims (outside sequin
    mode) and END at the needle position. *)
Fixpoint dst_representable (trims : bool) (sq : bool) (px py : Z) (l : list (stitch Z)) : Prop :=
  match l with
  | [] => True
  | s :: r =>
      let c := cmd_of (scmd s) in
      (   c = STITCH /\ step_within 121 px py (sx s) (sy s)
       \/ c = JUMP /\ sq = false /\ step_within 121 px py (sx s) (sy s)
       \/ c = SEQUIN_EJECT /\ sq = true /\ step_within 121 px py (sx s) (sy s)
       \/ (c = COLOR_CHANGE \/ c = STOP \/ c = SEQUIN_MODE \/ c = END
           \/ c = TRIM /\ trims = true /\ sq = false) /\ sx s = px /\ sy s = py)
      /\ dst_representable trims (if c =? SEQUIN_MODE then negb sq else sq) (sx s) (sy s) r
  end.

(** The command as DST stores it: DST has no stop, it stores a colour change. *)
Definition dst_name (c : Z) : Z :=
  let c := cmd_of c in if c =? STOP then COLOR_CHANGE else c.

(** The pattern as a DST reader sees it, each trim at (x, y) replaced by jumps to the
    positions (x + d, y + d) for the given offsets d. *)
Fixpoint dst_view (ex : list Z) (l : list (stitch Z)) : list (stitch Z) :=
  match l with
  | [] => []
  | s :: r =>
      (if cmd_of (scmd s) =? TRIM
       then map (fun d => mkS (sx s + d) (sy s + d) JUMP) ex
       else [mkS (sx s) (sy s) (dst_name (scmd s))]) ++ dst_view ex r
  end.
