(** Parts shared by the stitch-stream readers and writers. *)
From Coq Require Import ZArith List.
From Verif Require Import PyBase EmbConst.
Import ListNotations.
Open Scope Z_scope.

(** A relative event (dx, dy, command): what a reader hands to the pattern methods
    [move], [stitch], [trim], ... (EmbPattern.py 231-304). *)
Notation rel := (stitch Z).

(** EmbPattern.py 508-518 ([add_stitch_relative] through [add_stitch_absolute]) applied
    to each event in turn, starting from the needle position (px, py). *)
Fixpoint apply_rel (px py : Z) (l : list rel) : list (stitch Z) :=
  match l with
  | [] => []
  | e :: r =>
      let x := px + sx e in
      let y := py + sy e in
      mkS x y (scmd e) :: apply_rel x y r
  end.

(** The loop head common to DstWriter.py 166-176, ExpWriter.py 15-25, JefWriter.py 141-151,
    TbfWriter.py 93-103, U01Writer.py 42-52, PecWriter.py 150-161:
      dx = int(round(x - xx)); dy = int(round(y - yy)); xx += dx; yy += dy
    [qz x xx] is int(round(x - xx)), with [xx] the integer needle position written so far. *)
Fixpoint quantise {C} (qz : C -> Z -> Z) (xx yy : Z) (l : list (stitch C)) : list rel :=
  match l with
  | [] => []
  | s :: r =>
      let dx := qz (sx s) xx in
      let dy := qz (sy s) yy in
      mkS dx dy (scmd s) :: quantise qz (xx + dx) (yy + dy) r
  end.

(** Integer coordinates: round() of an int is the int itself. *)
Definition qz_int (x xx : Z) : Z := x - xx.

(** [for ...: f.write(g(...))]: concatenates the written chunks, the first exception wins. *)
Fixpoint emit_all {A} (g : A -> res (list Z)) (l : list A) : res (list Z) :=
  match l with
  | [] => Ok []
  | a :: r => do h <- g a; do t <- emit_all g r; Ok (h ++ t)
  end.
