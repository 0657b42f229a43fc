(** What TBF, XXX and U01 files store of a pattern. *)
From Coq Require Import ZArith List Bool.
From Verif Require Import PyBase EmbConst FunctionsModel StreamSpec.
Import ListNotations.
Open Scope Z_scope.

(** The needle number attached to a command. *)
Definition needle_of (c : Z) : option Z := let '(_, _, n, _) := decode_embroidery_command c in n.

(** ** TBF: needle numbers 1..255, jumps that move, steps within 127. *)
Fixpoint tbf_ok (px py : Z) (l : list (stitch Z)) : Prop :=
  match l with
  | [] => True
  | s :: r =>
      let c := cmd_of (scmd s) in
      (  c = STITCH /\ step_within 127 px py (sx s) (sy s)
      \/ c = JUMP /\ step_within 127 px py (sx s) (sy s) /\ (sx s <> px \/ sy s <> py)
      \/ (c = STOP \/ c = TRIM \/ c = END) /\ sx s = px /\ sy s = py
      \/ c = NEEDLE_SET /\ sx s = px /\ sy s = py /\ exists n, needle_of (scmd s) = Some n /\ 1 <= n <= 255)
      /\ tbf_ok (sx s) (sy s) r
  end.

(** Commands are read back as they were, needle commands with just the needle number. *)
Definition tbf_as (c : Z) : option Z :=
  let k := cmd_of c in
  if k =? NEEDLE_SET then Some (encode_thread_change NEEDLE_SET None (needle_of c) None) else Some k.

(** ** XXX: stitches within 123, jumps within 127. *)
Fixpoint xxx_ok (px py : Z) (l : list (stitch Z)) : Prop :=
  match l with
  | [] => True
  | s :: r =>
      let c := cmd_of (scmd s) in
      (  c = STITCH /\ step_within 123 px py (sx s) (sy s)
      \/ c = JUMP /\ step_within 127 px py (sx s) (sy s)
      \/ (c = STOP \/ c = COLOR_CHANGE \/ c = TRIM \/ c = END) /\ sx s = px /\ sy s = py)
      /\ xxx_ok (sx s) (sy s) r
  end.

(** ** U01: steps within 255, needle numbers 1..14, at most one speed change before each
    movement, and that movement not of length zero ([pend]: a speed change is pending). *)
Fixpoint u01_ok (pend : bool) (px py : Z) (l : list (stitch Z)) : Prop :=
  match l with
  | [] => True
  | s :: r =>
      let c := cmd_of (scmd s) in
        (c = SLOW \/ c = FAST) /\ pend = false /\ sx s = px /\ sy s = py /\ u01_ok true (sx s) (sy s) r
      \/ (c = STITCH \/ c = JUMP) /\ step_within 255 px py (sx s) (sy s)
         /\ (pend = true -> sx s <> px \/ sy s <> py) /\ u01_ok false (sx s) (sy s) r
      \/ (c = STOP \/ c = TRIM \/ c = END) /\ sx s = px /\ sy s = py /\ u01_ok pend (sx s) (sy s) r
      \/ c = NEEDLE_SET /\ sx s = px /\ sy s = py
         /\ (exists n, needle_of (scmd s) = Some n /\ 1 <= n <= 14) /\ u01_ok pend (sx s) (sy s) r
  end.

(** Needle commands are read with just the needle number. *)
Definition u01_name (c : Z) : Z :=
  let k := cmd_of c in
  if k =? NEEDLE_SET then encode_thread_change NEEDLE_SET None (needle_of c) None else k.

(** Speed changes are read just before the next movement. *)
Fixpoint u01_view (pend : option Z) (px py : Z) (l : list (stitch Z)) : list (stitch Z) :=
  match l with
  | [] => []
  | s :: r =>
      let c := cmd_of (scmd s) in
      if (c =? SLOW) || (c =? FAST) then u01_view (Some c) px py r
      else if (c =? STITCH) || (c =? JUMP) then
        match pend with Some k => [mkS px py k] | None => [] end
        ++ mkS (sx s) (sy s) c :: u01_view None (sx s) (sy s) r
      else mkS (sx s) (sy s) (u01_name (scmd s)) :: u01_view pend (sx s) (sy s) r
  end.
