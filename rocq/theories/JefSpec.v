(** What a JEF file stores of a pattern. *)
From Coq Require Import ZArith List Bool.
From Verif Require Import PyBase EmbConst StreamSpec.
Import ListNotations.
Open Scope Z_scope.

Definition jef_representable : list (stitch Z) -> Prop :=
  representable 127 [STITCH; JUMP] [COLOR_CHANGE; STOP; TRIM; END] 0 0.

(** The commands read back (before trim interpolation).  A trim is stored as [n] jumps
    without displacement.  Of the stops within one colour section the first, third, ...
    are read as stops and the second, fourth, ... as colour changes. *)
Fixpoint jef_view (n : nat) (odd : bool) (l : list (stitch Z)) : list (stitch Z) :=
  match l with
  | [] => []
  | s :: r =>
      let c := cmd_of (scmd s) in
      if c =? STOP then
        mkS (sx s) (sy s) (if odd then COLOR_CHANGE else STOP) :: jef_view n (negb odd) r
      else if c =? COLOR_CHANGE then mkS (sx s) (sy s) c :: jef_view n false r
      else if c =? TRIM then repeat (mkS (sx s) (sy s) JUMP) n ++ jef_view n odd r
      else mkS (sx s) (sy s) c :: jef_view n odd r
  end.

(** Number of colour changes and stops. *)
Definition thread_commands {C} (l : list (stitch C)) : nat :=
  length (filter (fun s => (cmd_of (scmd s) =? COLOR_CHANGE) || (cmd_of (scmd s) =? STOP)) l).

(** Number of colour changes. *)
Definition color_changes {C} (l : list (stitch C)) : nat :=
  length (filter (fun s => cmd_of (scmd s) =? COLOR_CHANGE) l).

(** The pattern does not begin with a colour change (in particular it is not empty). *)
Definition starts_sewing {C} (l : list (stitch C)) : Prop :=
  match l with [] => False | s :: _ => cmd_of (scmd s) <> COLOR_CHANGE end.

(** END is the last command, or there is none. *)
Definition end_last {C} (l : list (stitch C)) : Prop :=
  before_end l = l \/ exists s, l = before_end l ++ [s].
