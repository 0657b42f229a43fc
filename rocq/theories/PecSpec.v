(** What a PEC stitch block stores of a pattern, stated on absolute patterns. *)
From Coq Require Import ZArith List Bool.
From Verif Require Import PyBase EmbConst StreamSpec.
Import ListNotations.
Open Scope Z_scope.

(** Patterns the PEC block can hold: 12-bit steps, control commands at the needle position. *)
Definition pec_representable : list (stitch Z) -> Prop :=
  representable 2047 [STITCH; JUMP] [COLOR_CHANGE; STOP; TRIM; END] 0 0.

(** The commands read back.  A jump that is not the very first command is read with a trim
    in front.  A needle-down (a stitch at the needle position) is added before the first
    stitch after a jump if it moves on both axes, and before a colour change that follows a
    jump.  Stops and trims are not stored.  The start of the design counts as a jump. *)
Fixpoint pec_view (jumped first : bool) (px py : Z) (l : list (stitch Z)) : list (stitch Z) :=
  match l with
  | [] => []
  | s :: r =>
      let c := cmd_of (scmd s) in
      if c =? STITCH then
        (if jumped && (negb (sx s =? px) && negb (sy s =? py)) then [mkS px py STITCH] else [])
        ++ mkS (sx s) (sy s) STITCH :: pec_view false false (sx s) (sy s) r
      else if c =? JUMP then
        (if first then [] else [mkS px py TRIM])
        ++ mkS (sx s) (sy s) JUMP :: pec_view true false (sx s) (sy s) r
      else if c =? COLOR_CHANGE then
        (if jumped then [mkS px py STITCH] else [])
        ++ mkS (sx s) (sy s) COLOR_CHANGE :: pec_view false false (sx s) (sy s) r
      else pec_view jumped false (sx s) (sy s) r
  end.

(** The sewing of a pattern: stitches that move, colour changes and jumps, in order. *)
Fixpoint sewing (px py : Z) (l : list (stitch Z)) : list (stitch Z) :=
  match l with
  | [] => []
  | s :: r =>
      let c := cmd_of (scmd s) in
      (if c =? STITCH then
         if (sx s =? px) && (sy s =? py) then [] else [mkS (sx s) (sy s) STITCH]
       else if (c =? JUMP) || (c =? COLOR_CHANGE) then [mkS (sx s) (sy s) c] else [])
      ++ sewing (sx s) (sy s) r
  end.

(** [a] is obtained from [b] by deleting elements. *)
Inductive subseq {A} : list A -> list A -> Prop :=
| subseq_nil : forall b, subseq [] b
| subseq_keep : forall x a b, subseq a b -> subseq (x :: a) (x :: b)
| subseq_skip : forall x a b, subseq a b -> subseq a (x :: b).

(** Only the stitches and colour changes. *)
Definition penetrations (l : list (stitch Z)) : list (stitch Z) :=
  map (fun s => mkS (sx s) (sy s) (cmd_of (scmd s)))
      (filter (fun s => (cmd_of (scmd s) =? STITCH) || (cmd_of (scmd s) =? COLOR_CHANGE)) l).
