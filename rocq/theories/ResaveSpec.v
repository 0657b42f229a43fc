(** Saving a loaded design again. *)
From Coq Require Import ZArith QArith List Bool.
From Verif Require Import PyBase EmbConst StreamSpec.
Import ListNotations.
Open Scope Z_scope.

(** Whether the thread is cut after a command: a stitch makes it uncut, a trim, stop or change of
    thread cuts it. *)
Definition cut_by (cut : bool) (c : Z) : bool :=
  let k := cmd_of c in
  if k =? STITCH then false
  else if (k =? TRIM) || (k =? STOP) || (k =? COLOR_CHANGE) || (k =? NEEDLE_SET) then true
  else cut.

(** With the thread cut the needle goes down only where it stands already; with the thread cut
    there is no further trim.  [same] compares coordinates. *)
Fixpoint settles {C} (same : C -> C -> Prop) (cut : bool) (px py : C) (l : list (stitch C)) : Prop :=
  match l with
  | [] => True
  | a :: r =>
      (cut = true -> cmd_of (scmd a) = STITCH -> same (sx a) px /\ same (sy a) py) /\
      (cut = true -> cmd_of (scmd a) <> TRIM) /\
      settles same (cut_by cut (scmd a)) (sx a) (sy a) r
  end.

(** The same without the condition on trims. *)
Fixpoint lands {C} (same : C -> C -> Prop) (cut : bool) (px py : C) (l : list (stitch C)) : Prop :=
  match l with
  | [] => True
  | a :: r =>
      (cut = true -> cmd_of (scmd a) = STITCH -> same (sx a) px /\ same (sy a) py) /\
      lands same (cut_by cut (scmd a)) (sx a) (sy a) r
  end.
(** The commands without the trims of a thread that is cut already. *)
Fixpoint without_cut_trims {C} (cut : bool) (l : list (stitch C)) : list (stitch C) :=
  match l with
  | [] => []
  | a :: r => (if cut && (cmd_of (scmd a) =? TRIM) then [] else [a]) ++ without_cut_trims (cut_by cut (scmd a)) r
  end.
(** Every jump is made with cut thread. *)
Fixpoint jumps_cut {C} (cut : bool) (l : list (stitch C)) : Prop :=
  match l with
  | [] => True
  | a :: r => (cmd_of (scmd a) = JUMP -> cut = true) /\ jumps_cut (cut_by cut (scmd a)) r
  end.

(** Steps of at most [m], everything but stitches and jumps where the needle stands, and one END. *)
Definition steady (m : Z) (l : list (stitch Z)) : Prop :=
  (exists body e, l = body ++ [e] /\ scmd e = END /\
     Forall (fun a => In (scmd a) [STITCH; JUMP; TRIM; COLOR_CHANGE; STOP]) body) /\
  representable m [STITCH; JUMP] [TRIM; COLOR_CHANGE; STOP; END] 0 0 l /\
  settles eq true 0 0 l.

(** The same without the condition on what is done with cut thread. *)
Definition walking (m : Z) (l : list (stitch Z)) : Prop :=
  (exists body e, l = body ++ [e] /\ scmd e = END /\
     Forall (fun a => In (scmd a) [STITCH; JUMP; TRIM; COLOR_CHANGE; STOP]) body) /\
  representable m [STITCH; JUMP] [TRIM; COLOR_CHANGE; STOP; END] 0 0 l.

(** The same without the condition on trims. *)
Definition landing (m : Z) (l : list (stitch Z)) : Prop :=
  (exists body e, l = body ++ [e] /\ scmd e = END /\
     Forall (fun a => In (scmd a) [STITCH; JUMP; TRIM; COLOR_CHANGE; STOP]) body) /\
  representable m [STITCH; JUMP] [TRIM; COLOR_CHANGE; STOP; END] 0 0 l /\
  lands eq true 0 0 l.

(** Something is sewn before the first colour change. *)
Fixpoint sewn_first {C} (l : list (stitch C)) : Prop :=
  match l with
  | [] => True
  | a :: r => cmd_of (scmd a) = STITCH \/ cmd_of (scmd a) <> COLOR_CHANGE /\ sewn_first r
  end.

(** The same commands, without the numbers of threads and needles, at the same positions. *)
Definition same_commands (l : list (stitch Q)) (l' : list (stitch Z)) : Prop :=
  Forall2 (fun a b => sx a = inject_Z (sx b) /\ sy a = inject_Z (sy b) /\ cmd_of (scmd a) = cmd_of (scmd b)) l l'.
