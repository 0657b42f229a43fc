(** Designs with fractional coordinates in VP3 files. *)
From Coq Require Import ZArith QArith Qabs List Bool.
From Verif Require Import PyBase EmbConst.
Import ListNotations.
Open Scope Z_scope.

(** All commands lie within 1.6 metres of the origin on each axis. *)
Definition in_field (l : list (stitch Q)) : Prop :=
  Forall (fun s => (Qabs (sx s) <= 16000)%Q /\ (Qabs (sy s) <= 16000)%Q) l.

(** The commands of encoded designs with colour changes and without speed commands; END comes last if at all. *)
Definition vp3_command (c : Z) : Prop := In c [STITCH; TRIM; COLOR_CHANGE; JUMP; STOP; SEQUIN_MODE; SEQUIN_EJECT].
Fixpoint vp3_commands {C} (l : list (stitch C)) : Prop :=
  match l with
  | [] => True
  | s :: r => (vp3_command (cmd_of (scmd s)) /\ vp3_commands r) \/ (cmd_of (scmd s) = END /\ r = [])
  end.

(** Every colour change is made at least two units from both axes. *)
Definition changes_off_axes (l : list (stitch Q)) : Prop :=
  Forall (fun s => cmd_of (scmd s) = COLOR_CHANGE -> (2 <= Qabs (sx s))%Q /\ (2 <= Qabs (sy s))%Q) l.

(** A stitch of section k of the design, and the stitch loaded for it: in the same section, and less than one unit on
    each axis from where it was, but for the offset of the section. *)
Definition kept_with (shift : nat -> Q * Q) (a : nat * (Q * Q)) (b : nat * (Z * Z)) : Prop :=
  fst a = fst b /\
  (Qabs (inject_Z (fst (snd b)) - (fst (snd a) + fst (shift (fst a)))) < 1)%Q /\
  (Qabs (inject_Z (snd (snd b)) - (snd (snd a) + snd (shift (fst a)))) < 1)%Q.

(** Both parts of an offset are less than two units. *)
Definition below_two (d : Q * Q) : Prop := (Qabs (fst d) < 2)%Q /\ (Qabs (snd d) < 2)%Q.
