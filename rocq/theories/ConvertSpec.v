(** Converting: a design as it comes out of a file. *)
From Coq Require Import ZArith QArith List.
From Verif Require Import PyBase EmbConst EncoderColorSpec.
Import ListNotations.
Open Scope Z_scope.

Definition whole (v : Q) : Prop := exists z, (v == inject_Z z)%Q.
(** Stitches, jumps, trims and colour changes at whole positions, and an END. *)
Definition file_design (l : list (stitch Q)) : Prop :=
  exists body e, l = body ++ [e] /\ scmd e = END /\
    Forall (fun a => In (scmd a) [STITCH; JUMP; TRIM; COLOR_CHANGE] /\ whole (sx a) /\ whole (sy a)) body.
(** The sections between the colour changes. *)
Definition sections (l : list (stitch Q)) : nat := S (count_occ Z.eq_dec (map scmd l) COLOR_CHANGE).
(** Something is sewn in section [k]. *)
Definition sewn_section (k : nat) (l : list (stitch Q)) : Prop := exists q, In (k, q) (coloured 0 l).

(** The same stitches in the same sections at the same positions. *)
Definition same_place (p : nat * (Q * Q)) (z : nat * (Z * Z)) : Prop :=
  fst p = fst z /\ (fst (snd p) == inject_Z (fst (snd z)))%Q /\ (snd (snd p) == inject_Z (snd (snd z)))%Q.
Definition same_sewing (src : list (stitch Q)) (sewn : list (nat * (Z * Z))) : Prop :=
  Forall2 same_place (coloured 0 src) sewn.

(** Two designs with the same stitches in the same sections at the same positions. *)
Definition same_stitches (l l' : list (stitch Q)) : Prop :=
  Forall2 (fun p q => fst p = fst q /\ (fst (snd p) == fst (snd q))%Q /\ (snd (snd p) == snd (snd q))%Q) (coloured 0 l) (coloured 0 l').
