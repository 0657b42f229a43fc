(** From a design to what is loaded from its file: which stitches are still there. *)
From Coq Require Import ZArith QArith List.
From Verif Require Import PyBase EmbConst EncoderSpec.
Import ListNotations.
Open Scope Z_scope.

(** The stitches of a design: STITCH, NEEDLE_AT and SEW_TO up to the first END. *)
Definition design_stitches (l : list (stitch Q)) : list (stitch Q) := filter sews_src (until_end l).

(** The point [z] is at most half a unit away from the stitch on each axis. *)
Definition half_unit (a : stitch Q) (z : Z * Z) : Prop :=
  (- (1 # 2) <= sx a - inject_Z (fst z) /\ sx a - inject_Z (fst z) <= 1 # 2 /\
   - (1 # 2) <= sy a - inject_Z (snd z) /\ sy a - inject_Z (snd z) <= 1 # 2)%Q.

(** Every stitch of the design is among the needle points, in order; there may be others. *)
Definition stitches_kept (src : list (stitch Q)) (points : list (Z * Z)) : Prop :=
  exists zs, Forall2 half_unit (design_stitches src) zs /\ subseq zs points.
(** The needle points are the stitches of the design, one for one. *)
Definition stitches_exact (src : list (stitch Q)) (points : list (Z * Z)) : Prop :=
  Forall2 half_unit (design_stitches src) points.
