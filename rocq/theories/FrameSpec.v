(** Frames: boxes of positions. *)
From Coq Require Import ZArith QArith List.
From Verif Require Import PyBase EmbConst.
Import ListNotations.
Open Scope Z_scope.

Record frame := mkFrame { left_ : Z; right_ : Z; top_ : Z; bottom_ : Z }.
Definition in_frame (f : frame) (x y : Q) : Prop :=
  (inject_Z (left_ f) <= x /\ x <= inject_Z (right_ f) /\ inject_Z (top_ f) <= y /\ y <= inject_Z (bottom_ f))%Q.
(** The frame with the origin. *)
Definition with_origin (f : frame) : frame :=
  mkFrame (Z.min 0 (left_ f)) (Z.max 0 (right_ f)) (Z.min 0 (top_ f)) (Z.max 0 (bottom_ f)).

(** The commands that say where to go. *)
Definition goes_somewhere (a : stitch Q) : Prop :=
  In (Z.land (scmd a) 255) [STITCH; NEEDLE_AT; SEW_TO; JUMP; SEQUIN_EJECT; FRAME_EJECT].
(** The commands that put the needle or a sequin into the cloth. *)
Definition pierces (a : stitch Q) : Prop := In (Z.land (scmd a) 255) [STITCH; SEQUIN_EJECT].
(** The commands that change the transformation on the way. *)
Definition transforms (a : stitch Q) : Prop :=
  In (Z.land (scmd a) 255)
     [MATRIX_TRANSLATE; MATRIX_SCALE_ORIGIN; MATRIX_ROTATE_ORIGIN; MATRIX_SCALE; MATRIX_ROTATE; MATRIX_RESET].
(** The commands that tie here, wherever that is. *)
Definition ties_here (a : stitch Q) : Prop := In (Z.land (scmd a) 255) [TIE_ON; TIE_OFF].
(** Maximum stitch lengths asked for on the way are positive. *)
Definition positive_lengths (a : stitch Q) : Prop :=
  Z.land (scmd a) 255 = OPTION_MAX_STITCH_LENGTH -> (0 < sx a)%Q.

(** The place that settings give to (x, y): turned by an angle of cosine [c] and sine [s], scaled, moved. *)
Definition place (move scale : Q * Q) (c s x y : Q) : Q * Q :=
  ((x * c - y * s) * fst scale + fst move, (x * s + y * c) * snd scale + snd move)%Q.
