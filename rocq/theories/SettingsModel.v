(** EmbPattern.write_embroidery: completing the caller's settings with the format's defaults. *)
From Coq Require Import ZArith List Bool.
From Verif Require Import PyBase EmbConst NumModel EncoderModel.
Import ListNotations.
Open Scope Z_scope.

Section Settings.
Context (N : Num).

(** The keys of the settings dictionary read by write_embroidery and by Transcoder.__init__
    (EmbPattern.py 1576-1631, EmbEncoder.py 11-67).  [Other n] stands for any other key. *)
Inductive key := KEncode | KMaxStitch | KMaxJump | KFullJump | KRound | KNeedleCount | KThreadChange | KStripSequins
  | KSequin | KSpeeds | KExplicitTrim | KTieOn | KTieOff | KLongStitch | KTranslate | KScale | KRotate | Other (n : Z).

(** The values a key can have.  Simplified: one type per key, so no ill-typed values; a value under
    a key that is not read is a number. *)
Definition value (k : key) : Type :=
  match k with
  | KMaxStitch | KMaxJump => limit N
  | KEncode | KFullJump | KRound | KStripSequins | KSpeeds | KExplicitTrim => bool
  | KNeedleCount | KThreadChange | KSequin | KLongStitch | Other _ => Z
  | KTieOn | KTieOff => tie_value
  | KTranslate => F N * F N
  | KScale => scale_value N
  | KRotate => F N
  end.

Definition key_eq (a b : key) : {a = b} + {a <> b}.
Proof. decide equality. apply Z.eq_dec. Defined.

(** A dict, oldest entry first, one entry per key. *)
Definition sdict := list {k : key & value k}.

Fixpoint lookup (k : key) (d : sdict) : option (value k) :=
  match d with
  | [] => None
  | existT _ k' v :: r =>
      match key_eq k' k with
      | left e => Some (eq_rect k' value v k e)
      | right _ => lookup k r
      end
  end.

(** The attributes of a writer module; None: AttributeError. *)
Definition attributes := forall k : key, option (value k).

(** EmbPattern.py 1577-1581 and the like:
      if not (key in settings): try: settings[key] = writer.ATTR except AttributeError: pass *)
Definition set_default (w : attributes) (d : sdict) (k : key) : sdict :=
  match lookup k d, w k with
  | None, Some v => d ++ [existT _ k v]
  | _, _ => d
  end.

(** The keys completed, in the order of EmbPattern.py 1577-1631. *)
Definition defaulted : list key :=
  [KMaxJump; KMaxStitch; KFullJump; KRound; KSpeeds; KSequin; KThreadChange; KExplicitTrim; KTranslate; KScale; KRotate].

(* EmbPattern.py 1577-1631 *)
Definition prepare (w : attributes) (d : sdict) : sdict := fold_left (set_default w) defaulted d.

(** EmbPattern.py 1571-1576: whether the pattern is encoded at all; writers without ENCODE do. *)
Definition encodes (w : attributes) (d : sdict) : bool :=
  match lookup KEncode d with
  | Some b => b
  | None => match w KEncode with Some b => b | None => true end
  end.

(** ** Objects *)
(** heap[l] = d *)
Definition store (heap : list sdict) (l : nat) (d : sdict) : list sdict := firstn l heap ++ d :: skipn (S l) heap.
Definition set_default_at (w : attributes) (l : nat) (heap : list sdict) (k : key) : list sdict :=
  match nth_error heap l with
  | Some d => store heap l (set_default w d k)
  | None => heap
  end.

(** EmbPattern.py 1567-1632 on a heap of dictionary objects, [arg] the caller's one (None: no
    settings given): the heap afterwards and the dictionary handed to the encoder and the writer.
    None only if [arg] is no object. *)
Definition settings_object (w : attributes) (heap : list sdict) (arg : option nat) : option (list sdict * nat) :=
  match match arg with None => Some [] | Some l => nth_error heap l end with
  | None => None
  | Some d =>
      let l := length heap in
      let heap := heap ++ [d] in                       (* {} or settings.copy() *)
      Some (if encodes w d then fold_left (set_default_at w l) defaulted heap else heap, l)
  end.

(** ** What the encoder reads *)
(* EmbEncoder.py 11-67 *)
Definition read_settings (d : sdict) : settings N :=
  mkSettings N (lookup KMaxStitch d) (lookup KMaxJump d) (lookup KFullJump d) (lookup KRound d)
    (lookup KNeedleCount d) (lookup KThreadChange d) (lookup KStripSequins d) (lookup KSequin d)
    (lookup KSpeeds d) (lookup KExplicitTrim d) (lookup KTieOn d) (lookup KTieOff d) (lookup KLongStitch d)
    (lookup KTranslate d) (lookup KScale d) (lookup KRotate d).

(** ** The writer modules *)
(** [iz] is a Python int as a coordinate. *)
Section Writers.
Context (iz : Z -> F N).
Definition no_attributes : attributes := fun _ => None.

Definition lengths (m : Z) (w : attributes) : attributes := fun k =>
  match k return option (value k) with
  | KMaxStitch => Some (Fin N (iz m))
  | KMaxJump => Some (Fin N (iz m))
  | k => w k
  end.
Definition rounding_of (b : bool) (w : attributes) : attributes := fun k =>
  match k return option (value k) with KRound => Some b | k => w k end.
Definition full_jump_of (b : bool) (w : attributes) : attributes := fun k =>
  match k return option (value k) with KFullJump => Some b | k => w k end.
Definition sequin_of (c : Z) (w : attributes) : attributes := fun k =>
  match k return option (value k) with KSequin => Some c | k => w k end.
Definition speeds_of (b : bool) (w : attributes) : attributes := fun k =>
  match k return option (value k) with KSpeeds => Some b | k => w k end.
Definition change_of (c : Z) (w : attributes) : attributes := fun k =>
  match k return option (value k) with KThreadChange => Some c | k => w k end.
Definition explicit_of (b : bool) (w : attributes) : attributes := fun k =>
  match k return option (value k) with KExplicitTrim => Some b | k => w k end.
Definition encode_of (b : bool) (w : attributes) : attributes := fun k =>
  match k return option (value k) with KEncode => Some b | k => w k end.

(* DstWriter.py 4-8 *)
Definition dst_attributes : attributes :=
  lengths 121 (rounding_of true (full_jump_of false (sequin_of CONTINGENCY_SEQUIN_UTILIZE no_attributes))).
(* ExpWriter.py 3-7 *)
Definition exp_attributes : attributes :=
  lengths 127 (rounding_of true (full_jump_of true (sequin_of CONTINGENCY_SEQUIN_JUMP no_attributes))).
(* JefWriter.py 7-11 *)
Definition jef_attributes : attributes := exp_attributes.
(* PecWriter.py 12-16, PesWriter.py 13-17 *)
Definition pec_attributes : attributes :=
  lengths 2047 (rounding_of true (full_jump_of true (sequin_of CONTINGENCY_SEQUIN_JUMP no_attributes))).
(* TbfWriter.py 5-10 *)
Definition tbf_attributes : attributes :=
  lengths 127 (rounding_of true (full_jump_of false (change_of NEEDLE_SET (explicit_of true no_attributes)))).
(* XxxWriter.py 4-7 *)
Definition xxx_attributes : attributes := lengths 124 (rounding_of true (full_jump_of false no_attributes)).
(* U01Writer.py 4-9 *)
Definition u01_attributes : attributes :=
  lengths 127 (full_jump_of false (sequin_of CONTINGENCY_SEQUIN_JUMP
    (speeds_of true (change_of NEEDLE_SET no_attributes)))).
(* Vp3Writer.py 11-17 *)
Definition vp3_attributes : attributes := fun k =>
  match k return option (value k) with
  | KMaxStitch => Some (Fin N (iz 255))
  | KMaxJump => Some (Fin N (iz 3200))
  | k => full_jump_of false (sequin_of CONTINGENCY_SEQUIN_JUMP no_attributes) k
  end.
(* CsvWriter.py 7-9 *)
Definition csv_attributes : attributes :=
  encode_of false (speeds_of true (sequin_of CONTINGENCY_SEQUIN_UTILIZE no_attributes)).
(* JsonWriter.py 3, ColWriter.py 3, EdrWriter.py 3, InfWriter.py 3 *)
Definition plain_attributes : attributes := encode_of false no_attributes.
End Writers.
End Settings.
