(** What a file must contain for the readers of JEF, PEC, PES, TBF, VP3 and XXX to accept it, written
    without the readers: sizes, numbers at fixed places and marks. *)
From Coq Require Import ZArith Bool List.
From Verif Require Import PyBase PatternModel.
Import ListNotations.
Open Scope Z_scope.

Definition a_file (file : list Z) : Prop := Forall (fun b => 0 <= b < 256) file.
(** The byte at a place, and the little-endian numbers of three and four bytes. *)
Definition at_ (k : nat) (file : list Z) : Z := nth k file 0.
Definition number32 (k : nat) (file : list Z) : Z :=
  at_ k file + 256 * at_ (k + 1) file + 65536 * at_ (k + 2) file + 16777216 * at_ (k + 3) file.
(** Bytes [k] to [k + n - 1] are there. *)
Definition has (k n : Z) (file : list Z) : Prop := k + n <= zlen file.

(** ** JEF: pairs of bytes; 80 02 and 80 01 are followed by a second pair, 80 with another byte ends.  The
    number of thread changes (80 01) in front of the end. *)
Fixpoint jef_changes (s : list Z) : Z :=
  match s with
  | a :: b :: r =>
      if negb (a =? 0x80) then jef_changes r
      else match r with
           | _ :: _ :: r' => if b =? 2 then jef_changes r' else if b =? 1 then 1 + jef_changes r' else 0
           | _ => 0
           end
  | _ => 0
  end.

(** ** TBF: triples of bytes, the third tells the kind.  The number of needle changes (81) in front of the
    first triple of an unknown kind. *)
Fixpoint tbf_needles (s : list Z) : Z :=
  match s with
  | _ :: _ :: kind :: r =>
      if kind =? 0x81 then 1 + tbf_needles r
      else if (kind =? 0x80) || (kind =? 0x90) || (kind =? 0x40) || (kind =? 0x86) then tbf_needles r
      else 0
  | _ => 0
  end.

(** ** XXX: records of two, four and five bytes, and the two marks of the end. *)
Inductive xxx_record : list Z -> Prop :=
| X_stitch a b : a <> 0x7D -> a <> 0x7E -> a <> 0x7F -> xxx_record [a; b]
| X_long a b c d e : a = 0x7D \/ a = 0x7E -> xxx_record [a; b; c; d; e]
| X_special b c d : b <> 0x7F -> b <> 0x18 -> xxx_record [0x7F; b; c; d].
Inductive xxx_mark : list Z -> Prop :=
| X_7f : xxx_mark [0x7F; 0x7F]
| X_18 : xxx_mark [0x7F; 0x18].
(** Records up to a mark, and whatever comes after. *)
Definition xxx_ended (s : list Z) : Prop :=
  exists records mark rest, s = concat records ++ mark ++ rest /\ Forall xxx_record records /\ xxx_mark mark.

(** ** PES: the eight bytes a file of version 5 or above starts with. *)
Definition pes_with_threads (file : list Z) : Prop :=
  (exists a b, firstn 8 file = [35; 80; 69; 83; 48; 48; a; b] /\
    ((a = 53 /\ (b = 48 \/ b = 53 \/ b = 54)) \/ ((a = 54 \/ a = 55 \/ a = 56 \/ a = 57) /\ b = 48))) \/
  firstn 8 file = [35; 80; 69; 83; 48; 49; 48; 48].
(** "#PEC0001" *)
Definition pec_signature (file : list Z) : Prop := firstn 8 file = [35; 80; 69; 67; 48; 48; 48; 49].
