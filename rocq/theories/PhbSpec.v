(** What PHB and PHC files contain. *)
From Coq Require Import Ascii String ZArith QArith List Bool.
From Verif Require Import PyBase EmbConst StreamSpec ThreadModel Utf8Model TextModel CompressModel PatternModel ColorFileModel RecordSpec BlockSpec PecFileModel PecFileSpec.
Import ListNotations.
Open Scope Z_scope.

(** The bytes [b] are in the file at the offset [o]. *)
Definition holds (file : list Z) (o : Z) (b : list Z) : Prop :=
  exists before after, file = before ++ b ++ after /\ zlen before = o.
(** The file from the offset [o] on. *)
Definition ends_with (file : list Z) (o : Z) (b : list Z) : Prop :=
  exists before, file = before ++ b /\ zlen before = o.
Definition unsigned (n v : Z) : Prop := 0 <= v < 2 ^ n.

(** A colour of the Brother palette by its code; codes start again after 64. *)
Definition brother (code : Z) : thread :=
  match nth_error pec_threads (Z.to_nat (code mod 65)) with
  | Some (Some t) => t
  | _ => plain_thread 0
  end.

(** The colour codes, and the three offsets that lead to the stitches [block]. *)
Definition phb_file (file codes : list Z) (a b c : Z) (block : list Z) : Prop :=
  unsigned 16 (zlen codes) /\ unsigned 32 a /\ unsigned 32 b /\ unsigned 32 c /\
  holds file 0x71 (le16 (zlen codes) ++ codes) /\
  holds file 0x54 (le32 a) /\
  holds file (0x52 + a) (le32 b) /\
  holds file (0x52 + a + b + 2) (le32 c) /\
  exists n gap, 0 <= n < 256 /\ zlen gap = n + 0x15 /\ ends_with file (0x52 + a + b + 2 + c + 14) (n :: gap ++ block).

(** The size of the pictures, the codes, the pictures, and the offsets that lead to the stitches. *)
Definition phc_file (file codes : list Z) (stride height : Z) (pictures : list (list Z)) (block : list Z) : Prop :=
  unsigned 16 (zlen codes) /\ 0 <= stride < 256 /\ 0 <= height < 256 /\
  List.length pictures = List.length codes /\ Forall (fun p => zlen p = stride * height) pictures /\
  (exists u, holds file 0x4A ([height; u; stride] ++ le16 (zlen codes) ++ codes ++ concat pictures)) /\
  exists add gap offset, 0 <= add < 256 /\ zlen gap = 4 /\ unsigned 16 offset /\
    holds file 0x2B (add :: gap ++ le16 offset) /\
    exists bounds m sections n last, unsigned 16 (zlen bounds) /\ unsigned 32 m /\ zlen sections = m + 10 /\
      0 <= n < 256 /\ zlen last = n + 0x1D /\
      ends_with file (offset + add) (le16 (zlen bounds) ++ bounds ++ le32 m ++ sections ++ n :: last ++ block).
(** The pictures read: the first is of the whole design, the next ones of the colours in order. *)
Fixpoint phc_pictures (i stride : Z) (pictures : list (list Z)) (of : list (option thread)) : metadata :=
  match pictures, of with
  | p :: ps, t :: ts => (text_of "pec_graphic_" ++ str_of_int i, Meta_graphic p stride t) :: phc_pictures (i + 1) stride ps ts
  | _, _ => []
  end.
