(** What a ZHS file contains. *)
From Coq Require Import Ascii String ZArith List Bool.
From Verif Require Import PyBase EmbConst StreamSpec ThreadModel Utf8Model Utf8Proofs TextModel PatternModel RecordSpec BlockSpec PhbSpec.
Import ListNotations.
Open Scope Z_scope.

(** A thread of the file: its colour, its texts (the catalogue number with two more characters
    behind it) and anything else stored behind them. *)
Record zhs_entry := mkZ { z_color : Z; z_chart : text; z_description : text; z_number : text; z_more : list text }.
Definition unmarked (t : text) : Prop := Forall (fun c => scalar c /\ c <> 38) t.
Definition zhs_entry_ok (e : zhs_entry) : Prop :=
  0 <= z_color e < 2 ^ 24 /\ unmarked (z_chart e) /\ unmarked (z_description e) /\ unmarked (z_number e) /\ Forall unmarked (z_more e).
(** "&$chart&#description&#number", and "&#" before whatever follows. *)
Definition zhs_text (e : zhs_entry) : text :=
  text_of "&$" ++ z_chart e ++ text_of "&#" ++ z_description e ++ text_of "&#" ++ z_number e
  ++ flat_map (fun t => text_of "&#" ++ t) (z_more e).
(** The thread meant: empty texts are missing texts, and so is a number of three characters or less. *)
Definition given (t : text) : option text := match t with [] => None | _ => Some t end.
Definition zhs_number (t : text) (n : option text) : Prop :=
  (exists a b c, t = a ++ [b; c] /\ 2 <= zlen a /\ n = Some a) \/ (zlen t <= 3 /\ n = None).
Definition zhs_means (e : zhs_entry) (t : thread) : Prop :=
  t_color t = z_color e /\ t_description t = given (z_description e) /\ t_chart t = given (z_chart e) /\
  zhs_number (z_number e) (t_catalog t) /\ t_details t = None /\ t_brand t = None /\ t_weight t = None.

(** The two offsets at 0x0F, the threads and their texts at the second of them ([lead] before the
    first text), the stitches at the first. [extra] are texts for threads that are not there. *)
Definition zhs_file (file : list Z) (entries extra : list zhs_entry) (stitches : list Z) : Prop :=
  exists start header lead texts, unsigned 32 start /\ unsigned 32 header /\ zlen entries < 256 /\
    unmarked lead /\ Forall zhs_entry_ok (entries ++ extra) /\
    utf8_encode (lead ++ flat_map zhs_text (entries ++ extra)) = Ok texts /\ zlen texts < 2 ^ 16 /\
    holds file 0x0F (le32 start ++ le32 header) /\
    holds file header (zlen entries :: flat_map (fun e => be24 (z_color e)) entries ++ le16 (zlen texts) ++ texts) /\
    ends_with file start stitches.
