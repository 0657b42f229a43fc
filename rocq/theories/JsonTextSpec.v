(** Texts and numbers that JSON can hold: conditions for C210 and C211. *)
From Coq Require Import ZArith List.
From Verif Require Import PyBase ThreadModel TextModel CsvModel JsonModel.
Import ListNotations.
Open Scope Z_scope.

Definition high_half (c : Z) : Prop := 0xd800 <= c <= 0xdbff.
Definition low_half (c : Z) : Prop := 0xdc00 <= c <= 0xdfff.
(** A Python str in which no high surrogate stands directly before a low one (single surrogates are allowed). *)
Fixpoint no_pairs (t : text) : Prop :=
  match t with
  | c :: (d :: _) as r => ~ (high_half c /\ low_half d) /\ no_pairs r
  | _ => True
  end.
Definition sound_text (t : text) : Prop := Forall (fun c => 0 <= c < 0x110000) t /\ no_pairs t.

Definition numeral (c : Z) : Prop := 48 <= c <= 57.
(** A number with a fraction or an exponent, as repr writes a finite float: sign, digits without leading zeros, fraction, exponent. *)
Definition decimal_text (t : text) : Prop :=
  exists m i fr ex, t = m ++ i ++ fr ++ ex /\ (m = [] \/ m = [45]) /\
    (i = [48] \/ exists c r, i = c :: r /\ 49 <= c <= 57 /\ Forall numeral r) /\
    (fr = [] \/ exists d r, fr = 46 :: d :: r /\ Forall numeral (d :: r)) /\
    (ex = [] \/ exists e g d r, ex = e :: g ++ d :: r /\ (e = 101 \/ e = 69) /\ (g = [] \/ g = [43] \/ g = [45]) /\ Forall numeral (d :: r)) /\
    fr ++ ex <> [].

(** The texts of a thread and of an entry of the metadata. *)
Definition sound_option (t : option text) : Prop := match t with Some t => sound_text t | None => True end.
Definition sound_thread (t : thread) : Prop :=
  sound_option (t_description t) /\ sound_option (t_catalog t) /\ sound_option (t_details t) /\ sound_option (t_brand t) /\ sound_option (t_chart t) /\ sound_option (t_weight t).
Definition sound_extra {F} (e : text * value F) : Prop := sound_text (fst e) /\ match snd e with VStr t => sound_text t | _ => True end.
(** A line feed, or a printable character of ASCII. *)
Definition printable (c : Z) : Prop := 32 <= c <= 126.
Definition plain_char (c : Z) : Prop := c = 10 \/ printable c.
(** The blanks of JSON. *)
Definition json_blank (c : Z) : Prop := c = 32 \/ c = 9 \/ c = 10 \/ c = 13.
(** A character of a decoded file: UTF-8 and UTF-16 decoding give no surrogates. *)
Definition valid_char (c : Z) : Prop := 0 <= c < 0xd800 \/ 0xe000 <= c < 0x110000.
(** The text with another line end. *)
Definition line_ends (e : text) (t : text) : text := flat_map (fun c => if c =? 10 then e else [c]) t.
