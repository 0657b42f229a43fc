(** C210, C211: the text of JSON files. *)
From Coq Require Import Ascii String ZArith List Bool Lia.
From Verif Require Import PyBase BitLemmas EmbConst FunctionsModel ThreadModel TextModel NameModel CsvModel JsonModel JsonTextModel JsonTextSpec JsonTextProofs JsonFileProofs PropertiesCsv.
Import ListNotations.
Open Scope Z_scope.

Section files.
Context {F : Type}.
(** repr of a finite float, and float(): repr writes a decimal that float reads back. *)
Variable show : F -> text.
Variable read : text -> F.
Hypothesis floats : forall f, decimal_text (show f) /\ read (show f) = f.
Variable other : text -> Z.

(** C210.  Saving a pattern as JSON and opening the text of the file gives the stitches with the same ints and floats, the threads with all
    their texts, and the metadata that is text, int, bool or float. *)
Theorem C210_json_file_round_trip (stitches : list (stitch coord)) threads (extras : list (text * value F)) :
  Forall (fun s => 0 <= scmd s < 2 ^ 32 /\ In (scmd s mod 256) named_commands) stitches ->
  Forall sound_thread threads -> Forall sound_extra extras -> NoDup (map fst extras) ->
  json_open read other (json_save show stitches threads extras) =
  Ok (stitches,
      map (fun t => mkL (Some (t_color t mod 2 ^ 24)) (t_description t) (t_catalog t) (t_details t) (t_brand t)
                      (t_chart t) (t_weight t)) threads,
      filter (fun e => match snd e with VOther => false | _ => true end) extras).
Proof.
  intros HS HT HE HN. unfold json_open, json_save. rewrite loads_dump.
  - cbn [bindr]. rewrite (to_of_document show read) by (apply filter_nodup; exact HN). cbn [bindr]. apply C67_json_round_trip. exact HS.
  - apply document_sound; assumption.
  - intros [].
Qed.

(** The file is plain ASCII, whatever the texts. *)
Theorem C210_json_ascii (stitches : list (stitch coord)) threads (extras : list (text * value F)) :
  Forall plain_char (json_save show stitches threads extras).
Proof. apply (dump_plain show read). intros f. apply floats. Qed.

(** C211.  No proper prefix of a saved file is read; the error comes before anything is added to the pattern. *)
Theorem C211_truncated_refused (stitches : list (stitch coord)) threads (extras : list (text * value F)) head tail :
  Forall sound_thread threads -> Forall sound_extra extras ->
  json_save show stitches threads extras = head ++ tail -> tail <> [] ->
  json_open read other head = Err ValueError.
Proof.
  intros HT HE E Hq. unfold json_open. rewrite (loads_cut show read (of_document (json_write stitches threads extras)) head tail); [reflexivity| |exact I|exact E|exact Hq].
  apply document_sound; assumption.
Qed.
Lemma skip_blank : forall x, Forall json_blank x <-> skip x = [].
Proof.
  induction x as [|c x IH]; [split; [reflexivity|constructor]|]. cbn [skip]. rewrite Forall_cons_iff, IH.
  assert (B : is_space c = true <-> json_blank c) by (unfold is_space, json_blank; lia).
  destruct (is_space c); [tauto|]. split; [intros [H _]; apply B in H; discriminate H|discriminate].
Qed.
(** Blanks behind the file change nothing; anything else makes it unreadable. *)
Theorem C211_trailing_blanks (stitches : list (stitch coord)) threads (extras : list (text * value F)) x :
  Forall sound_thread threads -> Forall sound_extra extras -> Forall json_blank x ->
  json_open read other (json_save show stitches threads extras ++ x) = json_open read other (json_save show stitches threads extras).
Proof.
  intros HT HE HX. unfold json_open, json_save. apply skip_blank in HX. rewrite loads_dump, loads_behind, HX; [reflexivity| |intros []| |intros []]; apply document_sound; assumption.
Qed.
Theorem C211_trailing_text_refused (stitches : list (stitch coord)) threads (extras : list (text * value F)) x :
  Forall sound_thread threads -> Forall sound_extra extras -> ~ Forall json_blank x ->
  json_open read other (json_save show stitches threads extras ++ x) = Err ValueError.
Proof.
  intros HT HE HX. unfold json_open, json_save. rewrite loads_behind; [|apply document_sound; assumption|intros []].
  destruct (skip x) eqn:E; [contradiction HX; apply skip_blank; exact E|reflexivity].
Qed.
End files.

(** A high surrogate before a low one comes back as one character: what excludes such texts above is needed. *)
Theorem C210_pair_merged : exists (t : thread) (l : loaded),
  t_description t = Some [0xd83d; 0xde00] /\ l_description l = Some [0x1f600] /\
  json_open (F := Z) (fun _ => 0) (fun _ => 0) (json_save str_of_int [] [t] []) = Ok ([], [l], []).
Proof.
  exists (mkT 0 (Some [0xd83d; 0xde00]) None None None None None). eexists. split; [reflexivity|]. split; [|vm_compute; reflexivity]. reflexivity.
Qed.

(** Two floats: 0.5 and -1e-07. *)
Definition two_show (b : bool) : text := if b then text_of "0.5" else text_of "-1e-07".
Definition two_read (t : text) : bool := text_eqb t (text_of "0.5").
Definition two_stitches : list (stitch (coord (F := bool))) :=
  [mkS (CInt (-12)) (CFloat true) STITCH; mkS (CFloat false) (CInt 0) (encode_thread_change COLOR_CHANGE (Some 1) None (Some 7))].
(** e acute, a character beyond 16 bits, a quotation mark, a single surrogate, a control character *)
Definition odd_text : text := [233; 0x1f600; 34; 92; 0xd800; 1; 127].
Definition two_threads : list thread := [mkT 0xAABBCC (Some odd_text) None (Some []) None None None].
Definition two_extras : list (text * value bool) := [(text_of "name", VStr odd_text); (odd_text, VFloat true); (text_of "g", VOther); (text_of "h", VBool true); ([], VInt 5)].
Example C210_case :
  (forall b, decimal_text (two_show b) /\ two_read (two_show b) = b) /\
  Forall (fun s => 0 <= scmd s < 2 ^ 32 /\ In (scmd s mod 256) named_commands) two_stitches /\
  Forall sound_thread two_threads /\ Forall sound_extra two_extras /\ NoDup (map fst two_extras) /\
  json_open two_read (fun _ => 0) (json_save two_show two_stitches two_threads two_extras) =
    Ok (two_stitches, [mkL (Some 0xAABBCC) (Some odd_text) None (Some []) None None None],
        [(text_of "name", VStr odd_text); (odd_text, VFloat true); (text_of "h", VBool true); ([], VInt 5)]) /\
  json_open two_read (fun _ => 0) (firstn 200 (json_save two_show two_stitches two_threads two_extras)) = Err ValueError.
Proof.
  assert (O : sound_text odd_text).
  { split; [unfold odd_text; repeat (apply Forall_cons; [lia|]); apply Forall_nil|]. cbn [no_pairs odd_text]. unfold high_half, low_half. lia. }
  assert (P : forall t, forallb printableb t = true -> sound_text t) by (intros t H; apply const_sound; exact H).
  split; [|split; [|split; [|split; [|split; [|split]]]]].
  - intros [|]; (split; [|vm_compute; reflexivity]).
    + exists [], [48], [46; 53], []. split; [reflexivity|]. split; [auto|]. split; [auto|]. split; [right; exists 53, []; split; [reflexivity|repeat constructor; unfold numeral; lia]|].
      split; [auto|discriminate].
    + exists [45], [49], [], [101; 45; 48; 55]. split; [reflexivity|]. split; [auto|]. split; [right; exists 49, []; split; [reflexivity|split; [lia|constructor]]|]. split; [auto|].
      split; [right; exists 101, [45], 48, [55]; split; [reflexivity|]; split; [auto|]; split; [auto|repeat constructor; unfold numeral; lia]|discriminate].
  - unfold two_stitches. repeat (apply Forall_cons; [split; [vm_compute; intuition congruence|vm_compute; tauto]|]). apply Forall_nil.
  - apply Forall_cons; [|apply Forall_nil]. unfold sound_thread. cbn [sound_option t_description t_catalog t_details t_brand t_chart t_weight]. repeat match goal with |- _ /\ _ => split end; first [exact O|exact I|apply P; reflexivity].
  - unfold two_extras. repeat (apply Forall_cons; [split; cbn [fst snd]; first [exact O|exact I|apply P; reflexivity]|]). apply Forall_nil.
  - repeat constructor; vm_compute; intuition discriminate.
  - vm_compute. reflexivity.
  - vm_compute. reflexivity.
Qed.

Print Assumptions C210_json_file_round_trip.
Print Assumptions C210_json_ascii.
Print Assumptions C211_truncated_refused.
Print Assumptions C211_trailing_blanks.
Print Assumptions C211_trailing_text_refused.
Print Assumptions C210_pair_merged.
