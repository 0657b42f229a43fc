(** C213: line ends of JSON files. *)
From Coq Require Import Ascii String ZArith List Bool Lia.
From Verif Require Import PyBase EmbConst ThreadModel TextModel NameModel CsvModel JsonModel JsonTextModel JsonTextSpec JsonTextProofs JsonLinesProofs PropertiesCsv PropertiesJsonText PropertiesJsonAgain.
Import ListNotations.
Open Scope Z_scope.

Section lines.
Context {F : Type}.
Variables (show : F -> text) (read : text -> F) (other : text -> Z).
(** Every file that can be loaded is loaded the same when its line feeds are turned into something else made of blanks. *)
Theorem C213_line_ends (e file : text) r : Forall json_blank e -> e <> [] -> json_open read other file = Ok r -> json_open read other (line_ends e file) = Ok r.
Proof.
  intros B N E. unfold json_open in *. apply bind_ok in E. destruct E as (v & Ev & E). rewrite (loads_ends e B N read _ _ Ev). exact E.
Qed.
Hypothesis floats : forall f, decimal_text (show f) /\ read (show f) = f.
(** In particular what was saved in a text mode that writes CR LF. *)
Corollary C213_windows (stitches : list (stitch coord)) threads (extras : list (text * value F)) :
  Forall (fun s => 0 <= scmd s < 2 ^ 32 /\ In (scmd s mod 256) named_commands) stitches ->
  Forall sound_thread threads -> Forall sound_extra extras -> NoDup (map fst extras) ->
  json_open read other (line_ends [13; 10] (json_save show stitches threads extras)) =
  Ok (stitches,
      map (fun t => mkL (Some (t_color t mod 2 ^ 24)) (t_description t) (t_catalog t) (t_details t) (t_brand t) (t_chart t) (t_weight t)) threads,
      filter (fun e => match snd e with VOther => false | _ => true end) extras).
Proof.
  intros A B C D. apply C213_line_ends; [repeat constructor; unfold json_blank; lia|discriminate|]. apply C210_json_file_round_trip; assumption.
Qed.
End lines.

(** A line end inside a text is written as an escape and stays. *)
Example C213_case : exists r, json_open two_read (fun _ => 0) (json_save two_show two_stitches two_threads [(text_of "n", VStr [97; 10; 98])]) = Ok r /\
  snd r = [(text_of "n", VStr [97; 10; 98])] /\
  line_ends [13; 10] (json_save two_show two_stitches two_threads [(text_of "n", VStr [97; 10; 98])]) <> json_save two_show two_stitches two_threads [(text_of "n", VStr [97; 10; 98])] /\
  json_open two_read (fun _ => 0) (line_ends [13; 10] (json_save two_show two_stitches two_threads [(text_of "n", VStr [97; 10; 98])])) = Ok r.
Proof. eexists. split; [vm_compute; reflexivity|]. split; [reflexivity|]. split; [vm_compute; discriminate|]. vm_compute. reflexivity. Qed.

Print Assumptions C213_line_ends.
Print Assumptions C213_windows.
