(** C214 to C217: the text of the files of the generic writer. *)
From Coq Require Import Ascii String ZArith QArith Qround Lia List Bool.
From Verif Require Import PyBase EmbConst ThreadModel TextModel NameModel PatternModel GenericModel GenericTextModel GenericTextSpec GenericTextProofs.
Import ListNotations.
Open Scope Z_scope.

(** A way to write numbers for the examples. *)
Definition whole_part (q : Q) : text := str_of_int (Qfloor q).
Lemma whole_part_same a b : (a == b)%Q -> whole_part a = whole_part b.
Proof. intros H. unfold whole_part. rewrite (Qfloor_comp a b H). reflexivity. Qed.
Definition V (n : string) : piece := Value (text_of n).
Definition W (n : string) : piece := Words (text_of n).
(** {stitch_count} of {stitch_total}; for the threads and metadata an item each; the stitches. *)
Definition sample_templates : templates :=
  mkTS (fun k => match k with
        | Pattern_end => Some [W "{"; V "stitch_count"; W " of "; V "stitch_total"; W "}"; V "extends_width"]
        | Color_start => Some [W "<"; V "thread_color"; W ">"]
        | _ => None end)
    (fun c => if c =? STITCH then Some [V "x"; W ","; V "y"; W ";"] else None) (Some [])
    (Some [V "metadata_key"; W "="; V "metadata_value"; W ";"]) (Some [V "thread_index"; W ":"; V "thread_color"; W ";"]) 10.
Definition two_colours : gpattern :=
  mkGP [mkS 1%Q 2%Q STITCH; mkS 1%Q 2%Q COLOR_CHANGE; mkS 9%Q 2%Q STITCH; mkS 9%Q 2%Q END]
    [plain_thread 0xFF0000; plain_thread 0x00FF00] [(text_of "name", text_of "Rose"); (text_of "stitch_count", text_of "many")].
Lemma sample_plain : all_plain sample_templates.
Proof.
  split; [intros k; destruct k; try exact I; apply plainb_plain; vm_compute; reflexivity|].
  split; [intros c; cbn [sample_templates ts_named]; destruct (c =? STITCH); [|exact I]; apply plainb_plain; vm_compute; reflexivity|].
  split; [constructor|]. split; apply plainb_plain; vm_compute; reflexivity.
Qed.
(** What the examples are about, as a whole. *)
Example sample_text : generic_text whole_part whole_part (settings_of sample_templates) (entries_of sample_templates) two_colours
  = Ok (text_of "name=Rose;stitch_count=many;0:#ff0000;1:#00ff00;<#00ff00>1,2;<#00ff00>9,2;{2 of 4}8").
Proof. vm_compute. reflexivity. Qed.

(** ** C214 *)
(** Wherever a template names a statistic of the pattern, the file is the one it would be with the true number in its place. *)
Theorem C214_statistics : forall show show_float,
  (forall a b, (a == b)%Q -> show a = show b) -> (forall a b, (a == b)%Q -> show_float a = show_float b) ->
  forall ts p name v, all_plain ts -> statistic show show_float p name v ->
  generic_text show show_float (settings_of ts) (entries_of ts) p
  = generic_text show show_float (settings_of (put_everywhere name v ts)) (entries_of (put_everywhere name v ts)) p.
Proof. intros show show_float H1 H2 ts p name v. apply statistics_everywhere; assumption. Qed.
(** Words are written as they are and braces doubled in the template once. *)
Theorem C214_words : forall d t, format_map (double_braces t) d = Ok t.
Proof.
  intros d t. unfold format_map. rewrite <- (app_nil_r (double_braces t)), fill_words. cbn [fill bindr]. rewrite app_nil_r. reflexivity.
Qed.
Example C214_case : statistic whole_part whole_part two_colours (text_of "stitch_count") (text_of "2") /\
  statistic whole_part whole_part two_colours (text_of "extends_width") (text_of "8").
Proof.
  split.
  - apply (Count whole_part whole_part two_colours STITCH (text_of "STITCH")). right. left. reflexivity.
  - apply (Width whole_part whole_part two_colours 1%Q 9%Q).
    + split; [exists (mkS 1%Q 2%Q STITCH); split; [left; reflexivity|reflexivity]|]. intros s [<- | [<- | [<- | [<- | []]]]]; vm_compute; discriminate.
    + split; [exists (mkS 9%Q 2%Q END); split; [right; right; right; left; reflexivity|reflexivity]|]. intros s [<- | [<- | [<- | [<- | []]]]]; vm_compute; discriminate.
Qed.

(** ** C215 *)
(** Templates that name only what the writer provides are filled alike whatever the metadata, even metadata with these very names. *)
Theorem C215_metadata_harmless : forall show show_float ts l ths ex1 ex2, all_plain ts -> own_names ts -> ts_metadata ts = None ->
  generic_text show show_float (settings_of ts) (entries_of ts) (mkGP l ths ex1) = generic_text show show_float (settings_of ts) (entries_of ts) (mkGP l ths ex2).
Proof. intros show show_float ts l ths ex1 ex2. apply metadata_harmless. Qed.
Definition own_templates : templates :=
  mkTS (fun k => match k with Pattern_end => Some [V "stitch_count"; W " of "; V "stitch_total"] | _ => None end)
    (fun _ => None) (Some [V "cmd_str"; W " "; V "x"; W ";"]) None (Some [V "thread_index"; W ":"; V "thread_color"; W ";"]) 10.
Example C215_case : all_plain own_templates /\ own_names own_templates /\
  generic_text whole_part whole_part (settings_of own_templates) (entries_of own_templates) two_colours
  = Ok (text_of "0:#ff0000;1:#00ff00;STITCH 1;COLOR_CHANGE 1;STITCH 9;END 9;2 of 4").
Proof.
  assert (S : forall a b, forallb (fun n => member n b) a = true -> incl a b).
  { intros a b H n J. rewrite forallb_forall in H. apply member_in, H, J. }
  split; [|split; [|vm_compute; reflexivity]].
  - split; [intros k; destruct k; try exact I; apply plainb_plain; vm_compute; reflexivity|]. split; [intros c; exact I|].
    split; [apply plainb_plain; vm_compute; reflexivity|]. split; [exact I|apply plainb_plain; vm_compute; reflexivity].
  - split; [exact I|]. split; [apply S; vm_compute; reflexivity|]. split; [intros k; destruct k; intros H1 H2; try exact I; contradiction|].
    split; [intros c; exact I|]. split; apply S; vm_compute; reflexivity.
Qed.

(** ** C216 *)
(** The metadata items and then the threads, one entry each, in order, each entry with the item's own values. *)
Theorem C216_entries : forall show show_float ts pm pt p t,
  ts_part ts Pattern_start = None -> ts_metadata ts = Some pm -> ts_thread ts = Some pt -> plain pm -> plain pt ->
  incl (names_in pm) metadata_names -> incl (names_in pt) thread_names ->
  generic_text show show_float (settings_of ts) (entries_of ts) p = Ok t ->
  exists rest, t = listing (fun i e => spelled (metadata_value_of i (fst e) (snd e)) pm) 0 (gp_extras p)
    ++ listing (fun i th => spelled (thread_value_of i th) pt) 0 (gp_threads p) ++ rest.
Proof. intros show show_float ts pm pt p t. apply listed. Qed.
Example C216_case : exists t, generic_text whole_part whole_part (settings_of sample_templates) (entries_of sample_templates) two_colours = Ok t /\
  listing (fun i e => spelled (metadata_value_of i (fst e) (snd e)) [V "metadata_key"; W "="; V "metadata_value"; W ";"]) 0 (gp_extras two_colours)
  = text_of "name=Rose;stitch_count=many;".
Proof. eexists. split; [exact sample_text|vm_compute; reflexivity]. Qed.

(** ** C217 *)
(** In the templates of the commands and of the end, a value of a thread is that of the last thread of the pattern, provided there are
    thread entries. *)
Theorem C217_last_thread_partial : forall show show_float ts pt p ths t name, all_plain ts -> ts_thread ts = Some pt -> gp_threads p = ths ++ [t] ->
  In name thread_names ->
  generic_text show show_float (settings_of ts) (entries_of ts) p
  = generic_text show show_float (settings_of (put_after_entries name (thread_value_of (Z.of_nat (length ths)) t name) ts))
      (entries_of (put_after_entries name (thread_value_of (Z.of_nat (length ths)) t name) ts)) p.
Proof. intros show show_float ts pt p ths t name. apply last_thread. Qed.
Example C217_case : exists pt, ts_thread sample_templates = Some pt /\ gp_threads two_colours = [plain_thread 0xFF0000] ++ [plain_thread 0x00FF00] /\
  In (text_of "thread_color") thread_names.
Proof. eexists. split; [reflexivity|]. split; [reflexivity|]. right. left. reflexivity. Qed.
(** The first colour of two is announced with the second thread's colour; without thread entries the file cannot be written. *)
Definition colour_templates (entry : option (list piece)) : templates :=
  mkTS (fun k => match k with Color_start => Some [V "color_index"; W ":"; V "thread_color"; W ";"] | _ => None end)
    (fun c => if c =? STITCH then Some [W "."] else None) (Some []) None entry 10.
Theorem C217_refuted :
  generic_text whole_part whole_part (settings_of (colour_templates (Some []))) (entries_of (colour_templates (Some []))) two_colours
    = Ok (text_of "1:#00ff00;.2:#00ff00;.") /\
  generic_text whole_part whole_part (settings_of (colour_templates None)) (entries_of (colour_templates None)) two_colours = Err KeyError.
Proof. split; vm_compute; reflexivity. Qed.

Print Assumptions C214_statistics.
Print Assumptions C214_words.
Print Assumptions C215_metadata_harmless.
Print Assumptions C216_entries.
Print Assumptions C217_last_thread_partial.
Print Assumptions C217_refuted.
