(** C245: the thread of every stitch in PEC and PES files. *)
From Coq Require Import Ascii String ZArith QArith List Bool Lia.
From Verif Require Import PyBase EmbConst HelperModel Utf8Model TextModel PatternModel PatternSpec FunctionsModel StreamModel StreamSpec StreamProofs ThreadModel NumModel NumQ MatrixModel EncoderModel
  EncoderProofs EncoderSpec EncoderColorSpec QuantModel QuantProofs MetricSpec SettingsModel PecModel PecSpec PecFileModel PecFileSpec PecFileProofs PesModel PesSpec PropertiesPes PropertiesEncoder PropertiesSettings
  PropertiesPipeline FidelitySpec FidelityProofs PropertiesFidelity PropertiesColor PropertiesWork PropertiesWorkFile PropertiesWorkFiles PropertiesWorkU01 PropertiesColorFiles PropertiesWorkPec.
Import ListNotations.
Open Scope Z_scope.

(** The stitches of a list of deeds, each with the number of colour changes before it. *)
Fixpoint coloured_deeds (n : nat) (w : list deed) : list (nat * (Z * Z)) :=
  match w with
  | [] => []
  | Sew x y :: r => (n, (x, y)) :: coloured_deeds n r
  | Pause k :: r => coloured_deeds (if k =? COLOR_CHANGE then S n else n) r
  end.
Lemma deeds_sections w : Forall (fun d => match d with Pause k => k <> STITCH | Sew _ _ => True end) w ->
  forall n, map fst (coloured_deeds n w) = sections n (map deed_command w) /\ map snd (coloured_deeds n w) = PropertiesWorkPec.sewn_at w.
Proof.
  induction 1 as [|d w Hd _ IH]; intros n; [split; reflexivity|]. destruct d as [x y|k]; cbn [coloured_deeds map deed_command sections fst snd].
  - change (STITCH =? COLOR_CHANGE) with false. change (STITCH =? STITCH) with true. cbn iota. destruct (IH n) as [-> ->]. split; reflexivity.
  - apply Z.eqb_neq in Hd. rewrite Hd. destruct (k =? COLOR_CHANGE); apply IH.
Qed.
Lemma carries_pauses j w l : carries j w l -> Forall (fun d => match d with Pause k => k <> STITCH | Sew _ _ => True end) w.
Proof.
  induction 1; try assumption; constructor; try assumption; try exact I. cbn [In] in H. destruct H as [H|[H|[]]]; rewrite <- H; discriminate.
Qed.
Lemma carries_coloured j w l : carries j w l -> forall n, EncoderSpec.subseq (coloured_deeds n w) (coloured n l).
Proof.
  assert (K : forall (s : stitch Z) c, is_cmd c s = (cmd_of (scmd s) =? c)) by reflexivity.
  induction 1 as [j|j s w l H _ IH|s w l H _ IH|j s w l H _ IH|j s w l H _ IH|j s w l H _ IH]; intros n; cbn [coloured coloured_deeds]; [constructor| | | | |]; rewrite !K.
  - rewrite H. cbn. apply sub_take. apply IH.
  - rewrite H. cbn. apply sub_skip. apply IH.
  - cbn [In] in H. destruct H as [H|[H|[]]]; rewrite <- H; cbn; apply IH.
  - rewrite H. cbn. apply IH.
  - cbn [In] in H. destruct H as [H|[H|[]]]; rewrite <- H; cbn; apply IH.
Qed.
Lemma sections_pauses ks : forall n, sections n (sewing_and_pauses ks) = sections n ks.
Proof.
  unfold sewing_and_pauses. induction ks as [|k r IH]; intros n; [reflexivity|]. cbn [filter sections].
  destruct (k =? STITCH) eqn:E1; destruct (k =? COLOR_CHANGE) eqn:E2; destruct (k =? STOP); cbn [orb sections]; rewrite ?E1, ?E2, ?IH; reflexivity.
Qed.

Section ColorPec.
Variables (qcos qsin : Q -> Q) (qorient : Q -> Q -> Q -> Q -> Q -> Q * Q).
Notation N := (QNum qcos qsin qorient).
Hypothesis (Hturn : forall t, ~ (qcos t * qcos t + qsin t * qsin t == 0)%Q) (Hdir : direction_bounded qorient).

(** The loaded design sews all stitches of the design in order, each within half a unit of its place and after as many colour changes as
    the number of its thread (besides, it may sew once where a jump lands: C235). *)
Definition threads_sewn (src : list (stitch Q)) (l : list (stitch Z)) : Prop := exists zs, threads_kept src zs /\ EncoderSpec.subseq zs (coloured 0 l).

Lemma work_threads set (p : pattern N) out ths l : savable qcos qsin qorient 2047 set (p_stitches N p) ->
  plain_settings set -> requested_change set = COLOR_CHANGE -> Forall (fun a => has_command left_out a = false) (until_end (p_stitches N p)) -> breaks_clear (p_stitches N p) ->
  threads_in_order (p_stitches N p) -> transcode N set p = Ok (out, ths) -> does_the_work qcos qsin qorient set (p_stitches N p) l ->
  threads_sewn (p_stitches N p) l /\ List.length ths = threads_taken None (p_stitches N p) /\
  forall k t, nth_error ths k = Some t -> t = get_thread_or_filler (p_threads N p) (Z.of_nat k).
Proof.
  intros V Hp Hc Hl Hb [B1 B2 B3] E (w & Cw & St & W). pose proof (v_matrix _ _ _ _ _ _ V) as Hm.
  assert (D : Forall (fun a => has_command (matrix_commands ++ stitching_commands) a = false) (until_end (p_stitches N p))).
  { rewrite Forall_forall in Hm, Hl |- *. intros a Ha. specialize (Hm a Ha). specialize (Hl a Ha). unfold has_command, left_out in *. rewrite existsb_app in *.
    apply orb_false_iff in Hl. apply orb_false_iff. split; [exact Hm|exact (proj1 Hl)]. }
  destruct (colours_of_transcode N set p out ths E Hc Hm B1 B2 B3) as (Ln & _ & Gt & qs & Qs & _ & _ & Ex). specialize (Ex Hp D).
  pose proof (C229_work N set p out ths E Hp ltac:(rewrite Hc; left; reflexivity) Hl Hb) as Wo. rewrite Hc in Wo.
  rewrite asked_without_speeds in Wo; [|apply Forall_forall; intros a Ha; pose proof (v_speeds _ _ _ _ _ _ V) as S0; unfold no_speeds in S0; rewrite Forall_forall in S0; apply S0; exact (until_end_in _ _ Ha)].
  split; [|split; [exact Ln|exact Gt]]. exists (coloured_deeds 0 w). split; [|exact (carries_coloured _ _ _ Cw 0%nat)].
  destruct (deeds_sections w (carries_pauses _ _ _ Cw) 0%nat) as [F1 F2]. unfold threads_kept. apply pairs_related.
  - rewrite F1. change (F N) with Q in *. rewrite W, sections_pauses.
    transitivity (map fst qs).
    + clear - Qs. induction Qs as [|a b l k [H _] _ IH]; [reflexivity|]. cbn [map]. f_equal; assumption.
    + rewrite <- Ex. destruct (sections_coloured _ out 0) as [X _]. rewrite X, <- sections_work, Wo. reflexivity.
  - rewrite F2, threaded_stitches. exact St.
Qed.

Theorem C245_pec : forall filler order name (set : settings N) (p : pattern N),
  set_order order -> Forall (fun c => 0 <= c < 128) (label_of name) ->
  savable qcos qsin qorient 2047 set (p_stitches N p) -> ~ sequins_requested set (p_stitches N p) ->
  plain_settings set -> requested_change set = COLOR_CHANGE ->
  Forall (fun a => has_command left_out a = false) (until_end (p_stitches N p)) -> breaks_clear (p_stitches N p) -> threads_in_order (p_stitches N p) ->
  exists out ths, transcode N set p = Ok (out, ths) /\
  forall threads, sections_sewn false out -> pec_room out threads -> neighbours colours_differ threads ->
  exists file colours l meta, pec_write filler order name out threads = Ok file /\ pec_file_read file = Ok (l, colours, meta) /\
    threads_sewn (p_stitches N p) l.
Proof.
  intros filler order name set p Ho Ha V Hq Hp Hch Hlo Hb Ht. destruct (C235_pec qcos qsin qorient Hturn Hdir filler order name set p Ho Ha V Hq Hp Hch Hlo Hb) as (out & ths & E & X).
  exists out, ths. split; [exact E|]. intros threads S1 Rm Nb. destruct (X threads S1 Rm Nb) as (file & colours & l & meta & Wf & Rf & W).
  exists file, colours, l, meta. split; [exact Wf|]. split; [exact Rf|]. exact (proj1 (work_threads _ _ _ _ _ V Hp Hch Hlo Hb Ht E W)).
Qed.

(** PES version 6: the threads come back too, one for each thread the design sews with, in order; [look] gives the thread for each entry of the encoder's list. *)
Theorem C245_pes : forall f32 filler order truncated md (set : settings N) (p : pattern N),
  (forall v, zlen (f32 v) = 4) -> set_order order -> Forall (fun c => 0 <= c < 128) (label_of (md (text_of "name"))) ->
  Forall (fun key => ascii_text (md (text_of key))) ["name"; "category"; "author"; "keywords"; "comments"]%string ->
  savable qcos qsin qorient 2047 set (p_stitches N p) -> ~ sequins_requested set (p_stitches N p) ->
  plain_settings set -> requested_change set = COLOR_CHANGE ->
  Forall (fun a => has_command left_out a = false) (until_end (p_stitches N p)) -> breaks_clear (p_stitches N p) -> threads_in_order (p_stitches N p) ->
  exists out ths, transcode N set p = Ok (out, ths) /\
  forall look, Forall ascii_thread (map look ths) -> sections_sewn false out -> pec_room out (map look ths) -> neighbours stored_differ (map look ths) ->
  exists file, pes_write f32 filler order 60 truncated md out (map look ths) = Ok file /\
  (zlen file < 2 ^ 32 -> exists l loaded meta, pes_read file = Ok (l, loaded, meta) /\ threads_sewn (p_stitches N p) l /\
     List.length loaded = threads_taken None (p_stitches N p) /\
     forall k t, nth_error loaded k = Some t -> t = stored_thread (look (get_thread_or_filler (p_threads N p) (Z.of_nat k)))).
Proof.
  intros f32 filler order truncated md set p H1 Ho Ha Hm V Hq Hp Hch Hlo Hb Ht.
  destruct (C235_pes qcos qsin qorient Hturn Hdir f32 filler order truncated md set p H1 Ho Ha Hm V Hq Hp Hch Hlo Hb) as (out & ths & E & X).
  exists out, ths. split; [exact E|]. intros look A1 S1 Rm Nb. destruct (X (map look ths) A1 S1 Rm Nb) as (file & Wf & Rf).
  exists file. split; [exact Wf|]. intros Lf. destruct (Rf Lf) as (l & meta & Er & W). exists l. do 2 eexists. split; [exact Er|].
  destruct (work_threads _ _ _ _ _ V Hp Hch Hlo Hb Ht E W) as (T1 & T2 & T3). split; [exact T1|]. rewrite !map_length. split; [exact T2|].
  intros k t Hk. rewrite !nth_error_map in Hk. destruct (nth_error ths k) as [r|] eqn:Er'; [|discriminate]. cbn [option_map] in Hk. injection Hk as <-.
  rewrite (T3 k r Er'). reflexivity.
Qed.
End ColorPec.
Print Assumptions C245_pec.
Print Assumptions C245_pes.

(** The design of C235, with a stop; the stop does not move the threads. *)
Example C245_case : threads_in_order worked_design /\ savable ex_cos ex_sin ex_orient 2047 pec_settings_here worked_design /\
  map fst (threaded None worked_design) = [0; 0; 0; 0; 1]%nat /\
  exists out ths, transcode ExNum pec_settings_here (EncoderModel.mkP ExNum worked_design sample_threads) = Ok (out, ths) /\
    map fst (coloured 0 (pec_kept out)) = [0; 0; 0; 0; 1]%nat.
Proof.
  split; [|split; [exact (proj1 C235_case)|split; [reflexivity|]]].
  - split.
    + repeat (apply Forall_cons; [vm_compute; intros; first [discriminate|split; [intros; discriminate|reflexivity]]|]); apply Forall_nil.
    + each.
    + repeat (constructor; [vm_compute; reflexivity|]); constructor.
  - do 2 eexists. split; [vm_compute; reflexivity|]. vm_compute. reflexivity.
Qed.
