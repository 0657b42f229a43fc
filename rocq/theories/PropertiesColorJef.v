(** C246: the thread of every stitch in JEF files. *)
From Coq Require Import Ascii String ZArith QArith List Bool Lia.
From Verif Require Import PyBase EmbConst HelperModel PatternModel FunctionsModel StreamModel StreamSpec StreamProofs ThreadModel NumModel NumQ MatrixModel EncoderModel
  EncoderProofs EncoderSpec EncoderColorSpec QuantModel QuantProofs MetricSpec SettingsModel JefModel FormatSpec WholeModel WholeSpec PropertiesEncoder PropertiesSettings
  PropertiesPipeline FidelitySpec FidelityProofs PropertiesFidelity PropertiesColor BlockFileSpec BlockFileProofs PropertiesBlockFiles ConvertSpec ConvertProofs PropertiesConvert
  JefSpec PropertiesWork PropertiesWorkFile PropertiesWorkFiles PropertiesWorkU01 PropertiesColorGcode PropertiesColorFiles.
Import ListNotations.
Open Scope Z_scope.

Section ColorJef.
Variables (qcos qsin : Q -> Q) (qorient : Q -> Q -> Q -> Q -> Q -> Q * Q).
Notation N := (QNum qcos qsin qorient).
Hypothesis (Hturn : forall t, ~ (qcos t * qcos t + qsin t * qsin t == 0)%Q) (Hdir : direction_bounded qorient).

(** Saved as JEF and loaded (before trims are interpolated): every stitch comes after as many colour changes as the number of its thread. *)
Theorem C246_jef : forall (set : settings N) (p : pattern N) teq near near2 (thread_of : Z -> tref) trims m date w h hw hh,
  savable qcos qsin qorient 127 set (p_stitches N p) -> ~ sequins_requested set (p_stitches N p) ->
  plain_settings set -> requested_change set = COLOR_CHANGE ->
  Forall (fun a => has_command left_out a = false) (until_end (p_stitches N p)) -> breaks_clear (p_stitches N p) ->
  Forall (fun a => is_cmd TIE_ON a = false /\ is_cmd TIE_OFF a = false) (p_stitches N p) ->
  threads_in_order (p_stitches N p) -> never_stops (p_stitches N p) ->
  (forall t, 1 <= near t < 2 ^ 32) -> (forall t i, 1 <= near2 t i < 2 ^ 32) -> List.length date = 14%nat ->
  exists out threads, transcode N set p = Ok (out, threads) /\
  (EncoderSpec.sews out -> starts_sewing out -> Z.of_nat (thread_commands out) < 2 ^ 27 ->
   exists file l ths, jef_write qz_q teq near near2 trims m date w h hw hh threads out = Ok file /\
     jef_read thread_of file = Ok (l, ths) /\ threads_kept (p_stitches N p) (coloured 0 l)) /\
  forall k t, nth_error threads k = Some t -> t = EncoderModel.get_thread_or_filler (p_threads N p) (Z.of_nat k).
Proof.
  intros set p teq near near2 thread_of trims m date w h hw hh V Hq Hp Hc Hl Hb Ht Ho Hs N1 N2 Hd.
  destruct (savable_encodes qcos qsin qorient Hturn 127 set p ltac:(lia) V) as (out & ths & E). exists out, ths. split; [exact E|].
  destruct (asked_sections qcos qsin qorient _ _ _ _ _ V Hp Hc Hl Hb Ho Hs E) as (T & _ & Gt). split; [|exact Gt]. intros S1 S2 S3.
  destruct (C20_jef qcos qsin qorient set p out ths teq near near2 thread_of trims m date w h hw hh Hdir (v_fit _ _ _ _ _ _ V) (v_source _ _ _ _ _ _ V)
    (v_speeds _ _ _ _ _ _ V) Hc Hq Ht E S1 S2 S3 N1 N2 Hd) as (palette & file & W & _ & R).
  do 3 eexists. split; [exact W|]. split; [exact R|].
  pose proof (C229_work N set p out ths E Hp ltac:(rewrite Hc; left; reflexivity) Hl Hb) as Wo. rewrite Hc in Wo.
  rewrite asked_without_speeds in Wo; [|apply Forall_forall; intros a Ha; pose proof (v_speeds _ _ _ _ _ _ V) as S0; unfold no_speeds in S0; rewrite Forall_forall in S0; apply S0; exact (until_end_in _ _ Ha)].
  assert (S : Forall (fun a => cmd_of (scmd a) <> STOP) out).
  { apply Forall_forall. intros a Ia Ha. eapply no_stop_asked; [exact Hs|]. change (F N) with Q in *. rewrite <- Wo.
    unfold work. apply filter_In. split; [|reflexivity]. rewrite <- Ha. apply (in_map (fun a => Z.land (scmd a) 255)) in Ia. exact Ia. }
  change (F N) with Q in *.
  assert (Cl : coloured 0 (closed (jef_view (if trims then Z.to_nat m else 0) false (before_end (written out)))) = coloured 0 (written out)).
  { rewrite coloured_closed, coloured_jef_view by (apply written_stops; exact S). exact (written_colours qcos qsin qorient set _ out _ 0%nat E). }
  rewrite Cl. unfold threads_kept. apply pairs_related.
  - rewrite (coloured_index _ _ _ out 0 (cmds_written out)). destruct (sections_coloured _ out 0) as [-> _]. rewrite <- sections_work, Wo. exact T.
  - destruct (sections_coloured _ (written out) 0) as [_ ->]. rewrite threaded_stitches.
    exact (proj2 (savable_points qcos qsin qorient 127 set p out ths V E) (nothing_added_here qcos qsin qorient 127 set p V Hp Hl)).
Qed.
End ColorJef.
Print Assumptions C246_jef.

Definition jef_set : settings ExNum := c116_set (jef_attributes ExNum inject_Z).
Example C246_case : threads_in_order c240_design /\ never_stops c240_design /\ savable ex_cos ex_sin ex_orient 127 jef_set c240_design /\
  plain_settings jef_set /\ requested_change jef_set = COLOR_CHANGE /\ ~ sequins_requested jef_set c240_design /\
  Forall (fun a => has_command left_out a = false) (until_end c240_design) /\ breaks_clear c240_design /\
  Forall (fun a => is_cmd TIE_ON a = false /\ is_cmd TIE_OFF a = false) c240_design /\
  map fst (threaded None c240_design) = [0; 0; 1; 1; 2]%nat /\
  exists out ths, transcode ExNum jef_set (EncoderModel.mkP ExNum c240_design []) = Ok (out, ths) /\ EncoderSpec.sews out /\ starts_sewing out /\ Z.of_nat (thread_commands out) < 2 ^ 27 /\
    map fst (coloured 0 (closed (jef_view 3 false (before_end (written out))))) = [0; 0; 1; 1; 2]%nat.
Proof.
  destruct C240_case as (A & B & _ & _ & _ & C & D & E & _). split; [exact A|]. split; [exact B|].
  split; [eapply (C116_default_settings ex_cos ex_sin ex_orient [] c240_design); [each|each|each|each|each]|].
  split; [split; [left; reflexivity|split; [left; reflexivity|left; reflexivity]]|]. split; [reflexivity|].
  split; [intros [H|[[_ H]|H]]; [discriminate H|discriminate H|]; revert H; apply (proj1 (Forall_Exists_neg _ _)); repeat constructor; discriminate|].
  split; [exact C|]. split; [exact D|]. split; [each|]. split; [exact E|].
  do 2 eexists. split; [vm_compute; reflexivity|]. split; [repeat first [solve [left; left; reflexivity]|apply Exists_cons_tl]|]. split; [vm_compute; discriminate|]. split; [vm_compute; reflexivity|]. vm_compute. reflexivity.
Qed.
