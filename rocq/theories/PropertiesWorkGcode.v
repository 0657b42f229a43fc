(** C237: a design saved as G-code, from its commands to what is loaded. *)
From Coq Require Import Ascii String ZArith List Bool Lia QArith Qabs Lqa.
From Verif Require Import PyBase EmbConst FunctionsModel ThreadModel NumModel NumQ MatrixModel PatternModel EncoderModel
  EncoderProofs EncoderSpec EncoderColorSpec Utf8Model TextModel CsvModel GcodeModel GcodeSpec PropertiesGcode
  PropertiesEncoder SettingsModel PropertiesSettings PropertiesPipeline PropertiesFidelity FidelitySpec PropertiesColor PropertiesVp3Q
  PropertiesWork PropertiesWorkFile.
Import ListNotations.
Open Scope Z_scope.

(** GcodeWriter.py 4-5: the class-level settings of the writer; there are no others. *)
Definition gcode_attributes (N : Num) (iz : Z -> F N) : attributes N := fun k =>
  match k return option (value N k) with
  | KScale => Some (ScaleXY N (iz (-1)) (iz (-1)))
  | KSequin => Some CONTINGENCY_SEQUIN_STITCH
  | _ => None
  end.

(** The point is at most a two-hundredth of a unit away from the stitch on each axis. *)
Definition near_point (a : stitch Q) (q : Q * Q) : Prop :=
  (Qabs (fst q - sx a) <= 1 # 200 /\ Qabs (snd q - sy a) <= 1 # 200)%Q.
(** What a G-code file keeps of a command: cuts are left out, a stop becomes a colour change. *)
Definition in_gcode (k : Z) : list Z :=
  if k =? STITCH then [STITCH] else if (k =? COLOR_CHANGE) || (k =? STOP) then [COLOR_CHANGE] else [].

Lemma kept_points l : forall px py k, gcode_commands l -> kept_commands px py l k ->
  Forall2 (fun p q => hundredth (- fst p) (fst q) /\ hundredth (- snd p) (snd q)) (needle_points l) (needle_points k).
Proof.
  induction l as [|s l IH]; intros px py k G K; [cbn [kept_commands] in K; subst k; constructor|]. inversion G as [|? ? Gs Gl]; subst.
  cbn [kept_commands] in K. cbv zeta in K. unfold needle_points. cbn [filter]. unfold is_cmd at 1. change (Z.land (scmd s) 255) with (cmd_of (scmd s)).
  destruct (cmd_of (scmd s) =? STITCH) eqn:E1.
  { destruct k as [|t k]; [contradiction|]. destruct K as (Kc & Hx & Hy & K). cbn [filter]. unfold is_cmd at 2. rewrite Kc. change (Z.land STITCH 255 =? STITCH) with true. cbn [map].
    constructor; [split; assumption|]. exact (IH _ _ _ Gl K). }
  destruct (_ || _); [exact (IH _ _ _ Gl K)|]. destruct k as [|t k]; [contradiction|]. destruct K as (Kc & _ & _ & K). cbn [filter]. unfold is_cmd at 2. rewrite Kc.
  replace (Z.land (if cmd_of (scmd s) =? END then END else COLOR_CHANGE) 255 =? STITCH) with false by (destruct (_ =? END); reflexivity). exact (IH _ _ _ Gl K).
Qed.
Lemma kept_work l : forall px py k, gcode_commands l -> kept_commands px py l k -> work k = flat_map in_gcode (work l).
Proof.
  induction l as [|s l IH]; intros px py k G K; [cbn [kept_commands] in K; subst k; reflexivity|]. inversion G as [|? ? Gs Gl]; subst.
  cbn [kept_commands] in K. cbv zeta in K. rewrite work_cons, flat_map_app. cbn [In] in Gs.
  destruct Gs as [Gs|[Gs|[Gs|[Gs|[Gs|[Gs|[]]]]]]]; rewrite <- Gs in *; cbn [Z.eqb] in K.
  1: { change (STITCH =? STITCH) with true in K. cbn iota in K. destruct k as [|t k]; [contradiction|]. destruct K as (Kc & _ & _ & K). rewrite work_cons, Kc, (IH _ _ _ Gl K). reflexivity. }
  1, 2: exact (IH _ _ _ Gl K).
  all: destruct k as [|t k]; [contradiction|]; destruct K as (Kc & _ & _ & K); rewrite work_cons, Kc, (IH _ _ _ Gl K); reflexivity.
Qed.

Section WorkGcode.
Variables (qcos qsin : Q -> Q) (qorient : Q -> Q -> Q -> Q -> Q -> Q * Q).
Notation N := (QNum qcos qsin qorient).
Hypothesis (Hturn : forall t, ~ (qcos t * qcos t + qsin t * qsin t == 0)%Q).

(** The settings G-code files are saved with: the writer's flip, no other turn or shift, whole numbers not asked for. *)
Record gcode_settings (set : settings N) : Prop := {
  gs_scale : s_scale N set = Some (ScaleXY N (-1)%Q (-1)%Q);
  gs_translate : s_translate N set = None;
  gs_rotate : s_rotate N set = None;
  gs_round : s_round N set <> Some true;
  gs_sequin : s_sequin_contingency N set = Some CONTINGENCY_SEQUIN_STITCH;
  gs_change : requested_change set = COLOR_CHANGE;
  gs_stitch : length_positive qcos qsin qorient (s_max_stitch N set);
  gs_jump : length_positive qcos qsin qorient (s_max_jump N set);
  gs_needles : s_needle_count N set <> Some 0
}.

Lemma flipped set a q : gcode_settings set -> sewn_at set a = Ok q -> (fst q == - sx a /\ snd q == - sy a)%Q.
Proof.
  intros [A B C D _ _ _ _ _] H. unfold sewn_at, init_matrix in H. rewrite A, B, C in H.
  destruct (s_round N set) as [[]|]; [congruence| |]; cbn in H; injection H as <-; cbn [fst snd]; change (F N) with Q; generalize (@sx Q a) (@sy Q a); intros; split; ring.
Qed.

Lemma saved_commands : forall set (src : list (stitch Q)) threads out ths, gcode_settings set -> no_speeds src ->
  Forall (fun a => is_cmd CONTINGENCY_SEQUIN_UTILIZE a = false) src -> transcode N set (EncoderModel.mkP N src threads) = Ok (out, ths) ->
  gcode_commands out.
Proof.
  intros set src threads out ths G Hs Hu E. assert (Ws := E). rewrite <- (transcode_speeds N false set (EncoderModel.mkP N src threads) Hs) in Ws.
    pose proof (C23_core_commands N _ _ _ _ Ws) as K. eapply Forall_impl; [|exact K]. intros a Ha.
    assert (S1 : ~ speeds_requested (with_speeds N false set)) by (unfold speeds_requested; cbn; tauto).
    assert (S2 : ~ sequins_requested (with_speeds N false set) src).
    { change (~ sequins_requested set src). intros [X|[[X _]|X]]; [rewrite (gs_sequin _ G) in X; discriminate|rewrite (gs_sequin _ G) in X; discriminate|].
      apply Exists_exists in X as (b & Ib & Eb). rewrite Forall_forall in Hu. specialize (Hu b Ib). change (F N) with Q in Eb. congruence. }
    change (requested_change (with_speeds N false set)) with (requested_change set) in Ha. rewrite (gs_change _ G) in Ha. cbn [p_stitches] in Ha.
    unfold is_cmd in Ha. unfold cmd_of. change COMMAND_MASK with 255. change (F N) with Q in *. rewrite !Z.eqb_eq in Ha. cbn [In].
    destruct Ha as [-> | [-> | [-> | [-> | [-> | [[-> _]|[[_ Ha]|[[_ Ha]|[_ Ha]]]]]]]]]; try tauto; discriminate Ha.
Qed.

(** Saved as G-code and loaded: each stitch of the design, in order, at most a two-hundredth of a unit from its place, no
    others; between them, in order, the colour changes and stops asked for, as colour changes; the colour of each thread. *)
Theorem C237_gcode : forall set src threads other travel extras look,
  gcode_settings set -> plain_settings set -> no_speeds src ->
  Forall command_sound (until_end src) -> Forall (fun a => has_command (matrix_commands ++ left_out) a = false) (until_end src) -> breaks_clear src ->
  Forall (fun a => is_cmd CONTINGENCY_SEQUIN_UTILIZE a = false) src ->
  Forall (fun e => harmless (fst e ++ text_of ": " ++ snd e)) extras ->
  (forall t, comment_text (str_opt (t_description (look t))) /\ comment_text (str_opt (t_brand (look t))) /\ comment_text (str_opt (t_catalog (look t)))) ->
  exists out ths file l,
    transcode N set (EncoderModel.mkP N src threads) = Ok (out, ths) /\ gcode_write travel extras (map look ths) out = Ok file /\
    gcode_read other file = Ok (l, map (fun t => coloured (t_color (look t) mod 2 ^ 24)) ths) /\
    Forall2 near_point (design_stitches src) (needle_points l) /\
    work l = flat_map in_gcode
      (all_asked COLOR_CHANGE true (mkAsk (match s_explicit_trim N set with Some b => b | None => false end) false false) (until_end src)).
Proof.
  intros set src threads other travel extras look G Hp Hs Hc Hlo Hbr Hu He Ht.
  destruct (C115_encode_total qcos qsin qorient Hturn set (EncoderModel.mkP N src threads) (gs_stitch _ G) (gs_jump _ G)) as (out & ths & E);
    [rewrite (gs_scale _ G); split; discriminate|exact (gs_needles _ G)|exact Hc|].
  pose proof (saved_commands set src threads out ths G Hs Hu E) as Hc'.
  destruct (C97_gcode_round_trip other travel extras (map look ths) out Hc' He) as (file & l & W & R & K).
  { apply Forall_forall. intros t It. apply in_map_iff in It as (u & <- & _). apply Ht. }
  assert (D : Forall (fun a => has_command (matrix_commands ++ stitching_commands) a = false) (until_end src) /\ Forall (fun a => has_command left_out a = false) (until_end src)).
  { split; (eapply Forall_impl; [|exact Hlo]); intros a Ha; unfold has_command, left_out in *; rewrite !existsb_app, ?orb_false_iff in *; tauto. }
  destruct D as [D1 D2].
  exists out, ths, file, l. split; [exact E|]. split; [exact W|]. split; [rewrite map_map in R; exact R|]. split.
  - pose proof (C24_no_other_penetrations N set _ out ths E Hp D1) as P. cbn [p_stitches] in P. change (F N) with Q in P.
    pose proof (kept_points out 0 0 l Hc' K) as P2. change (filter sews_src (until_end src)) with (design_stitches src) in P.
    revert P P2. generalize (design_stitches src) (needle_points out) (needle_points l). intros A B C P. revert C.
    induction P as [|a q A1 B1 Haq _ IH]; intros C P2; inversion P2 as [|? r ? C' Hr P3]; subst; constructor; [|exact (IH _ P3)].
    destruct (flipped set a q G Haq) as [Fx Fy]. destruct Hr as [[Hx _] [Hy _]]. split.
    + rewrite <- (Qopp_involutive (sx a)), <- Fx. exact Hx.
    + rewrite <- (Qopp_involutive (sy a)), <- Fy. exact Hy.
  - rewrite (kept_work out 0 0 l Hc' K). f_equal.
    pose proof (C229_work N set (EncoderModel.mkP N src threads) out ths E Hp ltac:(rewrite (gs_change _ G); left; reflexivity) D2 Hbr) as Wa. rewrite (gs_change _ G) in Wa. cbn [p_stitches] in Wa.
    rewrite asked_without_speeds in Wa; [exact Wa|]. apply Forall_forall. intros a Ha. unfold no_speeds in Hs. rewrite Forall_forall in Hs. apply Hs. exact (until_end_in _ _ Ha).
Qed.
(** The settings write_embroidery completes for G-code are such, if the caller leaves these alone; ties, trims and full jumps
    are theirs to choose. *)
Theorem C237_default_settings : forall d : sdict N,
  leaves_alone qcos qsin qorient [KScale; KTranslate; KRotate; KRound; KSequin; KThreadChange; KMaxStitch; KMaxJump; KNeedleCount] d ->
  gcode_settings (for_format qcos qsin qorient (gcode_attributes N inject_Z) d).
Proof.
  intros d H. unfold leaves_alone in H.
  repeat match goal with H : Forall _ (_ :: _) |- _ => apply Forall_cons_iff in H; let A := fresh "A" in destruct H as [A H] end.
  split; unfold for_format, read_settings, requested_change; cbn [s_scale s_translate s_rotate s_round s_sequin_contingency s_thread_change_command s_max_stitch s_max_jump s_needle_count];
    rewrite C50_settings_override, ?A, ?A0, ?A1, ?A2, ?A3, ?A4, ?A5, ?A6, ?A7; destruct (in_dec _ _ _) as [X|X];
    try reflexivity; try discriminate; try exact I; exfalso; apply X; cbn [In]; tauto.
Qed.
End WorkGcode.
Print Assumptions C237_gcode.
Print Assumptions C237_default_settings.

(** A design with a cut, a stop and colour breaks, saved with the writer's settings alone. *)
Definition gcode_defaults : settings ExNum := for_format ex_cos ex_sin ex_orient (gcode_attributes ExNum inject_Z) [].
Definition gcode_look (t : tref) : thread := mkT 0x102030 None None None None None None.
Example C237_case : (forall t, ~ (ex_cos t * ex_cos t + ex_sin t * ex_sin t == 0)%Q) /\
  gcode_settings ex_cos ex_sin ex_orient gcode_defaults /\ plain_settings gcode_defaults /\ no_speeds worked_design /\
  Forall command_sound (until_end worked_design) /\
  Forall (fun a => has_command (matrix_commands ++ left_out) a = false) (until_end worked_design) /\ breaks_clear worked_design /\
  Forall (fun a => is_cmd CONTINGENCY_SEQUIN_UTILIZE a = false) worked_design /\
  Forall (fun e => harmless (fst e ++ text_of ": " ++ snd e)) [] /\
  (forall t, comment_text (str_opt (t_description (gcode_look t))) /\ comment_text (str_opt (t_brand (gcode_look t))) /\ comment_text (str_opt (t_catalog (gcode_look t)))) /\
  match (do o <- transcode ExNum gcode_defaults (EncoderModel.mkP ExNum worked_design []);
         do f <- gcode_write 10 [] (map gcode_look (snd o)) (fst o); gcode_read (fun _ => 0) f) with
  | Ok (l, ts) => map (fun a => (Qred (sx a), Qred (sy a), scmd a)) l =
      [(21 # 2, 0, STITCH); (300, 0, STITCH); (9, 0, STITCH); (9, 0, COLOR_CHANGE); (9, 9, STITCH); (9, 9, COLOR_CHANGE); (6, 6, STITCH); (6, 6, END)]%Q
      /\ ts = [coloured 0x102030; coloured 0x102030]
  | Err _ => False end.
Proof.
  split; [exact ex_turns|]. split; [split; try reflexivity; try exact I; discriminate|].
  split; [repeat split; left; reflexivity|]. split; [repeat constructor|].
  split; [repeat (constructor; [split; discriminate|]); constructor|].
  split; [repeat (constructor; [reflexivity|]); constructor|]. split; [left; repeat constructor|].
  split; [repeat (constructor; [reflexivity|]); constructor|]. split; [constructor|].
  split; [intros t; repeat split; cbn; repeat (apply Forall_cons; [lia|]); constructor|]. vm_compute. split; reflexivity.
Qed.
