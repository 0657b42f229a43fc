(** C238: the thread of every stitch in a G-code file. *)
From Coq Require Import Ascii String ZArith List Bool Lia QArith Qabs Lqa.
From Verif Require Import PyBase EmbConst FunctionsModel ThreadModel NumModel NumQ MatrixModel PatternModel EncoderModel
  EncoderProofs EncoderSpec EncoderColorSpec Utf8Model TextModel CsvModel GcodeModel GcodeSpec PropertiesGcode
  PropertiesEncoder SettingsModel PropertiesSettings PropertiesPipeline PropertiesFidelity FidelitySpec PropertiesColor PropertiesVp3Q
  PropertiesWork PropertiesWorkFile PropertiesWorkGcode.
Import ListNotations.
Open Scope Z_scope.

(** Nothing in the design stops the machine. *)
Definition never_stops {C} (l : list (stitch C)) : Prop := Forall (fun a => has_command [STOP; FRAME_EJECT] a = false) (until_end l).

Lemma in_when k b j : In k (when b j) -> k = j.
Proof. destruct b; cbn [when In]; [intros [H|[]]; congruence|intros []]. Qed.
Lemma no_stop_asked C (l : list (stitch C)) : Forall (fun a => has_command [STOP; FRAME_EJECT] a = false) l ->
  forall b w, ~ In STOP (all_asked COLOR_CHANGE b w l).
Proof.
  induction 1 as [|a l Ha _ IH]; intros b w; [intros []|]. cbn [all_asked]. generalize (existsb (fun c => sews_src c) l). intros lt.
  assert (A : ~ In STOP (fst (asked COLOR_CHANGE b lt w (Z.land (scmd a) 255)))).
  { unfold has_command, is_cmd in Ha. cbn [existsb] in Ha. rewrite !orb_false_iff in Ha. destruct Ha as (H1 & H2 & _).
    unfold asked. rewrite H1, H2. unfold first_change. change (COLOR_CHANGE =? COLOR_CHANGE) with true. cbn [negb]. rewrite andb_false_r. cbn [when app].
    repeat match goal with |- context [if ?c then _ else _] => destruct c eqn:? end; cbn [fst]; intros X; cbn [In app] in X; rewrite ?in_app_iff in X;
      repeat match goal with H : _ \/ _ |- _ => destruct H as [H|H] end; try contradiction; try discriminate; apply in_when in X; try discriminate X.
    subst. match goal with H : (_ || _) = true |- _ => rewrite <- X in H; discriminate H end. }
  destruct (asked COLOR_CHANGE b lt w (Z.land (scmd a) 255)) as [o w']. intros X. apply in_app_iff in X as [X|X]; [exact (A X)|exact (IH b w' X)].
Qed.
Lemma stop_is_work C (l : list (stitch C)) : ~ In STOP (work l) -> Forall (fun a => cmd_of (scmd a) <> STOP) l.
Proof.
  induction l as [|a l IH]; intros H; constructor.
  - intros K. apply H. rewrite work_cons, K. left. reflexivity.
  - apply IH. intros K. apply H. rewrite work_cons. apply in_app_iff. right. exact K.
Qed.
Lemma kept_coloured l : forall n px py k, gcode_commands l -> Forall (fun a => cmd_of (scmd a) <> STOP) l -> kept_commands px py l k ->
  Forall2 (fun p q => fst p = fst q /\ hundredth (- fst (snd p)) (fst (snd q)) /\ hundredth (- snd (snd p)) (snd (snd q)))
    (EncoderColorSpec.coloured n l) (EncoderColorSpec.coloured n k).
Proof.
  induction l as [|s l IH]; intros n px py k G S0 K; [cbn [kept_commands] in K; subst k; constructor|]. inversion G as [|? ? Gs Gl]; subst. inversion S0 as [|? ? Ss Sl]; subst.
  cbn [kept_commands] in K. cbv zeta in K. cbn [EncoderColorSpec.coloured]. unfold is_cmd. change (Z.land (scmd s) 255) with (cmd_of (scmd s)).
  cbn [In] in Gs. destruct Gs as [Gs|[Gs|[Gs|[Gs|[Gs|[Gs|[]]]]]]]; [| | | |congruence|]; rewrite <- Gs in *; cbn in K.
  - destruct k as [|t k]; [contradiction|]. destruct K as (Kc & Hx & Hy & K). cbn [EncoderColorSpec.coloured]. unfold is_cmd. rewrite Kc. cbn. constructor; [cbn [fst snd]; auto|]. exact (IH _ _ _ _ Gl Sl K).
  - exact (IH _ _ _ _ Gl Sl K).
  - exact (IH _ _ _ _ Gl Sl K).
  - destruct k as [|t k]; [contradiction|]. destruct K as (Kc & _ & _ & K). cbn [EncoderColorSpec.coloured]. unfold is_cmd. rewrite Kc. cbn. exact (IH _ _ _ _ Gl Sl K).
  - destruct k as [|t k]; [contradiction|]. destruct K as (Kc & _ & _ & K). cbn [EncoderColorSpec.coloured]. unfold is_cmd. rewrite Kc. cbn. exact (IH _ _ _ _ Gl Sl K).
Qed.

Section ColorGcode.
Variables (qcos qsin : Q -> Q) (qorient : Q -> Q -> Q -> Q -> Q -> Q * Q).
Notation N := (QNum qcos qsin qorient).
Hypothesis (Hturn : forall t, ~ (qcos t * qcos t + qsin t * qsin t == 0)%Q).

(** Saved as G-code and loaded, a design that never stops keeps the thread of every stitch: the stitches come back in
    order, each near its place and with the number of its thread, and the file names the colours of the threads by number.
    Full statement: for designs that stop, too (refuted below). *)
Theorem C238_gcode_colours_partial : forall set src threads other travel extras look,
  gcode_settings qcos qsin qorient set -> plain_settings set -> no_speeds src ->
  Forall command_sound (until_end src) -> Forall (fun a => has_command (matrix_commands ++ left_out) a = false) (until_end src) -> breaks_clear src ->
  Forall (fun a => is_cmd CONTINGENCY_SEQUIN_UTILIZE a = false) src ->
  Forall bare_sewing src -> Forall (fun a => is_cmd SET_CHANGE_SEQUENCE a = false) src ->
  Forall (fun a => changes_thread a = true -> thread_number a = None) src -> never_stops src ->
  Forall (fun e => harmless (fst e ++ text_of ": " ++ snd e)) extras ->
  (forall t, comment_text (str_opt (t_description (look t))) /\ comment_text (str_opt (t_brand (look t))) /\ comment_text (str_opt (t_catalog (look t)))) ->
  exists out ths file l loaded,
    transcode N set (EncoderModel.mkP N src threads) = Ok (out, ths) /\ gcode_write travel extras (map look ths) out = Ok file /\
    gcode_read other file = Ok (l, loaded) /\
    Forall2 (fun ka kq => fst ka = fst kq /\ near_point (snd ka) (snd kq)) (threaded None src) (EncoderColorSpec.coloured 0 l) /\
    List.length loaded = threads_taken None src /\
    forall k c, nth_error loaded k = Some c ->
      c = coloured (t_color (look (EncoderModel.get_thread_or_filler threads (Z.of_nat k))) mod 2 ^ 24).
Proof.
  intros set src threads other travel extras look G Hp Hs Hc Hlo Hbr Hu Hb Hq Hn Hst He Ht.
  destruct (C115_encode_total qcos qsin qorient Hturn set (EncoderModel.mkP N src threads) (gs_stitch _ _ _ _ G) (gs_jump _ _ _ _ G)) as (out & ths & E);
    [rewrite (gs_scale _ _ _ _ G); split; discriminate|exact (gs_needles _ _ _ _ G)|exact Hc|].
  pose proof (saved_commands _ _ _ set src threads out ths G Hs Hu E) as Hc'.
  destruct (C97_gcode_round_trip other travel extras (map look ths) out Hc' He) as (file & l & W & R & K).
  { apply Forall_forall. intros t It. apply in_map_iff in It as (u & <- & _). apply Ht. }
  assert (D : Forall (fun a => has_command (matrix_commands ++ stitching_commands) a = false) (until_end src) /\
    Forall (fun a => has_command left_out a = false) (until_end src) /\ Forall (fun a => has_command matrix_commands a = false) (until_end src)).
  { repeat split; (eapply Forall_impl; [|exact Hlo]); intros a Ha; unfold has_command, left_out in *; rewrite !existsb_app, ?orb_false_iff in *; tauto. }
  destruct D as (D1 & D2 & D3).
  destruct (colours_of_transcode N set _ out ths E (gs_change _ _ _ _ G) D3 Hb Hq Hn) as (Lt & _ & Gt & qs & Qs & _ & _ & Ex). cbn [p_stitches p_threads] in *.
  exists out, ths, file, l, (map (fun t => coloured (t_color (look t) mod 2 ^ 24)) ths). split; [exact E|]. split; [exact W|]. split; [rewrite map_map in R; exact R|].
  assert (Ns : Forall (fun a => cmd_of (scmd a) <> STOP) out).
  { apply stop_is_work. rewrite (C229_work N set (EncoderModel.mkP N src threads) out ths E Hp ltac:(rewrite (gs_change _ _ _ _ G); left; reflexivity) D2 Hbr), (gs_change _ _ _ _ G).
    apply no_stop_asked. exact Hst. }
  split; [|split].
  - specialize (Ex Hp D1). change (F N) with Q in *. pose proof (kept_coloured out 0%nat 0 0 l Hc' Ns K) as P2. assert (Ex' : EncoderColorSpec.coloured 0 out = qs) by exact Ex. rewrite Ex' in P2.
    revert Qs P2. generalize (threaded None src) (EncoderColorSpec.coloured 0 l). intros A C P. clear Ex Ex'. revert C.
    induction P as [|a q A1 B1 Haq _ IH]; intros C P2; inversion P2 as [|? r ? C' Hr P3]; subst; constructor; [|exact (IH _ P3)].
    destruct Haq as [Hk Haq]. destruct (flipped _ _ _ set (snd a) (snd q) G Haq) as [Fx Fy]. destruct Hr as (Hk2 & [Hx _] & [Hy _]). split; [congruence|]. split.
    + rewrite <- (Qopp_involutive (sx (snd a))), <- Fx. exact Hx.
    + rewrite <- (Qopp_involutive (sy (snd a))), <- Fy. exact Hy.
  - rewrite map_length. exact Lt.
  - intros k c Hk. rewrite nth_error_map in Hk. destruct (nth_error ths k) as [t|] eqn:Et; [|discriminate]. injection Hk as <-. rewrite <- (Gt k t Et). reflexivity.
Qed.
End ColorGcode.
Print Assumptions C238_gcode_colours_partial.

Definition stopped_design : list (stitch Q) := [mkS 0 0 STITCH; mkS 0 0 STOP; mkS 9 9 STITCH; mkS 9 9 COLOR_CHANGE; mkS 6 6 STITCH; mkS 6 6 END]%Q.
Definition gcode_loaded (src : list (stitch Q)) : res (list (stitch Q) * list loaded) :=
  do o <- transcode ExNum gcode_defaults (EncoderModel.mkP ExNum src []);
  do f <- gcode_write 10 [] (map gcode_look (snd o)) (fst o); gcode_read (fun _ => 0) f.
(** A stop comes back as a colour change, so the stitches after it have the next thread, and the last ones have none. *)
Theorem C238_refuted : exists src l ts, gcode_loaded src = Ok (l, ts) /\ Forall command_sound (until_end src) /\
  Forall (fun a => has_command (matrix_commands ++ left_out) a = false) (until_end src) /\
  map fst (threaded None src) = [0; 0; 1]%nat /\ map fst (EncoderColorSpec.coloured 0 l) = [0; 1; 2]%nat /\ List.length ts = 2%nat.
Proof.
  exists stopped_design. eexists. eexists. split; [vm_compute; reflexivity|]. split; [repeat (constructor; [split; discriminate|]); constructor|].
  split; [repeat (constructor; [reflexivity|]); constructor|]. split; [reflexivity|]. split; reflexivity.
Qed.
Print Assumptions C238_refuted.

(** The design of C237 without its stop. *)
Definition unstopped_design : list (stitch Q) := filter (fun a => negb (is_cmd STOP a)) worked_design.
Example C238_case : gcode_settings ex_cos ex_sin ex_orient gcode_defaults /\ plain_settings gcode_defaults /\ no_speeds unstopped_design /\
  Forall command_sound (until_end unstopped_design) /\
  Forall (fun a => has_command (matrix_commands ++ left_out) a = false) (until_end unstopped_design) /\ breaks_clear unstopped_design /\
  Forall (fun a => is_cmd CONTINGENCY_SEQUIN_UTILIZE a = false) unstopped_design /\
  Forall bare_sewing unstopped_design /\ Forall (fun a => is_cmd SET_CHANGE_SEQUENCE a = false) unstopped_design /\
  Forall (fun a => changes_thread a = true -> thread_number a = None) unstopped_design /\ never_stops unstopped_design /\
  match gcode_loaded unstopped_design with
  | Ok (l, ts) => map fst (EncoderColorSpec.coloured 0 l) = [0; 0; 0; 0; 1]%nat /\ List.length ts = 2%nat
  | Err _ => False end.
Proof.
  destruct C237_case as (_ & A & B & _). split; [exact A|]. split; [exact B|]. split; [repeat constructor|].
  split; [repeat (constructor; [split; discriminate|]); constructor|].
  split; [repeat (constructor; [reflexivity|]); constructor|]. split; [left; repeat constructor|].
  split; [repeat (constructor; [reflexivity|]); constructor|].
  split; [repeat (apply Forall_cons; [vm_compute; intros; first [discriminate|split; [intros; discriminate|reflexivity]]|]); apply Forall_nil|].
  split; [repeat (constructor; [reflexivity|]); constructor|].
  split; [repeat (constructor; [vm_compute; reflexivity|]); constructor|].
  split; [repeat (constructor; [reflexivity|]); constructor|]. vm_compute. split; reflexivity.
Qed.
