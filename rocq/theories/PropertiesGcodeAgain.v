(** C239: saving a design as G-code again and again. *)
From Coq Require Import Ascii String ZArith List Bool Lia QArith Qabs Lqa.
From Verif Require Import PyBase EmbConst FunctionsModel ThreadModel NumModel NumQ MatrixModel PatternModel EncoderModel
  EncoderProofs EncoderSpec EncoderColorSpec Utf8Model TextModel CsvModel GcodeModel GcodeSpec PropertiesGcode
  PropertiesEncoder SettingsModel PropertiesSettings PropertiesPipeline PropertiesFidelity FidelitySpec PropertiesColor PropertiesVp3Q
  PropertiesWork PropertiesWorkFile PropertiesWorkGcode PropertiesColorGcode.
Import ListNotations.
Open Scope Z_scope.

(** The same command at the same place. *)
Definition same_command (a b : stitch Q) : Prop := scmd a = scmd b /\ (sx a == sx b)%Q /\ (sy a == sy b)%Q.
(** The first command is not a colour change. *)
Definition starts_sewing (l : list (stitch Q)) : Prop := match l with a :: _ => scmd a <> COLOR_CHANGE | [] => True end.

(** The form of a loaded design: stitches, colour changes where the needle is, one END there. *)
Fixpoint at_needle (px py : Q) (l : list (stitch Q)) : Prop :=
  match l with
  | [] => False
  | a :: r =>
      (scmd a = END /\ (sx a == px)%Q /\ (sy a == py)%Q /\ r = []) \/
      (scmd a = STITCH /\ (exists n m, (sx a == n # 100)%Q /\ (sy a == m # 100)%Q) /\ at_needle (sx a) (sy a) r) \/
      (scmd a = COLOR_CHANGE /\ (sx a == px)%Q /\ (sy a == py)%Q /\ at_needle px py r)
  end.

Lemma kept_form body e : is_cmd END e = true -> Forall (fun s => is_cmd END s = false) body ->
  forall px py k, gcode_commands body -> kept_commands px py (body ++ [e]) k -> at_needle px py k.
Proof.
  intros He Hb. unfold is_cmd in He. apply Z.eqb_eq in He. change (Z.land (scmd e) 255) with (cmd_of (scmd e)) in He.
  induction Hb as [|s l Hs _ IH]; intros px py k G K.
  - cbn [app kept_commands] in K. rewrite He in K. cbn in K. destruct k as [|t k]; [contradiction|]. destruct K as (Kc & Hx & Hy & ->). left. auto.
  - inversion G as [|? ? Gs Gl]; subst. cbn [app kept_commands] in K. cbv zeta in K. unfold is_cmd in Hs. change (Z.land (scmd s) 255) with (cmd_of (scmd s)) in Hs.
    destruct (cmd_of (scmd s) =? STITCH).
    { destruct k as [|t k]; [contradiction|]. destruct K as (Kc & [_ [n Hx]] & [_ [m Hy]] & K). right. left. split; [exact Kc|]. split; [exists n, m; auto|]. exact (IH _ _ _ Gl K). }
    destruct (_ || _); [exact (IH _ _ _ Gl K)|]. rewrite Hs in K. destruct k as [|t k]; [contradiction|]. destruct K as (Kc & Hx & Hy & K). right. right.
    repeat (split; [assumption|]). exact (IH _ _ _ Gl K).
Qed.

Lemma needle_cons C (a : stitch C) l : needle_points (a :: l) = (if is_cmd STITCH a then [(sx a, sy a)] else []) ++ needle_points l.
Proof. unfold needle_points. cbn [filter]. destruct (is_cmd STITCH a); reflexivity. Qed.
(** Such a design is told by its stitches and the commands between them. *)
Lemma form_told l : forall k px py qx qy, at_needle px py l -> at_needle qx qy k -> (px == qx)%Q -> (py == qy)%Q -> work l = work k ->
  Forall2 (fun p q => (fst p == fst q)%Q /\ (snd p == snd q)%Q) (needle_points l) (needle_points k) -> Forall2 same_command l k.
Proof.
  induction l as [|a l IH]; intros k px py qx qy A B Ex Ey W P; [contradiction|]. destruct k as [|b k]; [contradiction|].
  cbn [at_needle] in A, B. rewrite !work_cons in W. rewrite !needle_cons in P. unfold is_cmd in P.
  destruct A as [(A & Ax & Ay & ->)|[(A & Ah & An)|(A & Ax & Ay & An)]]; destruct B as [(B & Bx & By & Er)|[(B & Bh & Bn)|(B & Bx & By & Bn)]];
    unfold cmd_of in W; rewrite A, B in W, P; cbn in W, P; try discriminate W.
  - subst k. constructor; [|constructor]. split; [congruence|]. split; [rewrite Ax, Bx; exact Ex|rewrite Ay, By; exact Ey].
  - subst k. discriminate W.
  - inversion P as [|? ? ? ? [Px Py] P']; subst. injection W as W. constructor; [split; [congruence|split; assumption]|].
    exact (IH _ _ _ _ _ An Bn Px Py W P').
  - subst k. discriminate W.
  - injection W as W. constructor; [split; [congruence|split; [rewrite Ax, Bx; exact Ex|rewrite Ay, By; exact Ey]]|].
    exact (IH _ _ _ _ _ An Bn Ex Ey W P).
Qed.

Lemma form_plain l : forall px py, at_needle px py l -> Forall (fun a => In (scmd a) [STITCH; COLOR_CHANGE; END]) l.
Proof.
  induction l as [|a l IH]; intros px py A; [contradiction|]. cbn [at_needle] in A.
  destruct A as [(A & _ & _ & ->)|[(A & _ & An)|(A & _ & _ & An)]]; (apply Forall_cons; [rewrite A; cbn [In]; tauto|]).
  - constructor.
  - exact (IH _ _ An).
  - exact (IH _ _ An).
Qed.
Lemma form_ends l : forall px py, at_needle px py l -> exists body e, l = body ++ [e] /\ scmd e = END /\ Forall (fun a => scmd a = STITCH \/ scmd a = COLOR_CHANGE) body.
Proof.
  induction l as [|a l IH]; intros px py A; [contradiction|]. cbn [at_needle] in A. destruct A as [(A & _ & _ & ->)|A].
  - exists [], a. auto.
  - assert (X : (scmd a = STITCH \/ scmd a = COLOR_CHANGE) /\ exists qx qy, at_needle qx qy l) by (destruct A as [(A & _ & An)|(A & _ & _ & An)]; eauto).
    destruct X as (Ha & qx & qy & An). destruct (IH _ _ An) as (body & e & -> & He & Hb). exists (a :: body), e. auto.
Qed.
Lemma form_until body e : scmd e = END -> Forall (fun a : stitch Q => scmd a = STITCH \/ scmd a = COLOR_CHANGE) body -> until_end (body ++ [e]) = body.
Proof.
  intros He. induction 1 as [|a l Ha _ IH].
  - cbn [app until_end]. unfold is_cmd. rewrite He. reflexivity.
  - cbn [app until_end]. unfold is_cmd at 1. replace (Z.land (scmd a) 255 =? END) with false by (destruct Ha as [-> | ->]; reflexivity). rewrite IH. reflexivity.
Qed.
(** What is asked for by such a design is kept, if it is begun with a stitch. *)
Lemma form_asked body : Forall (fun a : stitch Q => scmd a = STITCH \/ scmd a = COLOR_CHANGE) body ->
  forall w, begun w = true \/ starts_sewing body -> flat_map in_gcode (all_asked COLOR_CHANGE true w body) = work body.
Proof.
  induction 1 as [|a l Ha _ IH]; intros w Hw; [reflexivity|]. cbn [all_asked]. rewrite work_cons.
  destruct Ha as [Ha|Ha]; unfold cmd_of; rewrite Ha.
  - change (asked COLOR_CHANGE true (existsb (fun b => sews_src b) l) w (Z.land STITCH 255)) with (first_change COLOR_CHANGE w ++ [STITCH], mkAsk (explicit w) true true).
    cbn iota beta. rewrite !flat_map_app, IH by (left; reflexivity). unfold first_change. change (COLOR_CHANGE =? COLOR_CHANGE) with true. rewrite andb_false_r. reflexivity.
  - destruct Hw as [Hw|Hw]; [|cbn [starts_sewing] in Hw; congruence].
    change (asked COLOR_CHANGE true (existsb (fun b => sews_src b) l) w (Z.land COLOR_CHANGE 255))
      with (when (sewn w && explicit w) TRIM ++ when (begun w) COLOR_CHANGE ++ first_change COLOR_CHANGE w, mkAsk (explicit w) true false).
    cbn iota beta. rewrite !flat_map_app, IH by (left; reflexivity). unfold first_change. change (COLOR_CHANGE =? COLOR_CHANGE) with true. rewrite andb_false_r, Hw.
    destruct (sewn w && explicit w); reflexivity.
Qed.
Lemma form_stitches l : forall px py, at_needle px py l -> needle_points l = map (fun a => (sx a, sy a)) (design_stitches l) /\
  Forall (fun a => exists n m, (sx a == n # 100)%Q /\ (sy a == m # 100)%Q) (design_stitches l).
Proof.
  unfold design_stitches. induction l as [|a l IH]; intros px py A; [contradiction|]. cbn [at_needle] in A. rewrite needle_cons. cbn [until_end].
  destruct A as [(A & _ & _ & ->)|[(A & Ah & An)|(A & _ & _ & An)]]; unfold is_cmd; rewrite A; cbn [Z.land Z.eqb app].
  - split; [reflexivity|constructor].
  - change (Z.land STITCH 255 =? END) with false. change (Z.land STITCH 255 =? STITCH) with true. cbn [filter]. assert (X : sews_src a = true) by (unfold sews_src, is_cmd; rewrite A; reflexivity). rewrite X. cbn [map app]. destruct (IH _ _ An) as [I1 I2]. split; [rewrite I1; reflexivity|]. constructor; [exact Ah|exact I2].
  - change (Z.land COLOR_CHANGE 255 =? END) with false. change (Z.land COLOR_CHANGE 255 =? STITCH) with false. cbn [filter]. assert (X : sews_src a = false) by (unfold sews_src, is_cmd; rewrite A; reflexivity). rewrite X. cbn [map app]. exact (IH _ _ An).
Qed.
Lemma hundredths_equal (x r : Q) n m : (x == n # 100)%Q -> (r == m # 100)%Q -> (Qabs (r - x) <= 1 # 200)%Q -> (x == r)%Q.
Proof.
  intros A B H. rewrite A, B in *. apply Qabs_Qle_condition in H. destruct H as [H1 H2]. unfold Qle, Qminus, Qplus, Qopp in H1, H2. cbn in H1, H2.
  assert (n = m) by lia. subst. reflexivity.
Qed.

Section Again.
Variables (qcos qsin : Q -> Q) (qorient : Q -> Q -> Q -> Q -> Q -> Q * Q).
Notation N := (QNum qcos qsin qorient).
Hypothesis (Hturn : forall t, ~ (qcos t * qcos t + qsin t * qsin t == 0)%Q).

(** [l] is loaded from a G-code file that [src] was saved to. *)
Definition saved_and_loaded set threads other travel extras look (src l : list (stitch Q)) : Prop :=
  exists out ths file ts, transcode N set (EncoderModel.mkP N src threads) = Ok (out, ths) /\
    gcode_write travel extras (map look ths) out = Ok file /\ gcode_read other file = Ok (l, ts).
(** Designs without transforms, ties, sequins and speeds. *)
Record gcode_source (src : list (stitch Q)) : Prop := {
  go_speeds : no_speeds src;
  go_sound : Forall command_sound (until_end src);
  go_plain : Forall (fun a => has_command (matrix_commands ++ left_out) a = false) (until_end src);
  go_breaks : breaks_clear src;
  go_utilize : Forall (fun a => is_cmd CONTINGENCY_SEQUIN_UTILIZE a = false) src
}.
(** Texts that can stand in comments. *)
Definition comments_fine (extras : list (text * text)) (look : tref -> thread) : Prop :=
  Forall (fun e => harmless (fst e ++ text_of ": " ++ snd e)) extras /\
  forall t, comment_text (str_opt (t_description (look t))) /\ comment_text (str_opt (t_brand (look t))) /\ comment_text (str_opt (t_catalog (look t))).

Lemma pipeline set src threads other travel extras look : gcode_settings qcos qsin qorient set -> plain_settings set -> gcode_source src -> comments_fine extras look ->
  exists l, saved_and_loaded set threads other travel extras look src l /\ at_needle 0 0 l /\
    Forall2 (fun a q => hundredth (sx a) (fst q) /\ hundredth (sy a) (snd q)) (design_stitches src) (needle_points l) /\
    work l = flat_map in_gcode
      (all_asked COLOR_CHANGE true (mkAsk (match s_explicit_trim N set with Some b => b | None => false end) false false) (until_end src)).
Proof.
  intros G Hp [Hs Hc Hlo Hbr Hu] [He Ht].
  destruct (C115_encode_total qcos qsin qorient Hturn set (EncoderModel.mkP N src threads) (gs_stitch _ _ _ _ G) (gs_jump _ _ _ _ G)) as (out & ths & E);
    [rewrite (gs_scale _ _ _ _ G); split; discriminate|exact (gs_needles _ _ _ _ G)|exact Hc|].
  pose proof (saved_commands _ _ _ set src threads out ths G Hs Hu E) as Hc'.
  destruct (C97_gcode_round_trip other travel extras (map look ths) out Hc' He) as (file & l & W & R & K).
  { apply Forall_forall. intros t It. apply in_map_iff in It as (u & <- & _). apply Ht. }
  assert (D : Forall (fun a => has_command (matrix_commands ++ stitching_commands) a = false) (until_end src) /\ Forall (fun a => has_command left_out a = false) (until_end src)).
  { split; (eapply Forall_impl; [|exact Hlo]); intros a Ha; unfold has_command, left_out in *; rewrite !existsb_app, ?orb_false_iff in *; tauto. }
  destruct D as [D1 D2]. exists l. split; [|split; [|split]].
  - do 4 eexists. split; [exact E|]. split; [exact W|exact R].
  - destruct (C22_single_end N set _ out ths E) as (body & e & -> & He1 & Hb1). apply Forall_app in Hc'. exact (kept_form body e He1 Hb1 0 0 l (proj1 Hc') K).
  - pose proof (C24_no_other_penetrations N set _ out ths E Hp D1) as P. cbn [p_stitches] in P. change (F N) with Q in P.
    pose proof (kept_points out 0 0 l Hc' K) as P2. change (filter sews_src (until_end src)) with (design_stitches src) in P.
    revert P P2. generalize (design_stitches src) (needle_points out) (needle_points l). intros A B C P. revert C.
    induction P as [|a q A1 B1 Haq _ IH]; intros C P2; inversion P2 as [|? r ? C' Hr P3]; subst; constructor; [|exact (IH _ P3)].
    destruct (flipped _ _ _ set a q G Haq) as [Fx Fy]. destruct Hr as [[Hx Hx'] [Hy Hy']]. split; (split; [|assumption]).
    + rewrite <- (Qopp_involutive (sx a)), <- Fx. exact Hx.
    + rewrite <- (Qopp_involutive (sy a)), <- Fy. exact Hy.
  - rewrite (kept_work out 0 0 l Hc' K). f_equal.
    pose proof (C229_work N set (EncoderModel.mkP N src threads) out ths E Hp ltac:(rewrite (gs_change _ _ _ _ G); left; reflexivity) D2 Hbr) as Wa. rewrite (gs_change _ _ _ _ G) in Wa. cbn [p_stitches] in Wa.
    rewrite asked_without_speeds in Wa; [exact Wa|]. apply Forall_forall. intros a Ha. unfold no_speeds in Hs. rewrite Forall_forall in Hs. apply Hs. exact (until_end_in _ _ Ha).
Qed.
Lemma form_source l px py : at_needle px py l -> gcode_source l.
Proof.
  intros A. pose proof (form_plain l px py A) as P.
  assert (U : Forall (fun a => In (scmd a) [STITCH; COLOR_CHANGE; END]) (until_end l)).
  { apply Forall_forall. intros a Ia. rewrite Forall_forall in P. apply P. exact (until_end_in _ _ Ia). }
  cbn [In] in P, U. split.
  - eapply Forall_impl; [|exact P]. intros a Ha. unfold is_cmd. destruct Ha as [<-|[<-|[<-|[]]]]; split; reflexivity.
  - eapply Forall_impl; [|exact U]. intros a Ha. unfold command_sound, has_command, is_cmd. destruct Ha as [<-|[<-|[<-|[]]]]; split; discriminate.
  - eapply Forall_impl; [|exact U]. intros a Ha. unfold has_command, is_cmd. destruct Ha as [<-|[<-|[<-|[]]]]; reflexivity.
  - left. eapply Forall_impl; [|exact P]. intros a Ha _. destruct Ha as [<-|[<-|[<-|[]]]]; reflexivity.
  - eapply Forall_impl; [|exact P]. intros a Ha. unfold is_cmd. destruct Ha as [<-|[<-|[<-|[]]]]; reflexivity.
Qed.

(** A design saved as G-code and loaded can be saved and loaded again: the same commands come back at the same places, with
    any threads, comments and settings of that kind, if it does not begin with a colour change.
    Full statement: without that condition (refuted below). *)
Theorem C239_again_partial : forall set src threads other travel extras look set2 threads2 other2 travel2 extras2 look2,
  gcode_settings qcos qsin qorient set -> plain_settings set -> gcode_source src -> comments_fine extras look ->
  gcode_settings qcos qsin qorient set2 -> plain_settings set2 -> comments_fine extras2 look2 ->
  exists l, saved_and_loaded set threads other travel extras look src l /\
    exists l2, saved_and_loaded set2 threads2 other2 travel2 extras2 look2 l l2 /\ (starts_sewing l -> Forall2 same_command l l2).
Proof.
  intros set src threads other travel extras look set2 threads2 other2 travel2 extras2 look2 G P Sr Cf G2 P2 Cf2.
  destruct (pipeline set src threads other travel extras look G P Sr Cf) as (l & L1 & A & _ & _). exists l. split; [exact L1|].
  destruct (pipeline set2 l threads2 other2 travel2 extras2 look2 G2 P2 (form_source l 0 0 A) Cf2) as (l2 & L2 & A2 & St & W). exists l2. split; [exact L2|]. intros Hst.
  apply (form_told l l2 0 0 0 0 A A2); [reflexivity|reflexivity| |].
  - destruct (form_ends l 0 0 A) as (body & e & -> & He & Hb). rewrite W, (form_until body e He Hb), form_asked; [|exact Hb|].
    + rewrite work_app, work_cons. unfold cmd_of. rewrite He. cbn. rewrite app_nil_r. reflexivity.
    + right. destruct body; [exact I|exact Hst].
  - destruct (form_stitches l 0 0 A) as [-> H]. revert St H. generalize (design_stitches l) (needle_points l2). induction 1 as [|a q A1 B1 [[Hx [n' Hx']] [Hy [m' Hy']]] _ IH]; intros H; [constructor|].
    inversion H as [|? ? (n & m & Hn & Hm) H']; subst. cbn [map]. constructor; [|exact (IH H')]. cbn [fst snd].
    split; [exact (hundredths_equal _ _ _ _ Hn Hx' Hx)|exact (hundredths_equal _ _ _ _ Hm Hy' Hy)].
Qed.
End Again.
Print Assumptions C239_again_partial.

(** A design with two colour changes before the first stitch: the file keeps one of them, the next file none. *)
Definition c239_design : list (stitch Q) := [mkS 0 0 COLOR_CHANGE; mkS 0 0 COLOR_CHANGE; mkS 9 9 STITCH; mkS 6 6 STITCH; mkS 6 6 END]%Q.
Theorem C239_refuted : gcode_source c239_design /\ exists l t l2 t2, gcode_loaded c239_design = Ok (l, t) /\ gcode_loaded l = Ok (l2, t2) /\
  map scmd l = [COLOR_CHANGE; STITCH; STITCH; END] /\ map scmd l2 = [STITCH; STITCH; END].
Proof.
  split.
  - split; [repeat constructor|repeat (constructor; [split; discriminate|]); constructor|repeat (constructor; [reflexivity|]); constructor|left; repeat constructor|repeat (constructor; [reflexivity|]); constructor].
  - do 4 eexists. split; [vm_compute; reflexivity|]. split; [vm_compute; reflexivity|]. split; reflexivity.
Qed.
Print Assumptions C239_refuted.
Example C239_case : gcode_settings ex_cos ex_sin ex_orient gcode_defaults /\ plain_settings gcode_defaults /\ gcode_source worked_design /\ comments_fine [] gcode_look /\
  exists l t l2 t2, gcode_loaded worked_design = Ok (l, t) /\ gcode_loaded l = Ok (l2, t2) /\ starts_sewing l /\
    map scmd l2 = [STITCH; STITCH; STITCH; COLOR_CHANGE; STITCH; COLOR_CHANGE; STITCH; END] /\ map (fun a => Qred (sx a)) l2 = [21 # 2; 300; 9; 9; 9; 9; 6; 6]%Q.
Proof.
  destruct C237_case as (_ & A & B & C1 & C2 & C3 & C4 & C5 & C6 & C7 & _). split; [exact A|]. split; [exact B|]. split; [split; assumption|]. split; [split; assumption|].
  do 4 eexists. split; [vm_compute; reflexivity|]. split; [vm_compute; reflexivity|]. split; [discriminate|]. split; vm_compute; reflexivity.
Qed.
