(** Properties C152 and C153: designs loaded from files, encoded for another format, saved and loaded. *)
From Coq Require Import Ascii String ZArith QArith Qabs List Bool Lia Lqa.
From Verif Require Import PyBase EmbConst PatternModel StreamModel StreamSpec StreamProofs FunctionsModel ThreadModel NumModel NumQ
  MatrixModel EncoderModel EncoderProofs EncoderSpec EncoderColorSpec MetricSpec EncoderMetricProofs QuantModel QuantProofs
  Utf8Model TextModel TrimProofs TrimKeepProofs PatternSpec
  DstModel DstSpec DstFileModel DstFileSpec DstFileProofs DstWholeProofs ExpModel JefModel JefSpec PecModel PecSpec
  PecFileModel PecFileSpec PecFileProofs PesModel PesSpec PesProofs PropertiesPes
  PropertiesEncoder SettingsModel PropertiesSettings PropertiesPipeline FidelitySpec FidelityProofs MachineProofs PropertiesFidelity
  EncoderColorProofs BlockFileSpec PropertiesColor BlockFileProofs PropertiesBlockFiles
  HelperModel JefFileModel DstAnyProofs EncoderSequinProofs ConvertSpec ConvertProofs.
Import ListNotations.
Open Scope Z_scope.

(** ** Sections of the source *)
Definition body_command (a : stitch Q) : Prop := In (scmd a) [STITCH; JUMP; TRIM; COLOR_CHANGE].
Definition position (ka : nat * stitch Q) : nat * (Q * Q) := (fst ka, (sx (snd ka), sy (snd ka))).
Definition changes (l : list (stitch Q)) : nat := count_occ Z.eq_dec (map scmd l) COLOR_CHANGE.

Lemma threaded_some : forall body e k, Forall body_command body -> scmd e = END ->
  map position (threaded (Some k) (body ++ [e])) = coloured k (body ++ [e]) /\
  threads_taken (Some k) (body ++ [e]) = (S k + changes body)%nat.
Proof.
  induction body as [|a r IH]; intros e k H He.
  - cbn [app threaded threads_taken coloured]. unfold is_cmd. rewrite He. cbn. split; [reflexivity|lia].
  - apply Forall_cons_iff in H. destruct H as [Ha H]. cbn [app threaded threads_taken coloured changes map count_occ].
    unfold body_command in Ha. cbn [In] in Ha. unfold take_thread, sews_any, sews_src, explicit_change, is_break, is_cmd.
    fold (changes r).
    destruct Ha as [Ha|[Ha|[Ha|[Ha|[]]]]]; rewrite <- Ha; cbn [cmd_of Z.land].
    + destruct (IH e k H He) as [I1 I2]. cbn. rewrite I1, I2. split; [reflexivity|reflexivity].
    + destruct (IH e k H He) as [I1 I2]. cbn. rewrite I1, I2. split; reflexivity.
    + destruct (IH e k H He) as [I1 I2]. cbn. rewrite I1, I2. split; reflexivity.
    + destruct (IH e (S k) H He) as [I1 I2]. cbn. rewrite I1, I2. split; [reflexivity|]. unfold changes. lia.
Qed.
Lemma threaded_none : forall body e q, Forall body_command body -> scmd e = END ->
  In (0%nat, q) (coloured 0 (body ++ [e])) ->
  map position (threaded None (body ++ [e])) = coloured 0 (body ++ [e]) /\
  threads_taken None (body ++ [e]) = S (changes body).
Proof.
  induction body as [|a r IH]; intros e q H He I.
  - cbn [app coloured] in I. unfold is_cmd in I. rewrite He in I. destruct I.
  - apply Forall_cons_iff in H. destruct H as [Ha H]. unfold body_command in Ha. cbn [In] in Ha.
    cbn [app threaded threads_taken coloured changes map count_occ] in *.
    unfold take_thread, sews_any, sews_src, explicit_change, is_break, is_cmd in *. fold (changes r).
    destruct Ha as [Ha|[Ha|[Ha|[Ha|[]]]]]; rewrite <- Ha in *; cbn [cmd_of Z.land] in *.
    + destruct (threaded_some r e 0 H He) as [I1 I2]. cbn. rewrite I1, I2. split; reflexivity.
    + destruct (IH e q H He I) as [I1 I2]. cbn. rewrite I1, I2. split; reflexivity.
    + destruct (IH e q H He I) as [I1 I2]. cbn. rewrite I1, I2. split; reflexivity.
    + exfalso. apply (in_map fst) in I. apply coloured_from in I. cbn [fst] in I. lia.
Qed.

(** Whole numbers at most half a unit apart are equal. *)
Lemma half_exact : forall a w, whole (sx a) -> whole (sy a) -> half_unit a w ->
  (sx a == inject_Z (fst w))%Q /\ (sy a == inject_Z (snd w))%Q.
Proof.
  intros a w [x Hx] [y Hy] (H1 & H2 & H3 & H4).
  assert (G : forall q u v, (q == inject_Z u)%Q -> (- (1 # 2) <= q - inject_Z v)%Q -> (q - inject_Z v <= 1 # 2)%Q -> (q == inject_Z v)%Q).
  { intros q u v E A B. rewrite E in *. assert (v = u); [|subst; reflexivity].
    unfold Qle, Qminus, Qplus, Qopp, inject_Z in A, B. cbn in A, B. lia. }
  split; eapply G; eassumption.
Qed.
Lemma nth_error_firstn : forall A n k (l : list A), (k < n)%nat -> nth_error (firstn n l) k = nth_error l k.
Proof. induction n as [|n IH]; intros k l H; [lia|]. destruct l; [reflexivity|]. destruct k; [reflexivity|]. cbn. apply IH. lia. Qed.

(** What the readers of DST and JEF make of an encoded design without stops and sequins. *)
Lemma closed_design : forall l, Forall plain_record l -> file_design (map of_int (closed l)).
Proof.
  intros l H. unfold closed. destruct (needle_after 0 0 l) as [x y]. rewrite map_app. eexists _, _. split; [reflexivity|]. split; [reflexivity|].
  apply Forall_map. eapply Forall_impl; [|exact H]. intros a Ha. split; [exact Ha|]. split; apply whole_int.
Qed.
Definition plain_code (a : stitch Z) : Prop := In (cmd_of (scmd a)) [STITCH; JUMP; TRIM; COLOR_CHANGE].
Lemma dst_view_plain : forall ex l, Forall plain_code l -> Forall plain_record (dst_view ex l).
Proof.
  intros ex l H. induction H as [|a l Ha _ IH]; [constructor|]. cbn [dst_view]. apply Forall_app. split; [|exact IH].
  unfold plain_code in Ha. cbn [In] in Ha. unfold plain_record, dst_name.
  destruct Ha as [Ha|[Ha|[Ha|[Ha|[]]]]]; rewrite <- Ha; cbn;
    first [apply Forall_map, Forall_forall; intros; cbn; auto|constructor; [cbn; auto|constructor]].
Qed.
Lemma jef_view_plain : forall n l odd, Forall plain_code l -> Forall plain_record (jef_view n odd l).
Proof.
  intros n l odd H. revert odd. induction H as [|a l Ha _ IH]; intros odd; [constructor|]. cbn [jef_view].
  unfold plain_code in Ha. cbn [In] in Ha. unfold plain_record.
  destruct Ha as [Ha|[Ha|[Ha|[Ha|[]]]]]; rewrite <- Ha; cbn;
    first [constructor; [cbn; auto|apply IH]|apply Forall_app; split; [|apply IH]].
  clear. induction n as [|n IH]; cbn [repeat]; constructor; [cbn; auto|exact IH].
Qed.
Lemma before_end_in : forall C (l : list (stitch C)) a, In a (before_end l) -> In a l /\ cmd_of (scmd a) <> END.
Proof.
  intros C. induction l as [|s l IH]; intros a H; [destruct H|]. cbn [before_end] in H. destruct (Z.eqb_spec (cmd_of (scmd s)) END); [destruct H|].
  destruct H as [<-|H]; [split; [left; reflexivity|assumption]|]. destruct (IH a H). split; [right|]; assumption.
Qed.

Lemma jef_read_length : forall T (thread_of : Z -> T) file l th, jef_read thread_of file = Ok (l, th) -> (List.length l <= S (List.length file))%nat.
Proof.
  intros T thread_of file l th E. unfold jef_read in E. destruct (read_int_32le file) as [[o|] ?]; destruct (read_int_32le _) as [[n|] ?]; try discriminate.
  destruct (jef_read_colors _ _ _) as [ths|]; [|discriminate]. cbn [bindr] in E. unfold jef_read_stitches in E.
  destruct (jef_read_loop _ _ _) as [[r u]|] eqn:Er; [|discriminate]. cbn [bindr] in E. injection E as <- <-.
  destruct (jef_records _ _ _ _ _ _ _ (Nat.le_refl _) Er) as [L _]. rewrite apply_rel_length, app_length. cbn [List.length].
  rewrite skipn_length in L. lia.
Qed.

Section Convert.
Variables (qcos qsin : Q -> Q) (qorient : Q -> Q -> Q -> Q -> Q -> Q * Q).
Notation N := (QNum qcos qsin qorient).
Hypothesis (Hturn : forall t, ~ (qcos t * qcos t + qsin t * qsin t == 0)%Q) (Hdir : direction_bounded qorient).
Notation fitting := (fitting qcos qsin qorient).
Notation no_sequins := (no_sequins qcos qsin qorient).

(** The pattern that the reader of a file made. *)
Definition loaded (l : list (stitch Q)) (threads : list thread) : pattern N := mkP N l threads.

Lemma design_commands : forall l, file_design l ->
  exists body e, l = body ++ [e] /\ scmd e = END /\ Forall body_command body /\ changes body = pred (sections l).
Proof.
  intros l (body & e & -> & He & Hb). exists body, e. split; [reflexivity|]. split; [exact He|].
  split; [eapply Forall_impl; [|exact Hb]; intros a Ha; apply Ha|]. unfold sections, changes. rewrite map_app, count_occ_app. cbn [map count_occ].
  rewrite He. cbn. rewrite Nat.add_0_r. reflexivity.
Qed.
Lemma design_all : forall l (P : stitch Q -> Prop), file_design l ->
  (forall a, In (scmd a) [STITCH; JUMP; TRIM; COLOR_CHANGE; END] -> P a) -> Forall P l.
Proof.
  intros l P (body & e & -> & He & Hb) H. apply Forall_app. split.
  - eapply Forall_impl; [|exact Hb]. intros a [Ha _]. apply H. cbn [In] in *. tauto.
  - constructor; [|constructor]. apply H. cbn [In]. rewrite He. tauto.
Qed.
Ltac every := apply design_all; [assumption|]; let a := fresh "a" in let Ha := fresh "Ha" in
  intros a Ha; cbn [In] in Ha; cbn beta; unfold plain_settings, bare_sewing, changes_thread, explicit_change, is_break, thread_number, has_command, is_cmd;
  destruct Ha as [Ha|[Ha|[Ha|[Ha|[Ha|[]]]]]]; rewrite <- Ha.

Lemma loaded_savable : forall m set l, fitting m set -> file_design l -> savable qcos qsin qorient m set l.
Proof.
  intros m set l [F1 F2 F3 F4] D. constructor; try assumption.
  - rewrite F4. discriminate.
  - every; (split; [intros [H|H]; discriminate|reflexivity]).
  - every; split; reflexivity.
  - apply until_end_all. every; reflexivity.
Qed.
Lemma loaded_sequins : forall set l, no_sequins set -> file_design l -> ~ sequins_requested set l.
Proof.
  intros set l Hn D [H|[H|H]]; [apply Hn; left; exact H|apply Hn; right; left; exact H|].
  assert (X : Forall (fun a => is_cmd CONTINGENCY_SEQUIN_UTILIZE a = false) l) by (clear H; every; reflexivity).
  apply Exists_exists in H. destruct H as (a & Ia & Ha). rewrite Forall_forall in X. exact (eq_true_false_abs _ Ha (X a Ia)).
Qed.

Lemma loaded_encoded : forall m set l threads, 0 < m -> fitting m set -> plain_settings set -> file_design l -> sewn_section 0 l ->
  exists out ths, transcode N set (loaded l threads) = Ok (out, ths) /\
    List.length ths = sections l /\ (forall k t, nth_error ths k = Some t -> t = EncoderModel.get_thread_or_filler threads (Z.of_nat k)) /\
    no_stops out /\ List.length (filter (is_cmd COLOR_CHANGE) out) = pred (sections l) /\
    same_sewing l (coloured 0 (written out)).
Proof.
  intros m set l threads Hm F Hp D (q & Iq). pose proof (loaded_savable m set l F D) as V.
  destruct (savable_encodes qcos qsin qorient Hturn m set (loaded l threads) Hm V) as (out & ths & E).
  destruct (colours_of_transcode N set (loaded l threads) out ths E (fi_change _ _ _ _ _ F)) as (L & Cc & G & qs & Hq & _ & _ & Ex);
    cbn [loaded p_stitches p_threads] in *; change (NumModel.F N) with Q in *.
  { apply until_end_all. every; reflexivity. }
  { every; intros _; vm_compute; split; discriminate || reflexivity. }
  { every; reflexivity. }
  { every; intros _; reflexivity. }
  destruct (design_commands l D) as (body & e & El & He & Hb & Hc).
  assert (I := Iq). rewrite El in I.
  destruct (threaded_none body e _ Hb He I) as [T1 T2]. rewrite <- El in T1, T2. rewrite T2, Hc in L.
  exists out, ths. split; [exact E|]. assert (Ls : List.length ths = sections l) by (rewrite L; unfold sections; reflexivity).
  split; [exact Ls|]. split; [exact G|]. split.
  { apply (transcode_quiet N set _ out ths E); [rewrite requested_ok; exact (fi_change _ _ _ _ _ F)|]. cbn [loaded p_stitches]. change (NumModel.F N) with Q. every; split; reflexivity. }
  split; [rewrite Cc, Ls; reflexivity|].
  assert (Ec : coloured 0 out = qs).
  { apply Ex; [exact Hp|]. apply until_end_all. every; reflexivity. }
  pose proof (coloured_written out 0) as Cw. change (NumModel.F N) with Q in *. rewrite Ec in Cw.
  assert (H : Forall2 same_block (threaded None l) (coloured 0 (written out))).
  { eapply forall2_compose; [|exact Hq|exact Cw]. intros ia iq iz [A1 A2] [B1 B2]. split; [exact (eq_trans A1 B1)|].
    eapply sewn_half; [exact (fi_plain _ _ _ _ _ F)|exact A2|exact B2]. }
  unfold same_sewing. rewrite <- T1.
  assert (Hw : Forall (fun ka => whole (sx (snd ka)) /\ whole (sy (snd ka))) (threaded None l)).
  { destruct D as (body' & e' & -> & He' & Hb'). clear - He' Hb'. generalize (@None nat).
    induction Hb' as [|a r [_ Ha] _ IH]; intros n; cbn [app threaded].
    - unfold is_cmd. rewrite He'. constructor.
    - destruct (is_cmd END a); [constructor|]. apply Forall_app. split; [|apply IH].
      destruct (take_thread n a (r ++ [e'])); [|constructor]. destruct (sews_src a); constructor; [exact Ha|constructor]. }
  revert Hw. clear - H. induction H as [|ka z a b [H1 H2] _ IH]; intros Hw; cbn [map]; constructor.
  - apply Forall_inv in Hw. destruct (half_exact (snd ka) (snd z) (proj1 Hw) (proj2 Hw) H2). split; [exact H1|]. split; assumption.
  - apply IH. apply Forall_inv_tail in Hw. exact Hw.
Qed.
Lemma same_sewn : forall l zs k, same_sewing l zs -> sewn_section k l -> exists q, In (k, q) zs.
Proof.
  intros l zs k H [q I]. unfold same_sewing in H. induction H as [|p z a b [H1 _] _ IH]; [destruct I|]. destruct I as [->|I].
  - exists (snd z). left. destruct z. cbn [fst snd] in *. congruence.
  - destruct (IH I) as [u Iu]. exists u. right. exact Iu.
Qed.

(** The commands of the encoded design. *)
Lemma loaded_codes : forall m set l threads out ths, 0 < m -> fitting m set -> file_design l ->
  transcode N set (loaded l threads) = Ok (out, ths) -> no_stops out -> Forall plain_code (before_end (written out)).
Proof.
  intros m set l threads out ths Hm F D E S. pose proof (loaded_savable m set l F D) as V.
  destruct (encoded_written qcos qsin qorient Hdir m set (loaded l threads) out ths Hm (v_fit _ _ _ _ _ _ V) (v_source _ _ _ _ _ _ V)
    (v_speeds _ _ _ _ _ _ V) (v_change _ _ _ _ _ _ V) E) as (_ & C & _).
  assert (Q1 : Forall (fun a => cmd_of (scmd a) <> SEQUIN_MODE /\ cmd_of (scmd a) <> SEQUIN_EJECT) (written out)).
  { pose proof (transcode_sequins N set (loaded l threads) out ths E) as T. cbn [loaded p_stitches] in T. change (NumModel.F N) with Q in *.
    assert (T' : Forall no_sequin out) by (apply T; unfold no_sequin; every; split; discriminate).
    unfold no_sequin in T'. apply Forall_map with (f := scmd) (P := fun c => cmd_of c <> SEQUIN_MODE /\ cmd_of c <> SEQUIN_EJECT).
    rewrite cmds_written. apply Forall_map. exact T'. }
  pose proof (stops_written out S) as S1. unfold no_stops in S1. apply Forall_forall. intros a Ia. apply before_end_in in Ia. destruct Ia as [Ia Ea].
  rewrite Forall_forall in C, Q1, S1. specialize (C a Ia). specialize (Q1 a Ia). specialize (S1 a Ia). unfold plain_code. cbn [In] in *. cbn beta in S1. intuition congruence.
Qed.

(** ** C152: saved and loaded again *)
Theorem C152_dst : forall extended trim_at info set l threads,
  fitting 121 set -> plain_settings set -> file_design l -> sewn_section 0 l -> info_ok extended info -> header_room extended info ->
  exists out ths, transcode N set (loaded l threads) = Ok (out, ths) /\
  (small out -> exists file head, dst_write extended trim_at info out = Ok file /\
    forall count distance clipping fuel, (List.length file < fuel)%nat ->
    exists l' zs, dst_read count distance clipping fuel file = Ok (l', head) /\
      coloured 0 l' = map exact_colour zs /\ same_sewing l zs /\ file_design l').
Proof.
  intros extended t info set l threads F Hp D Hw Hi Hr.
  destruct (loaded_encoded 121 set l threads ltac:(lia) F Hp D Hw) as (out & ths & E & _ & _ & S & _ & K).
  pose proof (loaded_savable 121 set l F D) as V.
  exists out, ths. split; [exact E|]. intros Sm.
  destruct (C20_dst qcos qsin qorient t set (loaded l threads) out _ Hdir (v_fit _ _ _ _ _ _ V) (v_source _ _ _ _ _ _ V) (v_speeds _ _ _ _ _ _ V) (v_change _ _ _ _ _ _ V) E)
    as (bs & B1 & _ & B3).
  destruct (C22_single_end N set _ out _ E) as (body & e & Eo & _). change (NumModel.F N) with Q in *.
  assert (Sm' := Sm). assert (B1' := B1). rewrite Eo in Sm', B1'.
  destruct (dst_file_any extended t info body e bs Hi Hr Sm' B1') as (file & h & W & R). rewrite <- Eo in W.
  exists file, h. split; [exact W|]. intros count distance clipping fuel Hf.
  destruct (R count distance clipping fuel Hf) as (l' & Rl & _ & Kl & Il). exists l', (coloured 0 (written out)).
  split; [exact Rl|]. split; [|split; [exact K|]].
  2:{ eapply interpolated_design; [|exact Il]. rewrite B3. apply closed_design, dst_view_plain. exact (loaded_codes 121 set l threads out ths ltac:(lia) F D E S). }
  rewrite <- (coloured_keeper _ l'), Kl, coloured_keeper, coloured_of_int, B3, coloured_closed, coloured_dst_view by (apply written_stops; exact S).
  f_equal. exact (written_colours qcos qsin qorient set _ out _ 0%nat E).
Qed.
Theorem C152_exp : forall set l threads,
  fitting 127 set -> no_sequins set -> plain_settings set -> file_design l -> sewn_section 0 l ->
  exists out ths, transcode N set (loaded l threads) = Ok (out, ths) /\
    same_sewing l (coloured 0 (exp_read (exp_write qz_q out))).
Proof.
  intros set l threads F Hq Hp D Hw.
  destruct (loaded_encoded 127 set l threads ltac:(lia) F Hp D Hw) as (out & ths & E & _ & _ & S & _ & K).
  pose proof (loaded_savable 127 set l F D) as V. exists out, ths. split; [exact E|].
  rewrite (C20_exp qcos qsin qorient set (loaded l threads) out _ Hdir (v_fit _ _ _ _ _ _ V) (v_source _ _ _ _ _ _ V) (v_speeds _ _ _ _ _ _ V) (v_change _ _ _ _ _ _ V)
    (loaded_sequins set l Hq D) E).
  rewrite coloured_closed, coloured_renamed by (apply stops_written; exact S). exact K.
Qed.
(** JEF: with a palette number for each section, as in C149. *)
Theorem C152_jef : forall set l threads teq near near2 (thread_of : Z -> tref) trims m date w h hw hh,
  fitting 127 set -> no_sequins set -> plain_settings set -> file_design l -> sewn_section 0 l ->
  Z.of_nat (sections l) < 2 ^ 27 ->
  (forall t, 1 <= near t < 2 ^ 32) -> (forall t i, 1 <= near2 t i < 2 ^ 32) -> List.length date = 14%nat ->
  exists out ths file numbers, transcode N set (loaded l threads) = Ok (out, ths) /\
    jef_write qz_q teq near near2 trims m date w h hw hh ths out = Ok file /\
    (forall count_max some distance clipping fuel, (List.length file < fuel)%nat ->
     exists l' zs, jef_read_file thread_of count_max some distance clipping fuel file = Ok (l', map (fun i => Some (thread_of i)) numbers) /\
       coloured 0 l' = map exact_colour zs /\ same_sewing l zs /\ file_design l') /\
    List.length ths = sections l /\ (forall k t, nth_error ths k = Some t -> t = EncoderModel.get_thread_or_filler threads (Z.of_nat k)) /\
    jef_numbers teq near near2 None ths numbers.
Proof.
  intros set l threads teq near near2 thread_of trims m date w h hw hh F Hq Hp D Hw Lb N1 N2 Hd.
  destruct (loaded_encoded 127 set l threads ltac:(lia) F Hp D Hw) as (out & ths & E & Ls & G & S & Cc & K).
  pose proof (loaded_savable 127 set l F D) as V.
  assert (Ht : Forall (fun a => is_cmd TIE_ON a = false /\ is_cmd TIE_OFF a = false) l) by (every; split; reflexivity).
  assert (X : exists q, In (0%nat, q) (coloured 0 out)).
  { destruct (same_sewn l _ 0 K Hw) as [q Iq]. apply (in_map fst) in Iq. rewrite (coloured_index _ _ _ out 0 (cmds_written out)) in Iq.
    apply in_map_iff in Iq. destruct Iq as ([j q'] & Ej & Iq). cbn [fst] in Ej. subst j. eauto. }
  destruct X as [q Iq]. change (NumModel.F N) with Q in *.
  assert (S2 : starts_sewing out).
  { destruct out as [|a r]; [contradiction|]. intros Ha. rewrite coloured_cons, Ha in Iq. cbn in Iq.
    apply (in_map fst) in Iq. apply coloured_from in Iq. cbn [fst] in Iq. lia. }
  assert (S1 : EncoderSpec.sews out).
  { clear - Iq. revert Iq. generalize 0%nat. intros n. generalize n at 2. intros k. revert k.
    induction out as [|a r IH]; intros k H; [contradiction|]. cbn [coloured] in H.
    destruct (is_cmd STITCH a) eqn:Ea; [left; left; exact Ea|]. right. destruct (is_cmd COLOR_CHANGE a); eapply IH; exact H. }
  assert (Cs : List.length (filter (fun c => c =? COLOR_CHANGE) (map (fun s => cmd_of (scmd s)) out)) = pred (sections l)).
  { rewrite <- Cc. clear. induction out as [|a r IH]; [reflexivity|]. cbn [map filter].
    change (is_cmd COLOR_CHANGE a) with (cmd_of (scmd a) =? COLOR_CHANGE). destruct (cmd_of (scmd a) =? COLOR_CHANGE); cbn [List.length]; rewrite IH; reflexivity. }
  assert (S0 : Forall (fun c => c <> STOP) (map (fun s => cmd_of (scmd s)) out)) by (apply Forall_map; exact S).
  assert (S3 : Z.of_nat (thread_commands out) < 2 ^ 27).
  { assert (Q : thread_commands out = pred (sections l)); [|rewrite Q; lia].
    rewrite <- Cc. unfold thread_commands. f_equal. clear - S. induction S as [|a r Ha _ IH]; [reflexivity|]. cbn [filter]. rewrite IH.
    change (is_cmd COLOR_CHANGE a) with (cmd_of (scmd a) =? COLOR_CHANGE). apply Z.eqb_neq in Ha. rewrite Ha, orb_false_r. reflexivity. }
  destruct (C20_jef qcos qsin qorient set (loaded l threads) out _ teq near near2 thread_of trims m date w h hw hh Hdir (v_fit _ _ _ _ _ _ V)
    (v_source _ _ _ _ _ _ V) (v_speeds _ _ _ _ _ _ V) (fi_change _ _ _ _ _ F) (loaded_sequins set l Hq D) Ht E S1 S2 S3 N1 N2 Hd)
    as (palette & file & W & P & R).
  exists out, ths, file. eexists. split; [exact E|]. split; [exact W|].
  split.
  { intros count_max some distance clipping fuel Hf. unfold jef_read_file. pose proof (jef_read_length _ _ _ _ _ R) as Lr. rewrite R. cbn [bindr].
    match goal with |- context [interpolate_trims ?a ?b ?c ?d ?e] => destruct (interpolate_trims_total a b c d e) as [l' El'] end.
    { rewrite map_length. lia. }
    rewrite El'. cbn [bindr]. exists l', (coloured 0 (written out)). split; [reflexivity|]. split; [|split; [exact K|]].
    - rewrite (interpolated_coloured _ _ _ _ _ _ El'), coloured_of_int, coloured_closed, coloured_jef_view by (apply written_stops; exact S).
      f_equal. exact (written_colours qcos qsin qorient set _ out _ 0%nat E).
    - eapply interpolated_design; [|exact El']. apply closed_design, jef_view_plain. exact (loaded_codes 127 set l threads out ths ltac:(lia) F D E S). }
  split; [exact Ls|]. split; [exact G|].
  assert (Gn : jef_numbers teq near near2 None ths palette).
  { destruct ths as [|t ts]; [discriminate Ls|]. unfold jef_write_palette in P.
    destruct out as [|a r]; [contradiction|]. cbn [map snd] in P |- *. cbn [map filter] in Cs, S0. cbn [starts_sewing] in S2.
    apply Z.eqb_neq in S2. rewrite S2 in Cs. cbn [jef_palette negb] in P. change (NumModel.F N) with Q in P. rewrite S2 in P. cbn [orb] in P.
    inversion S0 as [|? ? Sa Sr]; subst. apply Z.eqb_neq in Sa. rewrite Sa in P.
    destruct (jef_palette _ _ _ _ _ _ _ _) as [pl|] eqn:Ep in P; cbn [bindr] in P; [|discriminate]. injection P as <-.
    constructor; [reflexivity|]. eapply palette_plain; [exact Sr|exact Ep|]. rewrite Cs, <- Ls. reflexivity. }
  assert (Z0 : filter (fun i => negb (i =? 0)) palette = palette); [|rewrite Z0; exact Gn].
  clear - Gn N1 N2. induction Gn as [|last t ts i r Hi _ IH]; [reflexivity|]. cbn [filter].
  assert (B : 1 <= i) by (subst i; destruct last as [[n u]|]; [destruct ((n =? near t) && negb (teq u t))|]; (apply N1 || apply N2)).
  destruct (Z.eqb_spec i 0); [lia|]. cbn [negb]. rewrite IH. reflexivity.
Qed.

(** PEC and PES: every section must sew, and needs a thread; the reader sees a stitch at every jump too. *)
Lemma loaded_pec : forall set l threads, fitting 2047 set -> no_sequins set -> plain_settings set -> file_design l ->
  (forall k, (k < sections l)%nat -> sewn_section k l) -> (sections l <= List.length threads)%nat -> (sections l <= 64)%nat ->
  exists out, transcode N set (loaded l threads) = Ok (out, map Own (firstn (sections l) threads)) /\
    pec_pattern out /\ (exists zs, same_sewing l zs /\ EncoderSpec.subseq zs (coloured 0 (pec_kept out))) /\
    (6 * zlen out + 16 < 2 ^ 24 -> pec_room out (firstn (sections l) threads)).
Proof.
  intros set l threads F Hq Hp D Hw Lt L64. assert (H0 : sewn_section 0 l) by (apply Hw; unfold sections; lia).
  destruct (loaded_encoded 2047 set l threads ltac:(lia) F Hp D H0) as (out & ths & E & Ls & G & S & Cc & K).
  pose proof (loaded_savable 2047 set l F D) as V.
  assert (Et : ths = map Own (firstn (sections l) threads)).
  { apply all_threads; [rewrite firstn_length; lia|]. intros k t Ht. rewrite (G k t Ht).
    assert (Hk : (k < sections l)%nat) by (rewrite <- Ls; apply nth_error_Some; congruence).
    unfold EncoderModel.get_thread_or_filler. rewrite firstn_length, Nat.min_l, Nat2Z.id by lia.
    destruct (Z.leb_spec (Z.of_nat (List.length threads)) (Z.of_nat k)); [lia|].
    destruct (Z.leb_spec (Z.of_nat (sections l)) (Z.of_nat k)); [lia|]. rewrite nth_error_firstn by exact Hk. reflexivity. }
  rewrite Et in E.
  destruct (encoded_representable qcos qsin qorient 2047 set (loaded l threads) out _ ltac:(lia) Hdir (v_fit _ _ _ _ _ _ V) (v_source _ _ _ _ _ _ V)
    (v_speeds _ _ _ _ _ _ V) (v_change _ _ _ _ _ _ V) (loaded_sequins set l Hq D) E) as (R & _ & X).
  change (NumModel.F N) with Q in *.
  assert (C : Forall (fun a => In (cmd_of (scmd a)) ([STITCH; JUMP] ++ [COLOR_CHANGE; STOP; TRIM; END])) out).
  { apply cmds_of_written with (P := fun c => In (cmd_of c) ([STITCH; JUMP] ++ [COLOR_CHANGE; STOP; TRIM; END])).
    eapply representable_cmds. exact R. }
  assert (Y : forall k, (k < sections l)%nat -> exists q, In (k, q) (coloured 0 out)).
  { intros k Hk. destruct (same_sewn l _ k K (Hw k Hk)) as [q Iq]. apply (in_map fst) in Iq. rewrite (coloured_index _ _ _ out 0 (cmds_written out)) in Iq.
    apply in_map_iff in Iq. destruct Iq as ([j q'] & Ej & Iq). cbn [fst] in Ej. subst j. eauto. }
  exists out. split; [exact E|]. split; [|split].
  - split; [|split; [exact R|]].
    + destruct (C22_single_end N set _ out _ E) as (body & e & Eo & He & Hb). exists body, e. split; [exact Eo|].
      split; [apply Z.eqb_eq; exact He|]. eapply Forall_impl; [|exact Hb]. intros a Ha. apply Z.eqb_neq. exact Ha.
    + apply (sections_coloured _ out false 0 S).
      * eapply Forall_impl; [|exact C]. intros a Ha Hx. cbn [In app] in Ha, Hx.
        destruct Ha as [Ha|[Ha|[Ha|[Ha|[Ha|[Ha|[]]]]]]]; rewrite <- Ha in Hx; destruct Hx as [Hx|[Hx|[Hx|[Hx|[]]]]]; discriminate Hx.
      * intros _. apply Y. unfold sections. lia.
      * intros k Hk. rewrite Cc in Hk. cbn [plus]. apply Y. unfold sections in *. lia.
  - exists (coloured 0 (written out)). split; [exact K|]. unfold pec_kept. rewrite coloured_closed.
    pose proof (written_colours qcos qsin qorient set _ out _ 0%nat E) as W. change (NumModel.F N) with Q in W. rewrite <- W.
    apply coloured_pec_view. apply written_stops. exact S.
  - intros Sz. assert (Lf : List.length (firstn (sections l) threads) = sections l) by (rewrite firstn_length; lia).
    split; [rewrite (changes_count out C), Lf, Cc; unfold sections in *; lia|]. split; [rewrite (stops_count _ out S), Lf; unfold sections in *; lia|].
    split; [|exact Sz]. exists (firstn (sections l) threads). split; [apply incl_refl|rewrite Lf; exact L64].
Qed.

Theorem C152_pes_version_6 : forall f32 filler order truncated md set l threads,
  (forall v, zlen (f32 v) = 4) ->
  set_order order -> Forall (fun c => 0 <= c < 128) (label_of (md (text_of "name"))) ->
  Forall (fun key => ascii_text (md (text_of key))) ["name"; "category"; "author"; "keywords"; "comments"]%string ->
  fitting 2047 set -> no_sequins set -> plain_settings set -> file_design l ->
  (forall k, (k < sections l)%nat -> sewn_section k l) -> (sections l <= List.length threads)%nat -> (sections l <= 64)%nat ->
  let used := firstn (sections l) threads in
  Forall ascii_thread used -> neighbours stored_differ used ->
  exists out, transcode N set (loaded l threads) = Ok (out, map Own used) /\
  (6 * zlen out + 16 < 2 ^ 24 ->
   exists file, pes_write f32 filler order 60 truncated md out used = Ok file /\
   (zlen file < 2 ^ 32 -> exists l' meta, pes_read file = Ok (l', map stored_thread used, meta) /\
      exists zs, same_sewing l zs /\ EncoderSpec.subseq zs (coloured 0 l'))).
Proof.
  intros f32 filler order truncated md set l threads H1 H2 H3 H4 F Hq Hp D Hw Lt L64 used H5 H6.
  destruct (loaded_pec set l threads F Hq Hp D Hw Lt L64) as (out & E & P & K & R). exists out. split; [exact E|]. intros Sz.
  destruct (C73_pes_version_6 f32 filler order truncated md out used H1 H2 H3 H4 H5 P (R Sz) H6) as (file & W & Rd).
  exists file. split; [exact W|]. intros Lf. destruct (Rd Lf) as (meta & Er & _). exists (pec_kept out), meta. split; [exact Er|exact K].
Qed.
Theorem C152_pec : forall filler order name set l threads,
  set_order order -> Forall (fun c => 0 <= c < 128) (label_of name) ->
  fitting 2047 set -> no_sequins set -> plain_settings set -> file_design l ->
  (forall k, (k < sections l)%nat -> sewn_section k l) -> (sections l <= List.length threads)%nat -> (sections l <= 64)%nat ->
  let used := firstn (sections l) threads in
  neighbours colours_differ used ->
  exists out, transcode N set (loaded l threads) = Ok (out, map Own used) /\
  (6 * zlen out + 16 < 2 ^ 24 ->
   exists file pal l' meta, pec_write filler order name out used = Ok file /\ palette_for used pal /\
     pec_file_read file = Ok (l', map pal used, meta) /\ exists zs, same_sewing l zs /\ EncoderSpec.subseq zs (coloured 0 l')).
Proof.
  intros filler order name set l threads H2 H3 F Hq Hp D Hw Lt L64 used H6.
  destruct (loaded_pec set l threads F Hq Hp D Hw Lt L64) as (out & E & P & K & R). exists out. split; [exact E|]. intros Sz.
  destruct (C71_pec_file filler order name out used H2 H3 P (R Sz) H6) as (file & pal & pictures & W & Hpal & Rd).
  exists file, pal. do 2 eexists. split; [exact W|]. split; [exact Hpal|]. split; [exact Rd|exact K].
Qed.

(** The settings completed for the formats will do, if the caller sets none of these. *)
Theorem C152_default_settings : forall (d : sdict N) w,
  leaves_alone qcos qsin qorient [KTieOn; KTieOff; KLongStitch] d ->
  w KTieOn = None -> w KTieOff = None -> w KLongStitch = None ->
  plain_settings (for_format qcos qsin qorient w d).
Proof.
  intros d w H W1 W2 W3.
  inversion H as [|? ? A1 Ha]; subst. inversion Ha as [|? ? A2 Hb]; subst. inversion Hb as [|? ? A3 _]; subst.
  unfold plain_settings, for_format, read_settings. cbn [s_tie_on s_tie_off s_long_stitch_contingency].
  rewrite !C50_settings_override, A1, A2, A3, W1, W2, W3. repeat destruct (in_dec _ _ _); auto.
Qed.

(** ** C154: any number of conversions *)
(** One conversion: the design is encoded for a format, written, and read again. *)
Inductive converted : list (stitch Q) -> list (stitch Q) -> Prop :=
| by_exp : forall set l threads out ths,
    fitting 127 set -> no_sequins set -> plain_settings set ->
    transcode N set (loaded l threads) = Ok (out, ths) ->
    converted l (map of_int (exp_read (exp_write qz_q out)))
| by_dst : forall set l threads out ths extended trim_at info file count distance clipping fuel l' head,
    fitting 121 set -> plain_settings set -> info_ok extended info -> header_room extended info ->
    transcode N set (loaded l threads) = Ok (out, ths) -> small out ->
    dst_write extended trim_at info out = Ok file -> (List.length file < fuel)%nat ->
    dst_read count distance clipping fuel file = Ok (l', head) ->
    converted l l'
| by_jef : forall set l threads out ths teq near near2 (thread_of : Z -> tref) trims m date w h hw hh file count some distance clipping fuel l' ths',
    fitting 127 set -> no_sequins set -> plain_settings set -> Z.of_nat (sections l) < 2 ^ 27 ->
    (forall t, 1 <= near t < 2 ^ 32) -> (forall t i, 1 <= near2 t i < 2 ^ 32) -> List.length date = 14%nat ->
    transcode N set (loaded l threads) = Ok (out, ths) ->
    jef_write qz_q teq near near2 trims m date w h hw hh ths out = Ok file -> (List.length file < fuel)%nat ->
    jef_read_file thread_of count some distance clipping fuel file = Ok (l', ths') ->
    converted l l'.
Inductive conversions : list (stitch Q) -> list (stitch Q) -> Prop :=
| conv_none : forall l, conversions l l
| conv_more : forall l l1 l2, conversions l l1 -> converted l1 l2 -> conversions l l2.

Lemma sewing_stitches : forall l l' zs, same_sewing l zs -> coloured 0 l' = map exact_colour zs -> same_stitches l l'.
Proof.
  intros l l' zs H E. unfold same_stitches. rewrite E. unfold same_sewing in H. clear E.
  induction H as [|p z a b (H1 & H2 & H3) _ IH]; cbn [map]; constructor; [|exact IH]. split; [exact H1|]. split; assumption.
Qed.
Lemma stitches_sewn : forall l l' k, same_stitches l l' -> sewn_section k l -> sewn_section k l'.
Proof.
  intros l l' k H [q I]. unfold sewn_section. unfold same_stitches in H. induction H as [|p z a b (H1 & _) _ IH]; [destruct I|]. destruct I as [->|I].
  - exists (snd z). left. destruct z. cbn [fst snd] in *. congruence.
  - destruct (IH I) as [u Iu]. exists u. right. exact Iu.
Qed.
Lemma one_conversion : forall l l', converted l l' -> file_design l -> sewn_section 0 l -> file_design l' /\ same_stitches l l'.
Proof.
  intros l l' C D W. destruct C as [set l threads out ths F Q1 P E|set l threads out ths ex t info file count dist clip fuel l' head F P I R E Sm Wr Hf Rd
    |set l threads out ths teq near near2 thread_of trims m date w h hw hh file count some dist clip fuel l' ths' F Q1 P L N1 N2 Hd E Wr Hf Rd].
  - split; [apply raw_design; apply (exp_records _ _ (Nat.le_refl _))|].
    destruct (C152_exp set l threads F Q1 P D W) as (out' & ths' & E' & S). rewrite E in E'. injection E' as <- <-.
    eapply sewing_stitches; [exact S|]. apply coloured_of_int.
  - destruct (C152_dst ex t info set l threads F P D W I R) as (out' & ths' & E' & S). rewrite E in E'. injection E' as <- <-.
    destruct (S Sm) as (file' & head' & W' & S'). rewrite Wr in W'. injection W' as <-.
    destruct (S' count dist clip fuel Hf) as (l2 & zs & R2 & C2 & S2 & D2). rewrite Rd in R2. injection R2 as <- _.
    split; [exact D2|]. eapply sewing_stitches; eassumption.
  - destruct (C152_jef set l threads teq near near2 thread_of trims m date w h hw hh F Q1 P D W L N1 N2 Hd) as (out' & ths2 & file' & nums & E' & W' & S' & _).
    rewrite E in E'. injection E' as <- <-. rewrite Wr in W'. injection W' as <-.
    destruct (S' count some dist clip fuel Hf) as (l2 & zs & R2 & C2 & S2 & D2). rewrite Rd in R2. injection R2 as <- _.
    split; [exact D2|]. eapply sewing_stitches; eassumption.
Qed.
(** However often a design is converted, no stitch is lost, added, moved by any distance or sewn in another section. *)
Theorem C154_conversions : forall l l', conversions l l' -> file_design l -> sewn_section 0 l -> file_design l' /\ same_stitches l l'.
Proof.
  intros l l' C D W. induction C as [l|l l1 l2 C IH H].
  - split; [exact D|]. unfold same_stitches. induction (coloured 0 l); constructor; [|assumption]. split; [reflexivity|]. split; reflexivity.
  - destruct (IH D W) as [D1 S1]. destruct (one_conversion l1 l2 H D1 (stitches_sewn _ _ _ S1 W)) as [D2 S2]. split; [exact D2|].
    unfold same_stitches in *. eapply forall2_compose; [|exact S1|exact S2]. intros p q r (A1 & A2 & A3) (B1 & B2 & B3).
    split; [congruence|]. split; [rewrite A2; exact B2|rewrite A3; exact B3].
Qed.
End Convert.
Print Assumptions C152_dst.
Print Assumptions C152_exp.
Print Assumptions C152_jef.
Print Assumptions C152_pec.
Print Assumptions C152_pes_version_6.
Print Assumptions C152_default_settings.
Print Assumptions C154_conversions.

(** ** C153: what the readers make of arbitrary bytes *)
Theorem C153_exp : forall bytes, file_design (map of_int (exp_read bytes)).
Proof. intros bytes. apply raw_design. apply (exp_records _ _ (Nat.le_refl _)). Qed.
Theorem C153_pec : forall bytes, file_design (map of_int (pec_read bytes)).
Proof. intros bytes. apply raw_design. apply (pec_records _ _ (Nat.le_refl _)). Qed.
Lemma applied_commands : forall c (r : list rel) x y e, Forall (fun a => scmd a <> c) (apply_rel x y (r ++ [e])) -> Forall (fun a => scmd a <> c) r.
Proof.
  intros c. induction r as [|a r IH]; intros x y e H; [constructor|]. cbn [app apply_rel] in H. apply Forall_cons_iff in H. destruct H as [Ha H].
  constructor; [exact Ha|]. eapply IH. exact H.
Qed.
(** DST, if no record switches the sequins on. *)
Theorem C153_dst : forall count distance clipping fuel file l head,
  Forall (fun a => scmd a <> SEQUIN_MODE) (dst_read_raw (skipn 512 file)) ->
  dst_read count distance clipping fuel file = Ok (l, head) -> file_design l.
Proof.
  intros count distance clipping fuel file l head H E. unfold dst_read in E.
  destruct (dst_read_header file) as [h|]; [|discriminate]. cbn [bindr] in E.
  destruct (interpolate_trims _ _ _ _ _) as [l1|] eqn:E1; [|discriminate]. cbn [bindr] in E. injection E as -> ->.
  eapply interpolated_design; [|exact E1]. apply raw_design. apply (dst_records _ _ (Nat.le_refl _)).
  unfold dst_read_raw in H. eapply applied_commands. exact H.
Qed.
(** JEF, if no stop is read. *)
Theorem C153_jef : forall T (thread_of : Z -> T) count some distance clipping fuel file raw ths l ths',
  jef_read thread_of file = Ok (raw, ths) -> Forall (fun a => scmd a <> STOP) raw ->
  jef_read_file thread_of count some distance clipping fuel file = Ok (l, ths') -> file_design l.
Proof.
  intros T thread_of count some distance clipping fuel file raw ths l ths' R H E. unfold jef_read_file in E. rewrite R in E. cbn [bindr] in E.
  destruct (interpolate_trims _ _ _ _ _) as [l1|] eqn:E1; [|discriminate]. cbn [bindr] in E. injection E as -> _.
  eapply interpolated_design; [|exact E1].
  unfold jef_read in R. destruct (read_int_32le file) as [[o|] ?]; destruct (read_int_32le _) as [[n|] ?]; try discriminate.
  destruct (jef_read_colors _ _ _) as [cs|]; [|discriminate]. cbn [bindr] in R. unfold jef_read_stitches in R.
  destruct (jef_read_loop _ _ _) as [[r u]|] eqn:Er; [|discriminate]. cbn [bindr] in R. injection R as <- <-.
  apply raw_design. destruct (jef_records _ _ _ _ _ _ _ (Nat.le_refl _) Er) as [_ P]. apply P.
  eapply applied_commands. exact H.
Qed.
Print Assumptions C153_exp.
Print Assumptions C153_pec.
Print Assumptions C153_dst.
Print Assumptions C153_jef.

(** ** C155: no sequins from nowhere *)
(** A design without sequin commands is encoded without any, whatever the settings ask for. *)
Theorem C155_no_sequins : forall M (set : settings M) p out ths, transcode M set p = Ok (out, ths) ->
  Forall (fun a => is_cmd SEQUIN_MODE a = false /\ is_cmd SEQUIN_EJECT a = false) (p_stitches M p) ->
  Forall (fun a => is_cmd SEQUIN_MODE a = false /\ is_cmd SEQUIN_EJECT a = false) out.
Proof.
  intros M set p out ths E H. eapply Forall_impl; [|eapply transcode_sequins; [exact E|]].
  - intros a [A1 A2]. split; apply Z.eqb_neq; assumption.
  - eapply Forall_impl; [|exact H]. intros a [A1 A2]. split; apply Z.eqb_neq; assumption.
Qed.
Print Assumptions C155_no_sequins.

(** An EXP file: a stitch, a colour change, a stitch, a trim, a jump and two stitches, the last without movement. *)
Definition c152_file : list Z := [10; 20;  0x80; 0x01; 0; 0;  0xF6; 5;  0x80; 0x80; 7; 0;  0x80; 0x04; 100; 100;  3; 3;  0; 0].
Definition c152_design : list (stitch Q) := map of_int (exp_read c152_file).
Lemma c152_is_design : file_design c152_design.
Proof. apply C153_exp. Qed.
Lemma c152_sections : sections c152_design = 2%nat /\ (forall k, (k < 2)%nat -> sewn_section k c152_design).
Proof.
  split; [vm_compute; reflexivity|]. intros k H. destruct k as [|[|k]]; [| |lia].
  - exists (inject_Z 10, inject_Z (-20)). left. reflexivity.
  - exists (inject_Z 0, inject_Z (-25)). right. left. reflexivity.
Qed.
Example C152_case :
  let used := firstn (sections c152_design) [plain_thread 0xFF0000; plain_thread 0x00FF00] in
  (exists out, transcode ExNum (c116_set (pec_attributes ExNum inject_Z)) (loaded ex_cos ex_sin ex_orient c152_design [plain_thread 0xFF0000; plain_thread 0x00FF00]) = Ok (out, map Own used)) /\
  (exists out ths, transcode ExNum (c116_set (exp_attributes ExNum inject_Z)) (loaded ex_cos ex_sin ex_orient c152_design []) = Ok (out, ths) /\
     same_sewing c152_design (coloured 0 (exp_read (exp_write qz_q out)))).
Proof.
  destruct (C148_default_settings ex_cos ex_sin ex_orient []) as (_ & (F1 & Q1) & _ & F & Hq); [each|each|].
  destruct c152_sections as [Es W]. split.
  - destruct (C152_pec ex_cos ex_sin ex_orient ex_turns ex_orient_bounded plain_thread (first_seen []) None
      (c116_set (pec_attributes ExNum inject_Z)) c152_design [plain_thread 0xFF0000; plain_thread 0x00FF00]) as (out & E & R); try assumption.
    + apply first_seen_order.
    + vm_compute. repeat (apply Forall_cons; [split; congruence|]). apply Forall_nil.
    + apply C152_default_settings; [each|reflexivity|reflexivity|reflexivity].
    + exact c152_is_design.
    + rewrite Es. cbn. lia.
    + rewrite Es. lia.
    + rewrite Es. intros a x y b H; destruct a as [|a1 [|a2 [|a3 a]]]; try discriminate H. injection H as <- <- _. discriminate.
    + exists out. exact E.
  - apply (C152_exp ex_cos ex_sin ex_orient ex_turns ex_orient_bounded); try assumption.
    + apply C152_default_settings; [each|reflexivity|reflexivity|reflexivity].
    + exact c152_is_design.
    + apply W. lia.
Qed.
(** Through EXP and DST: the file is converted twice and every stitch is still there. *)
Example C154_case : exists l1, converted ex_cos ex_sin ex_orient c152_design l1 /\ conversions ex_cos ex_sin ex_orient c152_design l1.
Proof.
  destruct (C148_default_settings ex_cos ex_sin ex_orient []) as (_ & (F1 & Q1) & _); [each|each|].
  destruct C152_case as [_ (out & ths & E & _)]. exists (map of_int (exp_read (exp_write qz_q out))).
  assert (C : converted ex_cos ex_sin ex_orient c152_design (map of_int (exp_read (exp_write qz_q out)))).
  { eapply by_exp; [exact F1|exact Q1| |exact E]. apply C152_default_settings; [each|reflexivity|reflexivity|reflexivity]. }
  split; [exact C|]. eapply conv_more; [apply conv_none|exact C].
Qed.
(** And run: the stitches of the EXP file, of the EXP file made of it, and of the DST file made of that. *)
Definition convert_exp (l : list (stitch Q)) : list (stitch Q) :=
  match transcode ExNum (c116_set (exp_attributes ExNum inject_Z)) (mkP ExNum l []) with
  | Ok (o, _) => map of_int (exp_read (exp_write qz_q o)) | Err _ => [] end.
Definition convert_dst (l : list (stitch Q)) : list (stitch Q) :=
  match transcode ExNum (c116_set (dst_attributes ExNum inject_Z)) (mkP ExNum l []) with
  | Ok (o, _) => match dst_write false 3 (mkInfo None None None []) o with
                 | Ok f => match dst_read 3 None false 2000 f with Ok (l', _) => l' | Err _ => [] end | Err _ => [] end | Err _ => [] end.
Definition shown (l : list (stitch Q)) : list (nat * (Z * Z)) := map (fun p => (fst p, (Qround.Qfloor (fst (snd p)), Qround.Qfloor (snd (snd p))))) (coloured 0 l).
Example C154_run :
  shown c152_design = [(0%nat, (10, -20)); (1%nat, (0, -25)); (1%nat, (103, -128)); (1%nat, (103, -128))] /\
  shown (convert_exp c152_design) = shown c152_design /\ shown (convert_dst (convert_exp c152_design)) = shown c152_design.
Proof. vm_compute. auto. Qed.
(** C153: bytes that are no design at all. *)
Example C153_case : map scmd (map of_int (exp_read [0x80; 0x55; 1; 2; 0x80])) <> [] /\ file_design (map of_int (exp_read [0x80; 0x55; 1; 2; 0x80])) /\
  file_design (map of_int (pec_read [0xFE; 0xB0; 1; 0x90; 0x10; 7; 0xFF])).
Proof. split; [vm_compute; congruence|]. split; [apply C153_exp|apply C153_pec]. Qed.
(** Without the condition on sequins a DST file may hold sequin commands. *)
Example C153_dst_needs : exists l head, dst_read 3 None false 600 (repeat 0x20 512 ++ [0; 0; 0x43; 1; 0; 0x83]) = Ok (l, head) /\ ~ file_design l.
Proof.
  assert (E : exists l head, dst_read 3 None false 600 (repeat 0x20 512 ++ [0; 0; 0x43; 1; 0; 0x83]) = Ok (l, head) /\ map scmd l = [SEQUIN_MODE; SEQUIN_EJECT; END]).
  { eexists; eexists. split; vm_compute; reflexivity. }
  destruct E as (l & head & E & M). exists l, head. split; [exact E|]. intros (body & e & -> & He & B).
  rewrite map_app in M. destruct body as [|a body]; [discriminate|]. cbn [map app] in M. injection M as Ma _.
  apply Forall_cons_iff in B. destruct B as [[B _] _]. rewrite Ma in B. cbn in B. repeat destruct B as [B|B]; try discriminate B; exact B.
Qed.
(** C155: no sequins in the design. *)
Example C155_case : Forall (fun a => is_cmd SEQUIN_MODE a = false /\ is_cmd SEQUIN_EJECT a = false) c152_design.
Proof. vm_compute. repeat (apply Forall_cons; [split; reflexivity|]). apply Forall_nil. Qed.
