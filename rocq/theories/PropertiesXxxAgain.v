(** Property C209: saving a loaded XXX file again. *)
From Coq Require Import ZArith QArith Qabs List Bool Lia Lqa.
From Verif Require Import PyBase BitLemmas EmbConst StreamModel HelperModel HelperProofs StreamSpec StreamProofs FunctionsModel ThreadModel PropertiesThread NumModel NumQ
  MatrixModel EncoderModel EncoderProofs EncoderSpec EncoderColorSpec MetricSpec EncoderMetricProofs QuantModel QuantProofs PatternModel
  DstFileModel XxxModel FormatSpec EightBitProofs WholeModel WholeSpec WholeProofs PropertiesEncoder SettingsModel PropertiesSettings
  PropertiesPipeline PropertiesColor PropertiesFidelity PropertiesWhole ConvertSpec PropertiesConvert ResaveSpec EncoderAgainProofs PropertiesResave
  PropertiesDstAgain ConvertProofs JefModel JefSpec JefAgainSpec PropertiesJefAgain.
Import ListNotations.
Open Scope Z_scope.

Notation steps := (representable 123 [STITCH; JUMP] [TRIM; COLOR_CHANGE; STOP; END]).
Definition known (a : stitch Z) : Prop := In (scmd a) [STITCH; JUMP; TRIM; COLOR_CHANGE].

(** ** What a file is read as *)
Definition rests (a : stitch Z) : Prop := known a /\ (scmd a = TRIM \/ scmd a = COLOR_CHANGE -> sx a = 0 /\ sy a = 0).
Lemma read_rests : forall n s l q, (List.length s <= n)%nat -> xxx_read_loop s = Ok (l, q) -> Forall rests l.
Proof.
  induction n as [|n IH]; intros s l q Hn E; (destruct s as [|b1 s1]; [discriminate E|]); cbn [List.length] in Hn; [lia|].
  assert (G : forall r a t l' q', (List.length r <= n)%nat -> rests a ->
    (do '(t, q) <- xxx_read_loop r; Ok (a :: t, q)) = Ok (l', q') -> t = l' -> Forall rests t).
  { intros r a t l' q' L Ha X <-. destruct (xxx_read_loop r) as [[t' q'']|] eqn:Er; [|discriminate X]. cbn [bindr] in X. injection X as <- <-.
    constructor; [exact Ha|exact (IH _ _ _ L Er)]. }
  assert (M : forall x y c, c = STITCH \/ c = JUMP -> rests (mkS x y c)).
  { intros x y c Hc. split; [unfold known; cbn [scmd In]; intuition congruence|]. cbn [scmd]. intros [X|X]; rewrite X in Hc; destruct Hc; discriminate. }
  assert (O : forall c, c = TRIM \/ c = COLOR_CHANGE -> rests (mkS 0 0 c)).
  { intros c Hc. split; [unfold known; cbn [scmd In]; intuition congruence|]. intros _. split; reflexivity. }
  cbn [xxx_read_loop] in E. destruct ((b1 =? 125) || (b1 =? 126)).
  { destruct s1 as [|x0 [|x1 [|y0 [|y1 r]]]]; try discriminate E. refine (G r _ l l q _ _ E eq_refl); [cbn [List.length] in Hn; lia|apply M; auto]. }
  destruct s1 as [|b2 r]; [discriminate E|]. cbn [List.length] in Hn. destruct (negb (b1 =? 127)).
  { refine (G r _ l l q _ _ E eq_refl); [lia|apply M; auto]. }
  destruct r as [|b3 [|b4 r']]; [destruct (_ || _); [injection E as <- <-; constructor|discriminate E]|destruct (_ || _); [injection E as <- <-; constructor|discriminate E]|].
  cbn [List.length] in Hn. assert (Hr : (List.length r' <= n)%nat) by lia. destruct (b2 =? 1).
  { refine (G r' _ l l q _ _ E eq_refl); [lia|apply M; auto]. }
  destruct (b2 =? 3).
  { destruct (xxx_read_loop r') as [[t q']|] eqn:Er; [|discriminate E]. cbn [bindr] in E. assert (Ht : Forall rests t) by exact (IH _ _ _ Hr Er).
    destruct (_ || _); injection E as <- <-; constructor; auto. }
  destruct (_ || _); [refine (G r' _ l l q _ _ E eq_refl); [lia|apply O; auto]|].
  destruct (b2 =? 127); [injection E as <- <-; constructor|]. destruct (b2 =? 24); [injection E as <- <-; constructor|].
  exact (IH _ _ _ Hr E).
Qed.
Lemma rests_steps : forall l px py, Forall rests l -> within 123 px py (apply_rel px py l) -> steps px py (apply_rel px py l) /\ Forall known (apply_rel px py l).
Proof.
  induction l as [|a l IH]; intros px py H W; [split; [exact I|constructor]|]. apply Forall_cons_iff in H. destruct H as [[A1 A2] H].
  cbn [apply_rel within representable sx sy scmd] in *. destruct W as [W1 W2]. destruct (IH _ _ H W2) as [I1 I2].
  split; [|constructor; [exact A1|exact I2]]. split; [|exact I1]. unfold known in A1. cbn [In] in A1.
  destruct A1 as [A|[A|[A|[A|[]]]]]; rewrite <- A in *; [left; split; [cbn; auto|exact W1]|left; split; [cbn; auto|exact W1]| |];
    (right; destruct A2 as [X Y]; [auto|]; rewrite X, Y; split; [cbn; auto|lia]).
Qed.
Lemma steps_closed : forall b px py, steps px py b -> steps px py (let '(x, y) := needle_after px py b in b ++ [mkS x y END]).
Proof.
  induction b as [|a b IH]; intros px py H; cbn [needle_after].
  - cbn [app representable scmd sx sy]. split; [|exact I]. right. split; [cbn; auto|auto].
  - cbn [representable] in H. destruct H as [H1 H2]. specialize (IH _ _ H2). destruct (needle_after (sx a) (sy a) b) as [x y]. cbn [app representable]. split; [exact H1|exact IH].
Qed.

(** ** Designs *)
Record plain (b : list (stitch Z)) : Prop := mkPlainX {
  x_known : Forall known b;
  x_steps : steps 0 0 b;
  x_sews : sews_first b;
  x_changes : Z.of_nat (changes b) < 65535 }.

(** An XXX file with steps of at most 123 units, in which something is sewn before the first of at most 65534
    colour changes. *)
Definition plain_xxx (file : list Z) : Prop :=
  exists l colors, xxx_read_file file = Ok (l, colors) /\ within 123 0 0 l /\ sews_first l /\ Z.of_nat (color_changes l) < 65535.
Lemma plain_body_read : forall file l colors, xxx_read_file file = Ok (l, colors) -> within 123 0 0 l -> sews_first l -> Z.of_nat (color_changes l) < 65535 ->
  exists b, l = closed b /\ plain b.
Proof.
  intros file l colors E Hw Hf Hc. unfold xxx_read_file in E. destruct (read_int_16le (skipn 39 file)) as [[n|] r]; [|discriminate E].
  unfold xxx_read in E. destruct (xxx_read_loop _) as [[l0 q]|] eqn:El; [|discriminate E]. cbn [bindr] in E. rewrite apply_rel_end in E.
  assert (Er : l = closed (apply_rel 0 0 l0)) by congruence. subst l. exists (apply_rel 0 0 l0). split; [reflexivity|].
  pose proof (read_rests _ _ _ _ (Nat.le_refl _) El) as Hr. rewrite closed_changes in Hc. rewrite closed_last in Hw, Hf. apply within_app in Hw.
  destruct (rests_steps l0 0 0 Hr Hw) as [S1 K]. constructor; [exact K|exact S1|exact (sews_end _ _ (last_end _) Hf)|exact Hc].
Qed.

(** ** Trims left out *)
Lemma trims_app : forall (l : list (stitch Z)) cut e, scmd e = END -> without_cut_trims cut (l ++ [e]) = without_cut_trims cut l ++ [e].
Proof.
  induction l as [|a l IH]; intros cut e He; cbn [app without_cut_trims].
  - rewrite He. change (cmd_of END =? TRIM) with false. rewrite andb_false_r. reflexivity.
  - rewrite (IH _ e He), app_assoc. reflexivity.
Qed.
Lemma trims_known : forall l cut, Forall known l -> Forall known (without_cut_trims cut l).
Proof.
  induction l as [|a l IH]; intros cut H; [constructor|]. apply Forall_cons_iff in H. destruct H as [H1 H2]. cbn [without_cut_trims]. apply Forall_app.
  split; [destruct (cut && _); [constructor|constructor; [exact H1|constructor]]|exact (IH _ H2)].
Qed.
Lemma trims_steps : forall l cut px py, steps px py l -> steps px py (without_cut_trims cut l).
Proof.
  induction l as [|a l IH]; intros cut px py H; [exact I|]. cbn [without_cut_trims representable] in *. destruct H as [H1 H2].
  destruct (cut && (cmd_of (scmd a) =? TRIM)) eqn:E; cbn [app]; [|split; [exact H1|exact (IH _ _ _ H2)]].
  apply andb_true_iff in E. destruct E as [_ E]. apply Z.eqb_eq in E. rewrite E in H1.
  destruct H1 as [[H1 _]|[_ [X Y]]]; [cbn in H1; destruct H1 as [H1|[H1|[]]]; discriminate H1|]. rewrite X, Y in H2. exact (IH _ _ _ H2).
Qed.
Lemma trims_sews : forall (l : list (stitch Z)) cut, sews_first l -> sews_first (without_cut_trims cut l).
Proof.
  induction l as [|a l IH]; intros cut H; [exact H|]. cbn [without_cut_trims sews_first] in *.
  destruct (cut && (cmd_of (scmd a) =? TRIM)) eqn:E; cbn [app sews_first].
  - apply andb_true_iff in E. destruct E as [_ E]. apply Z.eqb_eq in E. rewrite E in H. destruct H as [H|[_ H]]; [discriminate H|exact (IH _ H)].
  - destruct H as [H|[H1 H2]]; [left; exact H|right; split; [exact H1|exact (IH _ H2)]].
Qed.
Lemma trims_changes : forall l cut, changes (without_cut_trims cut l) = changes l.
Proof.
  unfold changes. induction l as [|a l IH]; intros cut; [reflexivity|]. cbn [without_cut_trims filter].
  destruct (cut && (cmd_of (scmd a) =? TRIM)) eqn:E; cbn [app filter].
  - apply andb_true_iff in E. destruct E as [_ E]. apply Z.eqb_eq in E. rewrite E. change (TRIM =? COLOR_CHANGE) with false. cbv iota. apply IH.
  - destruct (_ =? COLOR_CHANGE); cbn [List.length]; rewrite IH; reflexivity.
Qed.
Lemma cut_again : forall cut (a : stitch Z), cut && (cmd_of (scmd a) =? TRIM) = true -> cut_by cut (scmd a) = cut.
Proof.
  intros cut a E. apply andb_true_iff in E. destruct E as [-> E]. apply Z.eqb_eq in E. unfold cut_by. rewrite E. reflexivity.
Qed.
Lemma trims_twice : forall (l : list (stitch Z)) cut, without_cut_trims cut (without_cut_trims cut l) = without_cut_trims cut l.
Proof.
  induction l as [|a l IH]; intros cut; [reflexivity|]. cbn [without_cut_trims]. destruct (cut && (cmd_of (scmd a) =? TRIM)) eqn:E; cbn [app without_cut_trims].
  - rewrite (cut_again _ _ E). apply IH.
  - rewrite E. cbn [app]. rewrite IH. reflexivity.
Qed.
Lemma trims_plain : forall b, plain b -> plain (without_cut_trims true b).
Proof. intros b [H1 H2 H3 H4]. constructor; [apply trims_known; exact H1|apply trims_steps; exact H2|apply trims_sews; exact H3|rewrite trims_changes; exact H4]. Qed.
Lemma end_place : forall b e px py, scmd e = END -> steps px py (b ++ [e]) -> needle_after px py b = (sx e, sy e).
Proof.
  induction b as [|a b IH]; intros e px py He H; cbn [app representable needle_after] in *.
  - destruct H as [[[H _]|[_ [X Y]]] _]; [rewrite He in H; cbn in H; destruct H as [H|[H|[]]]; discriminate H|congruence].
  - destruct H as [_ H]. exact (IH e _ _ He H).
Qed.
Lemma trims_closed : forall b, steps 0 0 b -> without_cut_trims true (closed b) = closed (without_cut_trims true b).
Proof.
  intros b H. pose proof (steps_closed b 0 0 H) as C. rewrite closed_last, trims_app by apply last_end.
  assert (C2 : steps 0 0 (b ++ [last_of b])) by (unfold last_of; destruct (needle_after 0 0 b); exact C).
  apply (trims_steps _ true) in C2. rewrite trims_app in C2 by apply last_end. pose proof (end_place _ _ _ _ (last_end b) C2) as P.
  rewrite closed_last. f_equal. f_equal. unfold last_of at 2. rewrite P. pose proof (last_end b) as L. destruct (last_of b) as [x y c]. cbn [scmd sx sy] in *. subst c. reflexivity.
Qed.

(** ** The file *)
Definition xxx_file (colors : list Z) (b : list (stitch Z)) : res (list Z) := xxx_write colors (map of_int (closed b)).
Lemma loop_same : forall out l, same_commands out l -> forall xx yy, xxx_loop (quantise qz_q xx yy out) = xxx_loop (quantise qz_q xx yy (map of_int l)).
Proof.
  intros out l H. induction H as [|a c out l (H1 & H2 & H3) _ IH]; intros xx yy; [reflexivity|]. cbn [map quantise of_int sx sy scmd].
  cbv zeta. rewrite H1, H2. cbn [xxx_loop scmd sx sy]. rewrite H3, IH. reflexivity.
Qed.
Lemma rev_same : forall out l, same_commands out l -> match rev out, rev (map of_int l) with
  | a :: _, b :: _ => sx a = sx b /\ sy a = sy b | [], [] => True | _, _ => False end.
Proof.
  intros out l H. induction H as [|a c out l (H1 & H2 & H3) _ IH]; [exact I|]. cbn [map rev].
  destruct (rev out) as [|x r], (rev (map of_int l)) as [|y r']; cbn [app of_int sx sy]; try contradiction; auto.
Qed.
Lemma write_same : forall colors out l, same_commands out l -> xxx_write colors out = xxx_write colors (map of_int l).
Proof.
  intros colors out l H. unfold xxx_write, xxx_header, xxx_tail. rewrite (loop_same _ _ H).
  assert (B : bounds out = bounds (map of_int l)) by (exact (bounds_same out l H _)). rewrite B.
  assert (L : zlen out = zlen (map of_int l)) by (unfold zlen; rewrite map_length; f_equal; clear B; induction H; cbn [List.length]; congruence). rewrite L.
  pose proof (rev_same _ _ H) as R. destruct (rev out) as [|x r], (rev (map of_int l)) as [|y r']; try contradiction; [reflexivity|]. destruct R as [-> ->]. reflexivity.
Qed.
Definition low24 (c : Z) : Z := c mod 2 ^ 24.
Lemma sh8_low : forall c k, In k [0; 8; 16] -> sh8 (low24 c) k = sh8 c k.
Proof. intros c k Hk. unfold low24. cbn [In] in Hk. destruct Hk as [<-|[<-|[<-|[]]]]; rewrite !sh8_spec by lia; cbn [Z.pow Z.pow_pos Pos.iter Z.mul Pos.mul]; lia. Qed.
Lemma write_low : forall colors l, xxx_write (map low24 colors) l = xxx_write colors l.
Proof.
  intros colors l. unfold xxx_write, xxx_header, xxx_tail.
  assert (Z1 : zlen (map low24 colors) = zlen colors) by (unfold zlen; rewrite map_length; reflexivity). rewrite Z1.
  assert (X : xxx_colors (map low24 colors) = xxx_colors colors).
  { unfold xxx_colors. rewrite map_length. f_equal. f_equal. clear Z1. induction colors as [|c r IH]; [reflexivity|]. cbn [map flat_map]. rewrite IH.
    rewrite !sh8_low by (cbn; auto). reflexivity. }
  rewrite X. reflexivity.
Qed.
Lemma known_before : forall b e, scmd e = END -> Forall known b -> before_end (b ++ [e]) = b.
Proof.
  intros b e He H. induction H as [|a b Ha _ IH]; cbn [app before_end]; [rewrite He; reflexivity|]. rewrite IH.
  unfold known in Ha. cbn [In] in Ha. destruct Ha as [Ha|[Ha|[Ha|[Ha|[]]]]]; rewrite <- Ha; reflexivity.
Qed.
Lemma known_renamed : forall b, Forall known b -> renamed (as_color_change []) b = b.
Proof.
  intros b H. induction H as [|a b Ha _ IH]; [reflexivity|]. cbn [renamed]. unfold as_color_change at 1. cbn [existsb]. rewrite IH.
  unfold known in Ha. cbn [In] in Ha. destruct a as [x y c]. cbn [scmd sx sy] in *. destruct Ha as [<-|[<-|[<-|[<-|[]]]]]; reflexivity.
Qed.
Lemma steps_xxx : forall l px py, steps px py l -> xxx_ok px py l.
Proof.
  induction l as [|a l IH]; intros px py H; [exact I|]. cbn [representable xxx_ok] in *. destruct H as [H1 H2]. split; [|exact (IH _ _ H2)].
  destruct H1 as [[H1 H3]|[H1 H3]]; cbn [In] in H1.
  - destruct H1 as [H1|[H1|[]]]; [left; auto|right; left; split; [auto|unfold step_within in *; lia]].
  - right; right. split; [intuition|exact H3].
Qed.
Lemma file_ok : forall colors b, plain b -> zlen colors < 65536 ->
  exists file, xxx_file colors b = Ok file /\ xxx_read_file file = Ok (closed b, map low24 colors).
Proof.
  intros colors b [H1 H2 H3 H4] Hl. unfold xxx_file. rewrite <- write_low, closed_last, map_app. cbn [map].
  assert (W : written (map of_int b ++ [of_int (last_of b)]) = closed b).
  { change [of_int (last_of b)] with (map of_int [last_of b]). rewrite <- map_app, <- closed_last. apply written_int. }
  destruct (C120_xxx_file (map low24 colors) (map of_int b) (of_int (last_of b))) as (file & E & _ & R).
  - rewrite W. apply steps_xxx. unfold closed. pose proof (steps_closed b 0 0 H2) as C. destruct (needle_after 0 0 b). exact C.
  - rewrite Forall_map. apply Forall_forall. intros c _. unfold low24. apply Z.mod_pos_bound. lia.
  - unfold zlen in *. rewrite map_length. exact Hl.
  - exists file. split; [exact E|]. rewrite R, W. rewrite (closed_last b), known_before by (try apply last_end; exact H1). rewrite known_renamed by exact H1. rewrite (closed_last b). reflexivity.
Qed.

Section Resave.
Variables (qcos qsin : Q -> Q) (qorient : Q -> Q -> Q -> Q -> Q -> Q * Q).
Notation N := (QNum qcos qsin qorient).
Hypothesis Hturn : forall t, ~ (qcos t * qcos t + qsin t * qsin t == 0)%Q.
Notation resaving := (resaving qcos qsin qorient).
Notation loaded := (loaded qcos qsin qorient).

(** Saving [l] and [threads] may write [file]; a thread in the place of one the design does not have is any. *)
Definition saved_xxx (set : settings N) (l : list (stitch Z)) (threads : list thread) (file : list Z) : Prop :=
  exists out refs ths, transcode N set (loaded (map of_int l) threads) = Ok (out, refs) /\ Forall2 resolves refs ths /\
    xxx_write (map t_color ths) out = Ok file.
(** Settings that ask for nothing but steps that XXX can store. *)
Definition xxx_resaving (set : settings N) : Prop := resaving 123 set /\ s_full_jump N set <> Some true /\ s_needle_count N set <> Some 0.

Lemma plain_walking : forall b, plain b -> walking 123 (closed b) /\ sewn_first (closed b).
Proof.
  intros b [H1 H2 H3 H4]. rewrite closed_last. split; [split|].
  - exists b, (last_of b). split; [reflexivity|]. split; [apply last_end|]. eapply Forall_impl; [|exact H1]. intros a Ha. unfold known in Ha. cbn [In] in *. tauto.
  - pose proof (steps_closed b 0 0 H2) as C. unfold last_of. destruct (needle_after 0 0 b). exact C.
  - revert H3. generalize [last_of b]. clear. intros e. induction b as [|a b IH]; intros S; [contradiction|]. cbn [app sews_first sewn_first] in *.
    destruct S as [S|[S1 S2]]; [left; exact S|right; auto].
Qed.
Lemma saved_what : forall (set : settings N) b threads out refs ths, xxx_resaving set -> plain b ->
  transcode N set (loaded (map of_int (closed b)) threads) = Ok (out, refs) -> Forall2 resolves refs ths ->
  List.length refs = S (changes b) /\ (forall k t, nth_error refs k = Some t -> t = EncoderModel.get_thread_or_filler threads (Z.of_nat k)) /\
  xxx_write (map t_color ths) out = xxx_file (map t_color ths) (without_cut_trims true b).
Proof.
  intros set b threads out refs ths (R & J & Nc) P E Hr. destruct (plain_walking b P) as [W Sf].
  pose proof (encoded_walking qcos qsin qorient 123 set _ threads out refs R W (fun X => match J X with end) Sf E) as K0.
  assert (K : same_commands out (closed (without_cut_trims true b))) by (rewrite <- trims_closed by exact (x_steps _ P); exact K0). clear K0.
  assert (Pl : Forall (fun a => In (scmd a) [STITCH; JUMP; TRIM; COLOR_CHANGE; END]) (EncoderModel.p_stitches N (loaded (map of_int (closed b)) threads))).
  { cbn [EncoderModel.p_stitches PropertiesConvert.loaded]. rewrite Forall_map, closed_last. apply Forall_app. split; [eapply Forall_impl; [|exact (x_known _ P)]; intros a Ha; unfold known in Ha; cbn [of_int scmd In] in *; tauto|].
    constructor; [cbn [of_int scmd]; rewrite last_end; cbn; auto 8|constructor]. }
  assert (G : forall Q : stitch Q -> Prop, (forall a, In (scmd a) [STITCH; JUMP; TRIM; COLOR_CHANGE; END] -> Q a) ->
    Forall Q (EncoderModel.p_stitches N (loaded (map of_int (closed b)) threads))) by (intros Q HQ; eapply Forall_impl; [|exact Pl]; exact HQ).
  assert (Rc : requested_change set = COLOR_CHANGE) by (rewrite <- requested_ok; exact (r_change _ _ _ _ _ R)).
  assert (St : EncoderSpec.sews out).
  { assert (S : sews_first (without_cut_trims true b)) by (apply trims_sews; exact (x_sews _ P)). rewrite closed_last in K.
    revert K S. generalize [last_of (without_cut_trims true b)]. generalize (without_cut_trims true b). clear. intros l e K. revert out K.
    induction l as [|a l IH]; intros out K S; [contradiction|]. cbn [app] in K. inversion K as [|x y o r (_ & _ & H) K']; subst. cbn [sews_first] in S.
    destruct S as [S|[_ S]]; [left; left; unfold is_cmd; change (Z.land (scmd x) 255) with (cmd_of (scmd x)); rewrite H, S; reflexivity|right; exact (IH _ K' S)]. }
  assert (K0 : forall (a : stitch Q) k, In (scmd a) [STITCH; JUMP; TRIM; COLOR_CHANGE; END] -> ~ In k [STITCH; JUMP; TRIM; COLOR_CHANGE; END] -> is_cmd k a = false).
  { intros a k Ha Hk. unfold is_cmd. apply Z.eqb_neq. intros X. apply Hk. cbn [In] in Ha. destruct Ha as [Ha|[Ha|[Ha|[Ha|[Ha|[]]]]]]; rewrite <- Ha in X; rewrite <- X; cbn; auto 8. }
  assert (T0 : Forall (fun a => is_cmd TIE_ON a = false /\ is_cmd TIE_OFF a = false) (EncoderModel.p_stitches N (loaded (map of_int (closed b)) threads))).
  { apply G. intros a Ha. split; (apply K0; [exact Ha|]); cbn; intuition discriminate. }
  pose proof (C25_threads_match_changes N set _ out refs E Rc T0 St) as C.
  assert (Cc : count_cmd COLOR_CHANGE out = Z.of_nat (changes b)).
  { unfold count_cmd. f_equal. transitivity (changes (closed (without_cut_trims true b))).
    - unfold changes. revert K. generalize (closed (without_cut_trims true b)). clear. intros l K. induction K as [|x y o r (_ & _ & H) _ IH]; [reflexivity|].
      cbn [filter]. unfold is_cmd at 1. change (Z.land (scmd x) 255) with (cmd_of (scmd x)). rewrite H. destruct (_ =? _); cbn [List.length]; rewrite IH; reflexivity.
    - rewrite <- (trims_changes b true). exact (closed_changes (without_cut_trims true b)). }
  split; [lia|]. split.
  - refine (proj1 (proj2 (proj2 (colours_of_transcode N set _ out refs E Rc _ _ _ _)))).
    + rewrite Forall_forall. intros a Ia. apply until_end_in in Ia. revert a Ia. apply Forall_forall. apply G. intros a Ha. cbv [has_command existsb matrix_commands]. rewrite !K0; try exact Ha; try reflexivity; cbn; intuition discriminate.
    + apply G. intros a Ha. assert (X : 0 <= scmd a < 256) by (cbn [In] in Ha; destruct Ha as [Ha|[Ha|[Ha|[Ha|[Ha|[]]]]]]; rewrite <- Ha; split; vm_compute; congruence). exact (fun _ => X).
    + apply G. intros a Ha. apply K0; [exact Ha|]. cbn; intuition discriminate.
    + apply G. intros a Ha. assert (X : thread_number a = None) by (cbn [In] in Ha; unfold thread_number; destruct Ha as [Ha|[Ha|[Ha|[Ha|[Ha|[]]]]]]; rewrite <- Ha; reflexivity). exact (fun _ => X).
  - exact (write_same _ out _ K).
Qed.
(** The colours of the threads there are, in order. *)
Lemma own_colors : forall refs ths threads, Forall2 resolves refs ths ->
  (forall k t, nth_error refs k = Some t -> t = EncoderModel.get_thread_or_filler threads (Z.of_nat k)) ->
  forall k t, (k < List.length refs)%nat -> nth_error threads k = Some t -> nth_error ths k = Some t.
Proof.
  intros refs ths threads H G k t Hk Ht. destruct (nth_error refs k) as [r|] eqn:Er; [|apply nth_error_None in Er; lia].
  pose proof (G k r Er) as X. unfold EncoderModel.get_thread_or_filler in X.
  assert (Lk : (k < List.length threads)%nat) by (apply nth_error_Some; congruence).
  destruct (Z.leb_spec (Z.of_nat (List.length threads)) (Z.of_nat k)) as [L|L]; [lia|]. rewrite Nat2Z.id, Ht in X. subst r. clear G Ht L Lk Hk.
  revert k Er. induction H as [|r u refs ths Hr H IH]; intros [|k] Er; cbn [nth_error List.length] in *; try discriminate Er.
  - injection Er as ->. cbn [resolves] in Hr. congruence.
  - apply IH. exact Er.
Qed.
Lemma one_save : forall b threads set file, plain b -> xxx_resaving set -> saved_xxx set (closed b) threads file ->
  exists ths, List.length ths = S (changes b) /\ xxx_file (map t_color ths) (without_cut_trims true b) = Ok file /\
    xxx_read_file file = Ok (closed (without_cut_trims true b), map low24 (map t_color ths)) /\
    (forall k t, (k <= changes b)%nat -> nth_error threads k = Some t -> nth_error ths k = Some t) /\
    (List.length threads = S (changes b) -> ths = threads).
Proof.
  intros b threads set file P R (out & refs & ths & Et & Hr & Ew). destruct (saved_what set b threads out refs ths R P Et Hr) as (L & G & W).
  rewrite W in Ew. pose proof (resolved_length _ _ Hr) as Lt. exists ths. split; [congruence|]. split; [exact Ew|]. split.
  - pose proof (x_changes _ P) as Hc. destruct (file_ok (map t_color ths) _ (trims_plain b P)) as (f & E1 & E2); [unfold zlen; rewrite map_length; lia|]. congruence.
  - split; [intros k t Hk; apply (own_colors refs ths threads Hr G); lia|]. intros Lx. apply (own_threads refs ths threads Hr); [congruence|exact G].
Qed.
Lemma closed_within : forall b, steps 0 0 b -> within 123 0 0 (closed b).
Proof.
  intros b H. pose proof (steps_closed b 0 0 H) as C. unfold closed. destruct (needle_after 0 0 b). revert C. generalize (b ++ [mkS z z0 END]). generalize 0 at 1 3. generalize 0.
  intros y x l. revert x y. induction l as [|a l IH]; intros x y W; [exact I|]. cbn [representable within] in *. destruct W as [[[_ W]|[_ [X Y]]] W2]; (split; [|exact (IH _ _ W2)]); [exact W|].
  unfold step_within. lia.
Qed.

(** ** C209 *)
Theorem C209_xxx_saved_again : forall file, plain_xxx file ->
  exists l colors, xxx_read_file file = Ok (l, colors) /\
  forall set threads, xxx_resaving set ->
  (exists file', saved_xxx set l threads file') /\
  forall file', saved_xxx set l threads file' ->
    plain_xxx file' /\ exists colors', xxx_read_file file' = Ok (without_cut_trims true l, colors') /\
      List.length colors' = S (color_changes l) /\
      forall k t, (k <= color_changes l)%nat -> nth_error threads k = Some t -> nth_error colors' k = Some (t_color t mod 2 ^ 24).
Proof.
  intros file (l & colors & E & Hw & Hf & Hc). destruct (plain_body_read file l colors E Hw Hf Hc) as (b & -> & P). exists (closed b), colors. split; [exact E|].
  intros set threads R. split.
  - pose proof R as (R1 & _ & Nc). destruct (walking_total qcos qsin qorient Hturn 123 set _ threads ltac:(lia) R1 Nc (proj1 (plain_walking b P))) as (out & refs & Et).
    assert (X : exists ths, Forall2 resolves refs ths).
    { exists (map (fun r => match r with Own u => u | Filler => mkT 0 None None None None None None end) refs). clear. induction refs as [|r refs IH]; cbn [map]; constructor; [destruct r; cbn; auto|exact IH]. }
    destruct X as [ths Hr]. destruct (saved_what set b threads out refs ths R P Et Hr) as (L & _ & W). pose proof (x_changes _ P) as Hx. pose proof (resolved_length _ _ Hr) as Lt.
    destruct (file_ok (map t_color ths) _ (trims_plain b P)) as (f & E1 & _); [unfold zlen; rewrite map_length; lia|]. exists f, out, refs, ths. rewrite W. auto.
  - intros file' Sv. destruct (one_save b threads set file' P R Sv) as (ths & A1 & A2 & A3 & A4 & _). pose proof (trims_plain b P) as Pt. split.
    + exists (closed (without_cut_trims true b)), (map low24 (map t_color ths)). split; [exact A3|]. split; [exact (closed_within _ (x_steps _ Pt))|].
      rewrite closed_changes. split; [|exact (x_changes _ Pt)]. rewrite closed_last. generalize (x_sews _ Pt). generalize [last_of (without_cut_trims true b)]. clear.
      intros e. generalize (without_cut_trims true b). intros l. induction l as [|a l IH]; intros S; [contradiction|]. cbn [app sews_first] in *. destruct S as [S|[S1 S2]]; [left; exact S|right; auto].
    + exists (map low24 (map t_color ths)). rewrite trims_closed by exact (x_steps _ P). split; [exact A3|]. rewrite closed_changes, !map_length. split; [exact A1|].
      intros k t Hk Ht. rewrite map_map, nth_error_map, (A4 k t Hk Ht). reflexivity.
Qed.

(** A thread with a colour read from the file (XxxReader.py 45-50). *)
Definition xxx_thread (c : Z) : thread := mkT c None None None None None None.
Theorem C209_xxx_settles : forall file0 l0 colors0 set threads file1 l1 colors1 set1 file2,
  plain_xxx file0 -> xxx_read_file file0 = Ok (l0, colors0) -> xxx_resaving set -> saved_xxx set l0 threads file1 ->
  xxx_read_file file1 = Ok (l1, colors1) -> xxx_resaving set1 -> saved_xxx set1 l1 (map xxx_thread colors1) file2 -> file2 = file1.
Proof.
  intros file0 l0 colors0 set threads file1 l1 colors1 set1 file2 (l & colors & E & Hw & Hf & Hc) E0 R S1 E1 R1 S2.
  rewrite E in E0. injection E0 as <- <-. destruct (plain_body_read file0 l colors E Hw Hf Hc) as (b & -> & P).
  destruct (one_save b threads set file1 P R S1) as (ths & A1 & A2 & A3 & _). rewrite A3 in E1. injection E1 as <- <-. pose proof (trims_plain b P) as Pt.
  destruct (one_save _ _ set1 file2 Pt R1 S2) as (ths2 & B1 & B2 & _ & _ & B5). rewrite trims_twice in B2.
  rewrite B5 in B2 by (rewrite !map_length, trims_changes; exact A1). rewrite map_map in B2. cbn [xxx_thread t_color] in B2. rewrite map_id in B2.
  unfold xxx_file in *. rewrite write_low, A2 in B2. congruence.
Qed.
End Resave.

(** ** The settings of the format *)
Section Defaults.
Variables (qcos qsin : Q -> Q) (qorient : Q -> Q -> Q -> Q -> Q -> Q * Q).
Notation N := (QNum qcos qsin qorient).
Definition xxx_settings : settings N := for_format qcos qsin qorient (xxx_attributes N inject_Z) [].
Theorem C209_xxx_defaults : xxx_resaving qcos qsin qorient xxx_settings.
Proof.
  split; [|split; discriminate]. constructor; try reflexivity; try (left; reflexivity); try (vm_compute; discriminate).
  split; [reflexivity|]. split; reflexivity.
Qed.
End Defaults.

(** ** Files *)
Definition own_or (r : tref) : thread := match r with Own u => u | Filler => xxx_thread 0 end.
Definition resave (file : list Z) : res (list Z) :=
  do '(l, colors) <- xxx_read_file file;
  do '(out, refs) <- transcode ExNum (xxx_settings ex_cos ex_sin ex_orient) (loaded ex_cos ex_sin ex_orient (map of_int l) (map xxx_thread colors));
  xxx_write (map t_color (map own_or refs)) out.
Definition xxx_shown (file : list Z) : list (Z * Z * Z) * list Z :=
  match xxx_read_file file with Ok (l, colors) => (map (fun a => (sx a, sy a, scmd a)) l, colors) | Err _ => ([], []) end.
(** A header with a number of colours, then records, then colours. *)
Definition xxx_bytes (records colors : list Z) : list Z :=
  repeat 0 0x27 ++ write_int_16le (zlen colors) ++ repeat 0 (0x100 - 0x29) ++ records ++ [0x7F; 0x7F; 2; 20; 0; 0] ++
  flat_map (fun c => [0; sh8 c 16; sh8 c 8; sh8 c 0]) colors.
(** A trim before anything is sewn, one that moves, one after it, a long jump, a code without meaning, a colour change, and one
    thread too few. *)
Definition c209_file : list Z :=
  xxx_bytes [0x7F; 3; 0; 0; 123; 0; 5; 250; 0x7F; 3; 7; 9; 0x7F; 3; 0; 0; 10; 10; 0x7D; 100; 0; 156; 255; 0x7F; 0x55; 1; 1; 0x7F; 0x0B; 0; 0; 0x7F; 1; 3; 3; 4; 4] [0x123456].
Example C209_case : plain_xxx c209_file /\
  (exists file1, resave c209_file = Ok file1 /\ file1 <> c209_file /\ resave file1 = Ok file1 /\ plain_xxx file1 /\
   xxx_shown file1 = ([(123, 0, STITCH); (128, 6, STITCH); (128, 6, TRIM); (135, -3, JUMP); (145, -13, STITCH); (245, 87, JUMP); (245, 87, COLOR_CHANGE);
     (248, 84, JUMP); (252, 80, STITCH); (252, 80, END)], [0x123456; 0])).
Proof.
  split.
  - eexists _, _. split; [vm_compute; reflexivity|]. split; [cbn; unfold step_within; lia|]. split; [right; split; [discriminate|left; reflexivity]|reflexivity].
  - eexists. split; [vm_compute; reflexivity|]. split; [discriminate|]. split; [vm_compute; reflexivity|]. split; [|vm_compute; reflexivity].
    eexists _, _. split; [vm_compute; reflexivity|]. split; [cbn; unfold step_within; lia|]. split; [left; reflexivity|reflexivity].
Qed.

(** The bound on the steps is needed: the format has stitches of 124 units and its own settings allow them, but saved
    again they are jumps. *)
Theorem C209_long_stitch_lost : exists file file', resave file = Ok file' /\
  xxx_shown file = ([(10, 0, STITCH); (134, 0, STITCH); (134, 0, END)], [255]) /\
  xxx_shown file' = ([(10, 0, STITCH); (134, 0, JUMP); (134, 0, END)], [255]).
Proof. exists (xxx_bytes [10; 0; 124; 0] [255]). eexists. split; [vm_compute; reflexivity|]. split; vm_compute; reflexivity. Qed.

Print Assumptions C209_xxx_saved_again.
Print Assumptions C209_xxx_settles.
Print Assumptions C209_xxx_defaults.
Print Assumptions C209_long_stitch_lost.
