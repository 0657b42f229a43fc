(** Properties C180 and C181: saving a loaded DST file again. *)
From Coq Require Import Ascii String ZArith QArith Qabs List Bool Lia Lqa.
From Verif Require Import PyBase EmbConst StreamModel StreamSpec StreamProofs FunctionsModel ThreadModel Utf8Proofs TextModel NumModel NumQ
  MatrixModel EncoderModel EncoderProofs EncoderSpec MetricSpec EncoderMetricProofs QuantModel QuantProofs PatternModel
  DstModel DstSpec DstFileModel DstFileSpec PropertiesDstFile PropertiesEncoder SettingsModel PropertiesSettings
  PropertiesPipeline PropertiesFidelity ConvertSpec PropertiesConvert ResaveSpec EncoderSettleProofs EncoderAgainProofs PropertiesResave
  DstAgainSpec DstAgainProofs.
Import ListNotations.
Open Scope Z_scope.

(** ** What is loaded *)
Lemma getbit_range : forall b k, 0 <= getbit b k <= 1.
Proof. intros b k. unfold getbit. change 1 with (Z.ones 1). rewrite Z.land_ones by lia. change (2 ^ 1) with 2. pose proof (Z.mod_pos_bound (Z.shiftr b k) 2 eq_refl). change (Z.ones 1) with 1. lia. Qed.
Lemma decode_range : forall b0 b1 b2, -121 <= decode_dx b0 b1 b2 <= 121 /\ -121 <= decode_dy b0 b1 b2 <= 121.
Proof.
  intros b0 b1 b2. unfold decode_dx, decode_dy.
  repeat match goal with |- context[getbit ?b ?k] => let v := fresh "v" in pose proof (getbit_range b k); set (v := getbit b k) in *; clearbody v end. lia.
Qed.
Lemma sequin_kind : forall b2, Z.land b2 0xF3 <> 0xF3 -> Z.land b2 0xC3 <> 0x43 ->
  exists c, dst_kind false b2 = Some c /\ In c [STITCH; JUMP; COLOR_CHANGE].
Proof.
  intros b2 H1 H2. unfold dst_kind. apply Z.eqb_neq in H1. change 243 with 0xF3. rewrite H1.
  destruct (Z.eqb_spec (Z.land b2 195) 195) as [E|E]; [exists COLOR_CHANGE; cbn; auto|].
  destruct (Z.eqb_spec (Z.land b2 67) 67) as [E'|E'].
  { exfalso. assert (X : Z.land b2 195 = 67 \/ Z.land b2 195 = 195).
    { change 195 with (Z.lor 67 128). rewrite Z.land_lor_distr_r, E'. 
      assert (Y : Z.land b2 128 = 0 \/ Z.land b2 128 = 128).
      { destruct (Z.testbit b2 7) eqn:T; [right|left]; apply Z.bits_inj'; intros n Hn; rewrite Z.land_spec; change 128 with (2 ^ 7);
          destruct (Z.eq_dec n 7) as [-> | Hne]; rewrite ?T, ?Z.pow2_bits_true, ?Z.pow2_bits_false, ?Z.bits_0, ?andb_false_r by lia; reflexivity. }
      destruct Y as [-> | ->]; [left|right]; reflexivity. }
    destruct X as [X|X]; [apply H2|apply E]; exact X. }
  destruct (Z.land b2 131 =? 131); eexists; (split; [reflexivity|]); cbn; auto.
Qed.
Lemma raw_short : forall s, sequin_free s -> forall x y, exists body e,
  apply_rel x y (dst_read_loop false s ++ [mkS 0 0 END]) = body ++ [e] /\ scmd e = END /\
  Forall (fun a => In (scmd a) [STITCH; JUMP; COLOR_CHANGE]) body /\ short x y body /\ needle_after x y body = (sx e, sy e).
Proof.
  assert (G : forall n s, (List.length s <= n)%nat -> sequin_free s -> forall x y, exists body e,
    apply_rel x y (dst_read_loop false s ++ [mkS 0 0 END]) = body ++ [e] /\ scmd e = END /\
    Forall (fun a => In (scmd a) [STITCH; JUMP; COLOR_CHANGE]) body /\ short x y body /\ needle_after x y body = (sx e, sy e)).
  { assert (Z0 : forall x y, exists body e, apply_rel x y [mkS 0 0 END] = body ++ [e] /\ scmd e = END /\
      Forall (fun a => In (scmd a) [STITCH; JUMP; COLOR_CHANGE]) body /\ short x y body /\ needle_after x y body = (sx e, sy e)).
    { intros x y. exists [], (mkS (x + 0) (y + 0) END). split; [reflexivity|]. split; [reflexivity|]. split; [constructor|]. split; [exact I|].
      cbn [needle_after sx sy]. rewrite !Z.add_0_r. reflexivity. }
    induction n as [|n IH]; intros s L H x y.
    - destruct s; [apply Z0|cbn in L; lia].
    - destruct s as [|b0 [|b1 [|b2 r]]]; try apply Z0. cbn [List.length] in L. cbn [sequin_free] in H. cbn [dst_read_loop].
      destruct (Z.eq_dec (Z.land b2 0xF3) 0xF3) as [E|E].
      { unfold dst_kind. rewrite E. apply Z0. }
      destruct H as [H|[H1 H2]]; [contradiction|]. destruct (sequin_kind b2 E H1) as (c & -> & Hc).
      replace (c =? SEQUIN_MODE) with false by (cbn [In] in Hc; destruct Hc as [<-|[<-|[<-|[]]]]; reflexivity). cbv iota zeta.
      cbn [app apply_rel sx sy scmd].
      destruct (IH r ltac:(lia) H2 (x + decode_dx b0 b1 b2) (y + decode_dy b0 b1 b2)) as (body & e & -> & He & Hb & Hs & Hne).
      eexists (_ :: body), e. split; [reflexivity|]. split; [exact He|]. split; [constructor; [exact Hc|exact Hb]|].
      cbn [short needle_after sx sy]. pose proof (decode_range b0 b1 b2). split; [|exact Hne]. split; [unfold step_within; lia|exact Hs]. }
  intros s H x y. exact (G _ s (Nat.le_refl _) H x y).
Qed.
Lemma loaded_tidy : forall trim_at fuel file l h, 1 <= trim_at -> sequin_free (skipn 512 file) ->
  dst_read trim_at None true fuel file = Ok (l, h) ->
  exists body e, l = map of_int (body ++ [e]) /\ scmd e = END /\ short 0 0 (body ++ [e]) /\ DstFileSpec.tidy trim_at true None 0 0 body /\
    Forall (fun a => In (scmd a) [STITCH; JUMP; TRIM; COLOR_CHANGE]) body /\ needle_after 0 0 body = (sx e, sy e).
Proof.
  intros t fuel file l h Ht Hs E. unfold dst_read in E. destruct (dst_read_header file) as [o|]; [|discriminate]. cbn [bindr] in E.
  destruct (interpolate_trims _ _ _ _ _) as [l'|] eqn:Ei; [|discriminate]. cbn [bindr] in E. injection E as <- <-.
  unfold dst_read_raw in Ei. destruct (raw_short _ Hs 0 0) as (body & e & Er & He & Hb & Hsh & Hne). rewrite Er in Ei.
  destruct (interpolated_tidy t Ht body e fuel l' He Hb Hsh Hne Ei) as (body' & -> & H1 & H2 & H3 & H4). exists body', e. auto 8.
Qed.

(** ** It can be written *)
Lemma written_int : forall l, written (map of_int l) = l.
Proof.
  intros l. unfold written. generalize 0 at 1 3. generalize 0. induction l as [|a l IH]; intros y x; [reflexivity|].
  cbn [map quantise apply_rel of_int sx sy scmd]. rewrite !qz_q_int. unfold qz_int.
  replace (x + (sx a - x)) with (sx a) by lia. replace (y + (sy a - y)) with (sy a) by lia. rewrite IH. destruct a; reflexivity.
Qed.
Lemma tidy_next : forall t tr run px py a l, DstFileSpec.tidy t tr run px py (a :: l) -> In (scmd a) [STITCH; JUMP; TRIM; COLOR_CHANGE; END] ->
  scmd a <> END /\ (exists run', DstFileSpec.tidy t (cut_by tr (scmd a)) run' (sx a) (sy a) l) /\ (scmd a = TRIM -> tr = false /\ sx a = px /\ sy a = py).
Proof.
  intros t tr run px py a l H Ha. cbn [In] in Ha. cbn [DstFileSpec.tidy] in H. cbv zeta in H.
  destruct Ha as [Ha|[Ha|[Ha|[Ha|[Ha|[]]]]]]; rewrite <- Ha in *.
  - change ((cmd_of STITCH =? STITCH) || (cmd_of STITCH =? SEQUIN_EJECT)) with true in H. cbv iota in H.
    split; [discriminate|]. split; [eexists; exact H|discriminate].
  - change ((cmd_of JUMP =? STITCH) || (cmd_of JUMP =? SEQUIN_EJECT)) with false in H.
    change ((cmd_of JUMP =? COLOR_CHANGE) || (cmd_of JUMP =? STOP)) with false in H. change (cmd_of JUMP =? TRIM) with false in H.
    change (cmd_of JUMP =? JUMP) with true in H. cbv iota in H. split; [discriminate|]. split; [|discriminate].
    destruct (match run with Some v => v | None => (0, px, py) end) as [[k x0] y0]. destruct H as (_ & _ & H). eexists; exact H.
  - change ((cmd_of TRIM =? STITCH) || (cmd_of TRIM =? SEQUIN_EJECT)) with false in H.
    change ((cmd_of TRIM =? COLOR_CHANGE) || (cmd_of TRIM =? STOP)) with false in H. change (cmd_of TRIM =? TRIM) with true in H. cbv iota in H.
    destruct H as (H1 & _ & H2 & H3 & H). split; [discriminate|]. split; [eexists; exact H|auto].
  - change ((cmd_of COLOR_CHANGE =? STITCH) || (cmd_of COLOR_CHANGE =? SEQUIN_EJECT)) with false in H.
    change ((cmd_of COLOR_CHANGE =? COLOR_CHANGE) || (cmd_of COLOR_CHANGE =? STOP)) with true in H. cbv iota in H.
    split; [discriminate|]. split; [eexists; exact H|discriminate].
  - change ((cmd_of END =? STITCH) || (cmd_of END =? SEQUIN_EJECT)) with false in H.
    change ((cmd_of END =? COLOR_CHANGE) || (cmd_of END =? STOP)) with false in H. change (cmd_of END =? TRIM) with false in H.
    change (cmd_of END =? JUMP) with false in H. cbv iota in H. destruct H as [H _]. discriminate H.
Qed.

(** A loaded list: short steps, tidy, END last. *)
Record loaded_list (t : Z) (tr : bool) (run : option (Z * Z * Z)) (px py : Z) (body : list (stitch Z)) (e : stitch Z) : Prop := mkLoaded {
  l_end : scmd e = END;
  l_short : short px py (body ++ [e]);
  l_tidy : DstFileSpec.tidy t tr run px py body;
  l_plain : Forall (fun a => In (scmd a) [STITCH; JUMP; TRIM; COLOR_CHANGE]) body;
  l_last : needle_after px py body = (sx e, sy e) }.
Lemma loaded_next : forall t tr run px py a body e, loaded_list t tr run px py (a :: body) e ->
  step_within 121 px py (sx a) (sy a) /\ In (scmd a) [STITCH; JUMP; TRIM; COLOR_CHANGE] /\ (scmd a = TRIM -> tr = false /\ sx a = px /\ sy a = py) /\
  exists run', loaded_list t (cut_by tr (scmd a)) run' (sx a) (sy a) body e.
Proof.
  intros t tr run px py a body e [H1 H2 H3 H4 H5]. apply Forall_cons_iff in H4. destruct H4 as [Ha H4].
  destruct (tidy_next _ _ _ _ _ _ _ H3) as (_ & [run' N1] & N2); [cbn [In] in *; tauto|]. cbn [app short needle_after] in *. destruct H2 as [S1 S2].
  split; [exact S1|]. split; [exact Ha|]. split; [exact N2|]. exists run'. constructor; assumption.
Qed.
Lemma loaded_represented : forall t body e tr run px py (x y : Q), loaded_list t tr run px py body e -> DstAgainSpec.still x y (map of_int (body ++ [e])) ->
  (x == inject_Z px)%Q -> (y == inject_Z py)%Q ->
  dst_representable true false px py (body ++ [e]) /\ representable 121 [STITCH; JUMP] [TRIM; COLOR_CHANGE; STOP; END] px py (body ++ [e]) /\
  without_cut_trims tr (body ++ [e]) = body ++ [e].
Proof.
  induction body as [|a body IH]; intros e tr run px py x y H Hst Ex Ey.
  - destruct H as [H1 _ _ _ H5]. cbn [needle_after] in H5. injection H5 as -> ->.
    cbn [app dst_representable representable without_cut_trims]. rewrite H1. split; [|split].
    + split; [|exact I]. right; right; right. cbn. auto 8.
    + split; [|exact I]. right. cbn. auto 8.
    + replace (tr && (cmd_of END =? TRIM)) with false by (destruct tr; reflexivity). reflexivity.
  - destruct (loaded_next _ _ _ _ _ _ _ _ H) as (S1 & Ha & Ht & run' & H').
    cbn [app map DstAgainSpec.still of_int sx sy scmd] in Hst. destruct Hst as [T1 T2].
    destruct (IH e _ _ _ _ _ _ H' T2) as (I1 & I2 & I3); [reflexivity|reflexivity|].
    assert (Z1 : cmd_of (scmd a) = COLOR_CHANGE -> sx a = px /\ sy a = py).
    { intros C. destruct (T1 C) as [X Y]. rewrite Ex in X. rewrite Ey in Y. apply (proj1 (inject_Z_injective _ _)) in X, Y. auto. }
    cbn [app dst_representable representable without_cut_trims]. rewrite I3. cbv zeta.
    cbn [In] in Ha. destruct Ha as [Ha|[Ha|[Ha|[Ha|[]]]]]; rewrite <- Ha in *.
    + split; [split; [left; auto|exact I1]|]. split; [split; [left; cbn; auto|exact I2]|]. replace (tr && _) with false by (destruct tr; reflexivity). reflexivity.
    + split; [split; [right; left; auto|exact I1]|]. split; [split; [left; cbn; auto|exact I2]|]. replace (tr && _) with false by (destruct tr; reflexivity). reflexivity.
    + destruct (Ht eq_refl) as (-> & X & Y). rewrite <- X, <- Y in *.
      split; [split; [right; right; right; cbn; auto 10|exact I1]|]. split; [split; [right; cbn; auto 8|exact I2]|]. reflexivity.
    + destruct (Z1 eq_refl) as (X & Y). rewrite <- X, <- Y in *.
      split; [split; [right; right; right; cbn; auto 10|exact I1]|]. split; [split; [right; cbn; auto 8|exact I2]|]. replace (tr && _) with false by (destruct tr; reflexivity). reflexivity.
Qed.
(** Positions stay within 121 units for each command. *)
Lemma short_bound : forall l px py B, short px py l -> Z.abs px <= B -> Z.abs py <= B ->
  Forall (fun a => Z.abs (sx a) <= B + 121 * zlen l /\ Z.abs (sy a) <= B + 121 * zlen l) l.
Proof.
  induction l as [|a l IH]; intros px py B H Hx Hy; [constructor|]. cbn [short] in H. destruct H as [[H1 H2] H].
  assert (L : zlen (a :: l) = 1 + zlen l) by (unfold zlen; cbn [List.length]; lia). assert (0 <= zlen l) by (unfold zlen; lia). rewrite L. clear L.
  constructor; [lia|]. specialize (IH (sx a) (sy a) (B + 121) H ltac:(lia) ltac:(lia)).
  eapply Forall_impl; [|exact IH]. cbv beta. intros b Hb. lia.
Qed.
Lemma before_end_body : forall (body : list (stitch Z)) e, Forall (fun a => In (scmd a) [STITCH; JUMP; TRIM; COLOR_CHANGE]) body -> scmd e = END ->
  before_end (body ++ [e]) = body /\ relabel dst_name body = body.
Proof.
  induction body as [|a body IH]; intros e H He.
  - cbn [app before_end]. rewrite He. split; reflexivity.
  - apply Forall_cons_iff in H. destruct H as [Ha H]. destruct (IH e H He) as [I1 I2]. cbn [app before_end relabel map].
    fold (relabel dst_name body). rewrite I1, I2. destruct a as [x y c]. cbn [sx sy scmd] in *.
    cbn [In] in Ha. destruct Ha as [<-|[<-|[<-|[<-|[]]]]]; split; reflexivity.
Qed.
Lemma loaded_pattern : forall t body e, loaded_list t true None 0 0 body e -> DstAgainSpec.still 0 0 (map of_int (body ++ [e])) -> zlen (body ++ [e]) < 10 ^ 7 ->
  dst_pattern t (map of_int (body ++ [e])) /\ dst_kept (map of_int (body ++ [e])) = map of_int (body ++ [e]) /\
  walking 121 (body ++ [e]) /\ without_cut_trims true (body ++ [e]) = body ++ [e].
Proof.
  intros t body e H Hs Hl. destruct (loaded_represented t body e true None 0 0 0%Q 0%Q H Hs) as (R1 & R2 & R3); [reflexivity|reflexivity|].
  destruct H as [H1 H2 H3 H4 H5]. destruct (before_end_body body e H4 H1) as [B1 B2].
  unfold dst_pattern, dst_kept. rewrite written_int, B1, B2.
  split; [split; [exact R1|]; split; [exact H3|split]|split; [|split; [|exact R3]]].
  - unfold zlen in *. rewrite map_length. lia.
  - apply Forall_map. eapply Forall_impl; [|exact (short_bound _ 0 0 0 H2 ltac:(lia) ltac:(lia))]. cbv beta. intros a [Hx Hy].
    assert (A : forall z, Z.abs z <= 0 + 121 * zlen (body ++ [e]) -> (Qabs (inject_Z z) < inject_Z (10 ^ 10))%Q).
    { intros z Hz. change (Qabs (inject_Z z)) with (inject_Z (Z.abs z)). rewrite <- Zlt_Qlt. lia. }
    split; apply A; assumption.
  - unfold closed. rewrite H5. destruct e as [ex ey ec]. cbn [sx sy scmd] in *. subst ec. reflexivity.
  - split; [|exact R2]. exists body, e. split; [reflexivity|]. split; [exact H1|]. eapply Forall_impl; [|exact H4]. cbv beta. cbn [In]. tauto.
Qed.

(** The writer looks at the kinds of commands only. *)
Definition kind (a : stitch Q) : stitch Q := mkS (sx a) (sy a) (cmd_of (scmd a)).
Lemma cmd_twice : forall c, cmd_of (cmd_of c) = cmd_of c.
Proof. intros c. unfold cmd_of. rewrite <- Z.land_assoc. reflexivity. Qed.
Lemma bounds_kind : forall l b, fold_left bounds_step (map kind l) b = fold_left bounds_step l b.
Proof. induction l as [|a l IH]; intros b; [reflexivity|]. cbn [map fold_left]. apply IH. Qed.
Lemma body_kind : forall t l xx yy, emit_all (dst_emit t) (quantise qz_q xx yy (map kind l)) = emit_all (dst_emit t) (quantise qz_q xx yy l).
Proof.
  intros t. induction l as [|a l IH]; intros xx yy; [reflexivity|]. cbn [map quantise emit_all kind sx sy scmd]. rewrite IH.
  unfold dst_emit at 1 3. cbn [sx sy scmd]. rewrite cmd_twice. reflexivity.
Qed.
Lemma write_kind : forall extended t info l, dst_write extended t info (map kind l) = dst_write extended t info l.
Proof.
  intros extended t info l. unfold dst_write, header_text, bounds, dst_body. rewrite bounds_kind, body_kind, <- map_rev.
  assert (L : match map kind (rev l) with s :: _ => (q_cut (sx s), - q_cut (sy s)) | [] => (0, 0) end =
              match rev l with s :: _ => (q_cut (sx s), - q_cut (sy s)) | [] => (0, 0) end) by (destruct (rev l); reflexivity).
  rewrite L. unfold zlen at 1 2. rewrite map_length.
  assert (C : count_color_changes (map kind l) = count_color_changes l).
  { unfold count_color_changes, zlen. f_equal. induction l as [|a l IH]; [reflexivity|]. cbn [map filter kind scmd]. rewrite cmd_twice.
    destruct (_ =? _); cbn [List.length]; [f_equal|]; apply IH; destruct (rev l); reflexivity. }
  rewrite C. reflexivity.
Qed.
Lemma same_kind : forall out l, same_commands out l -> Forall (fun a => In (scmd a) [STITCH; JUMP; TRIM; COLOR_CHANGE; END]) l -> map kind out = map of_int l.
Proof.
  intros out l H. induction H as [|a b out l (H1 & H2 & H3) _ IH]; intros P; [reflexivity|]. apply Forall_cons_iff in P. destruct P as [Pb P].
  cbn [map]. rewrite (IH P). unfold kind, of_int. rewrite H1, H2, H3. do 2 f_equal.
  cbn [In] in Pb. destruct Pb as [<-|[<-|[<-|[<-|[<-|[]]]]]]; reflexivity.
Qed.

Section Resave.
Variables (qcos qsin : Q -> Q) (qorient : Q -> Q -> Q -> Q -> Q -> Q * Q).
Notation N := (QNum qcos qsin qorient).
Hypothesis Hturn : forall t, ~ (qcos t * qcos t + qsin t * qsin t == 0)%Q.
Notation resaving := (resaving qcos qsin qorient).
Notation loaded := (loaded qcos qsin qorient).

Lemma walking_total : forall m (set : settings N) l threads, 0 < m -> resaving m set -> s_needle_count N set <> Some 0 -> walking m l ->
  exists out ths, transcode N set (loaded (map of_int l) threads) = Ok (out, ths).
Proof.
  intros m set l threads Hm R Hn S.
  assert (G : forall o : option (limit N), allows qcos qsin qorient m (get o (Inf N)) -> length_positive qcos qsin qorient o).
  { intros [[v|]|] H; cbn [get allows length_positive] in *; [|exact I|exact I]. rewrite Zlt_Qlt in Hm. change (inject_Z 0) with 0%Q in Hm. change (F N) with Q in *. lra. }
  apply (C115_encode_total qcos qsin qorient Hturn set (loaded (map of_int l) threads)).
  - apply G, (r_ms _ _ _ _ _ R).
  - apply G, (r_mj _ _ _ _ _ R).
  - destruct (r_plain _ _ _ _ _ R) as (_ & -> & _). exact I.
  - exact Hn.
  - cbn [p_stitches PropertiesConvert.loaded]. destruct S as ((body & e & -> & He & Hb) & _). rewrite Forall_forall. intros a Ia.
    assert (X : has_command [OPTION_MAX_JUMP_LENGTH; OPTION_MAX_STITCH_LENGTH] a = false /\ has_command [MATRIX_SCALE; MATRIX_SCALE_ORIGIN] a = false).
    { apply until_end_in in Ia. apply in_map_iff in Ia. destruct Ia as (b & <- & Ib). apply in_app_iff in Ib.
      assert (Y : In (scmd b) [STITCH; JUMP; TRIM; COLOR_CHANGE; STOP; END]).
      { destruct Ib as [Ib|[<-|[]]]; [|rewrite He; cbn; tauto]. rewrite Forall_forall in Hb. specialize (Hb b Ib). cbn [In] in *. tauto. }
      unfold has_command, is_cmd. cbn [of_int scmd existsb]. cbn [In] in Y.
      destruct Y as [Y|[Y|[Y|[Y|[Y|[Y|[]]]]]]]; rewrite <- Y; split; reflexivity. }
    destruct X as [X1 X2]. split; intros K; congruence.
Qed.

(** [file] is what saving the stitches [l] with the settings [set] writes. *)
Definition saved_dst (set : settings N) (extended : bool) (trim_at : Z) (info : dst_info) (l : list (stitch Q)) (threads : list thread) (file : list Z) : Prop :=
  exists out ths, transcode N set (loaded l threads) = Ok (out, ths) /\ dst_write extended trim_at info out = Ok file.
(** Settings that ask for nothing but DST's steps. *)
Definition dst_resaving (set : settings N) : Prop :=
  resaving 121 set /\ s_full_jump N set <> Some true /\ s_needle_count N set <> Some 0.

Lemma sewn_first_map : forall l, sewn_first (map of_int l) -> sewn_first l.
Proof. induction l as [|a l IH]; intros H; [exact I|]. cbn [map sewn_first of_int scmd] in *. destruct H as [H|[H1 H2]]; [left; exact H|right; auto]. Qed.

Lemma resaved : forall trim_at fuel file l h, 2 <= trim_at -> sequin_free (skipn 512 file) ->
  dst_read trim_at None true fuel file = Ok (l, h) -> DstAgainSpec.still 0 0 l -> sewn_first l -> zlen l < 10 ^ 7 ->
  (exists body e, l = body ++ [e] /\ dst_pattern trim_at (body ++ [e]) /\ dst_kept (body ++ [e]) = body ++ [e]) /\
  forall set extended info threads, dst_resaving set ->
  exists out ths, transcode N set (loaded l threads) = Ok (out, ths) /\ dst_write extended trim_at info out = dst_write extended trim_at info l.
Proof.
  intros t fuel file l h Ht Hsq E Hst Hf Hl.
  destruct (loaded_tidy t fuel file l h ltac:(lia) Hsq E) as (body & e & -> & He & H1 & H2 & H3 & H4).
  assert (L : loaded_list t true None 0 0 body e) by (constructor; assumption).
  assert (Hz : zlen (body ++ [e]) < 10 ^ 7) by (unfold zlen in *; rewrite map_length in Hl; exact Hl).
  destruct (loaded_pattern t body e L Hst Hz) as (P1 & P2 & P3 & P4). split.
  - rewrite map_app in *. exists (map of_int body), (of_int e). auto.
  - intros set extended info threads (R & J & Nc).
    destruct (walking_total 121 set _ threads ltac:(lia) R Nc P3) as (out & ths & Et). exists out, ths. split; [exact Et|].
    assert (K : same_commands out (body ++ [e])).
    { rewrite <- P4. refine (encoded_walking qcos qsin qorient 121 set _ threads out ths R P3 _ (sewn_first_map _ Hf) Et). intros X. contradiction. }
    rewrite <- write_kind, (same_kind out _ K); [reflexivity|]. apply Forall_app. split; [eapply Forall_impl; [|exact H3]; cbv beta; cbn [In]; tauto|].
    constructor; [rewrite He; cbn; auto 8|constructor].
Qed.

(** ** C180 *)
(** Any DST file without sequin records and with colour changes where the needle stands, something
    being sewn before the first of them: saving what was loaded gives a file from which the same
    commands are loaded, at the same places. *)
Theorem C180_dst_loaded_again : forall trim_at fuel file l h, 2 <= trim_at -> sequin_free (skipn 512 file) ->
  dst_read trim_at None true fuel file = Ok (l, h) -> still 0 0 l -> sewn_first l -> zlen l < 10 ^ 7 ->
  forall set extended info threads, dst_resaving set -> info_ok extended info -> header_room extended info ->
  exists file', saved_dst set extended trim_at info l threads file' /\
    forall fuel', (List.length file' <= fuel')%nat -> exists h', dst_read trim_at None true fuel' file' = Ok (l, h').
Proof.
  intros t fuel file l h Ht Hsq E Hst Hf Hl set extended info threads R Hi Hr.
  destruct (resaved t fuel file l h Ht Hsq E Hst Hf Hl) as [(body & e & -> & P1 & P2) K].
  destruct (whole_dst_file extended t info body e Ht Hi Hr P1) as (file' & a & b & c & d & x & y & W & _ & Rd).
  destruct (K set extended info threads R) as (out & ths & Et & Ew). exists file'. split; [exists out, ths; split; [exact Et|rewrite Ew; exact W]|].
  intros fuel' Hf'. eexists. rewrite (Rd fuel' Hf'), P2. reflexivity.
Qed.

(** ** C181 *)
(** Loading that file and saving it once more, with the same title, whatever the settings and
    threads: the same file, byte for byte. *)
Theorem C181_dst_same_file : forall trim_at fuel file l h, 2 <= trim_at -> sequin_free (skipn 512 file) ->
  dst_read trim_at None true fuel file = Ok (l, h) -> still 0 0 l -> sewn_first l -> zlen l < 10 ^ 7 ->
  forall set set' extended info threads threads' file', dst_resaving set -> dst_resaving set' -> info_ok extended info -> header_room extended info ->
  saved_dst set extended trim_at info l threads file' ->
  forall fuel' l' h', (List.length file' <= fuel')%nat -> dst_read trim_at None true fuel' file' = Ok (l', h') ->
  forall file'', saved_dst set' extended trim_at info l' threads' file'' <-> file'' = file'.
Proof.
  intros t fuel file l h Ht Hsq E Hst Hf Hl set set' extended info threads threads' file' R R' Hi Hr (out & ths & Et & Ew) fuel' l' h' Hf' E' file''.
  destruct (C180_dst_loaded_again t fuel file l h Ht Hsq E Hst Hf Hl set extended info threads R Hi Hr) as (f1 & (out1 & ths1 & Et1 & Ew1) & Rd).
  rewrite Et in Et1. injection Et1 as <- <-. rewrite Ew in Ew1. injection Ew1 as <-.
  destruct (Rd fuel' Hf') as (h1 & E1). rewrite E' in E1. injection E1 as -> ->.
  destruct (resaved t fuel file l h Ht Hsq E Hst Hf Hl) as [_ K].
  destruct (K set extended info threads R) as (o1 & s1 & A1 & B1). rewrite Et in A1. injection A1 as <- <-. rewrite Ew in B1.
  destruct (K set' extended info threads' R') as (o2 & s2 & A2 & B2). unfold saved_dst. split.
  - intros (o & s & A & B). rewrite A2 in A. injection A as <- <-. rewrite B2, <- B1 in B. injection B as <-. reflexivity.
  - intros ->. exists o2, s2. split; [exact A2|]. rewrite B2, <- B1. reflexivity.
Qed.
End Resave.

(** ** The settings of the format *)
Section Defaults.
Variables (qcos qsin : Q -> Q) (qorient : Q -> Q -> Q -> Q -> Q -> Q * Q).
Notation N := (QNum qcos qsin qorient).
Definition dst_settings : settings N := for_format qcos qsin qorient (dst_attributes N inject_Z) [].
Lemma dst_defaults : dst_resaving qcos qsin qorient dst_settings.
Proof.
  split; [|split; discriminate]. constructor; try reflexivity; try (left; reflexivity); try (apply Qle_refl).
  split; [reflexivity|]. split; reflexivity.
Qed.
End Defaults.

(** ** C182 *)
Definition no_info : dst_info := mkInfo None None None [].
Definition resave (file : list Z) : list Z :=
  match dst_read 3 None true (List.length file) file with
  | Ok (l, _) =>
      match transcode ExNum (dst_settings ex_cos ex_sin ex_orient) (loaded ex_cos ex_sin ex_orient l []) with
      | Ok (out, _) => match dst_write false 3 no_info out with Ok file' => file' | Err _ => [] end
      | Err _ => []
      end
  | Err _ => []
  end.
Definition commands (file : list Z) : list (Z * Z * Z) :=
  match dst_read 3 None true (List.length file) file with
  | Ok (l, _) => map (fun a => (Qnum (sx a), Qnum (sy a), scmd a)) l
  | Err _ => []
  end.
(** Records by their bytes. *)
Definition file_of (records : list (Z * Z * Z)) : list Z := repeat 32 512 ++ flat_map (fun '(a, b, c) => [a; b; c]) records.
(** A colour change at the start is lost; of several, one with every save. *)
Definition leading : list Z := file_of [(0, 0, 195); (0, 0, 195); (1, 0, 3); (1, 0, 3); (0, 0, 243)].
(** A colour change whose record also moves: it is put back to where the needle was. *)
Definition moving : list Z := file_of [(1, 0, 3); (1, 0, 3); (4, 0, 195); (1, 0, 3); (1, 0, 3); (0, 0, 243)].
(** Moving colour changes and jumps: the jumps go with the second save. *)
Definition drifting : list Z :=
  file_of [(1, 0, 3); (0, 0, 199); (0, 0, 139); (1, 0, 3); (0, 0, 243)].
Theorem C182_dst_resave_refuted : exists file1 file2 file3 : list Z,
  (sequin_free (skipn 512 file1) /\ commands (resave file1) <> commands file1 /\
   commands file1 = [(0, 0, COLOR_CHANGE); (0, 0, COLOR_CHANGE); (1, 0, STITCH); (2, 0, STITCH); (2, 0, END)] /\
   commands (resave file1) = [(0, 0, COLOR_CHANGE); (1, 0, STITCH); (2, 0, STITCH); (2, 0, END)] /\
   commands (resave (resave file1)) = [(1, 0, STITCH); (2, 0, STITCH); (2, 0, END)]) /\
  (sequin_free (skipn 512 file2) /\
   commands file2 = [(1, 0, STITCH); (2, 0, STITCH); (11, 0, COLOR_CHANGE); (12, 0, STITCH); (13, 0, STITCH); (13, 0, END)] /\
   commands (resave file2) = [(1, 0, STITCH); (2, 0, STITCH); (2, 0, COLOR_CHANGE); (12, 0, STITCH); (13, 0, STITCH); (13, 0, END)]) /\
  (sequin_free (skipn 512 file3) /\ resave (resave file3) <> resave file3).
Proof.
  exists leading, moving, drifting.
  assert (S : forall records, forallb (fun '(_, _, c) => negb (Z.land c 0xC3 =? 0x43)) records = true -> sequin_free (skipn 512 (file_of records))).
  { intros records H. unfold file_of. rewrite skipn_app, skipn_all2 by (rewrite repeat_length; lia). rewrite repeat_length, Nat.sub_diag. cbn [app skipn].
    induction records as [|[[a b] c] records IH]; [exact I|]. cbn [forallb flat_map app sequin_free] in *. apply andb_true_iff in H. destruct H as [H1 H2].
    right. split; [apply Z.eqb_neq, negb_true_iff; exact H1|apply IH; exact H2]. }
  split; [|split].
  - split; [apply S; reflexivity|]. split; [vm_compute; discriminate|]. split; [vm_compute; reflexivity|]. split; vm_compute; reflexivity.
  - split; [apply S; reflexivity|]. split; vm_compute; reflexivity.
  - split; [apply S; reflexivity|]. vm_compute. discriminate.
Qed.

(** A file with sewing, three jumps of a trim and further ones, jumps that lead back, a colour
    change: the conditions of C180 and C181 are met. *)
Definition c180_records : list (Z * Z * Z) :=
  [(1, 0, 3); (5, 1, 3); (0, 0, 135); (0, 0, 135); (0, 4, 131); (128, 0, 131); (4, 4, 7); (0, 0, 195); (1, 0, 3);
   (0, 4, 131); (0, 8, 131); (2, 0, 3); (4, 128, 131); (1, 64, 3); (0, 0, 243)].
Definition c180_file : list Z := file_of c180_records.
Definition c180_loaded : list (stitch Q) := match dst_read 3 None true 600 c180_file with Ok (l, _) => l | Err _ => [] end.
Fixpoint stillb (x y : Q) (l : list (stitch Q)) : bool :=
  match l with
  | [] => true
  | a :: r => (negb (cmd_of (scmd a) =? COLOR_CHANGE) || Qeq_bool (sx a) x && Qeq_bool (sy a) y) && stillb (sx a) (sy a) r
  end.
Lemma stillb_ok : forall l x y, stillb x y l = true -> still x y l.
Proof.
  induction l as [|a l IH]; intros x y H; [exact I|]. cbn [stillb DstAgainSpec.still] in *. apply andb_true_iff in H. destruct H as [H1 H2].
  split; [|apply IH; exact H2]. intros C. rewrite C in H1. apply andb_true_iff in H1. destruct H1 as [X Y]. split; apply Qeq_bool_iff; assumption.
Qed.
Example C180_case : exists h, dst_read 3 None true 600 c180_file = Ok (c180_loaded, h) /\ sequin_free (skipn 512 c180_file) /\
  still 0 0 c180_loaded /\ sewn_first c180_loaded /\ zlen c180_loaded < 10 ^ 7 /\ info_ok false no_info /\ header_room false no_info /\
  map (fun a => (Qnum (sx a), Qnum (sy a), scmd a)) c180_loaded =
    [(1, 0, STITCH); (14, 0, STITCH); (14, 0, TRIM); (95, 0, JUMP); (176, 0, JUMP); (203, 0, JUMP); (203, -1, JUMP); (320, -1, STITCH);
     (320, -1, COLOR_CHANGE); (321, -1, STITCH); (320, -1, STITCH); (329, -4, JUMP); (330, -1, STITCH); (330, -1, END)] /\
  commands (resave c180_file) = map (fun a => (Qnum (sx a), Qnum (sy a), scmd a)) c180_loaded /\
  resave (resave c180_file) = resave c180_file.
Proof.
  assert (E : exists h, dst_read 3 None true 600 c180_file = Ok (c180_loaded, h)) by (eexists; vm_compute; reflexivity).
  destruct E as [h E]. exists h. split; [exact E|]. split.
  { vm_compute. repeat (right; split; [discriminate|]). exact I. }
  split; [apply stillb_ok; vm_compute; reflexivity|].
  split; [apply sewn_firstb_spec; vm_compute; reflexivity|]. split; [vm_compute; reflexivity|].
  split; [split; [|discriminate]; split; [|split]|].
  - cbn. repeat (apply Forall_cons; [unfold scalar; lia|]). apply Forall_nil.
  - vm_compute. intuition discriminate.
  - vm_compute. intuition discriminate.
  - split; [vm_compute; discriminate|]. split; [vm_compute; reflexivity|]. split; vm_compute; reflexivity.
Qed.
Print Assumptions C180_dst_loaded_again.
Print Assumptions C181_dst_same_file.
Print Assumptions C182_dst_resave_refuted.
