(** Encoding a design whose jumps are made with cut thread makes no other jumps. *)
From Coq Require Import ZArith List Bool Lia QArith Qabs Qround Lqa.
From Verif Require Import PyBase EmbConst StreamModel StreamSpec FunctionsModel ThreadModel NumModel MatrixModel EncoderModel
  BitLemmas EncoderProofs NumQ MetricSpec EncoderMetricProofs QuantProofs ResaveSpec EncoderSettleProofs EncoderAgainProofs.
Import ListNotations.
Open Scope Z_scope.

Lemma jumps_snoc : forall C (l : list (stitch C)) a cut, jumps_cut cut l -> (cmd_of (scmd a) = JUMP -> cut_after cut l = true) ->
  jumps_cut cut (l ++ [a]).
Proof.
  induction l as [|b l IH]; intros a cut H Ha; cbn [app jumps_cut] in *.
  - split; [exact Ha|exact I].
  - destruct H as [H1 H2]. split; [exact H1|]. apply IH; [exact H2|exact Ha].
Qed.

Section Cuts.
Variables (qcos qsin : Q -> Q) (qorient : Q -> Q -> Q -> Q -> Q -> Q * Q).
Notation N := (QNum qcos qsin qorient).
Notation st := (st N).
Notation allows := (allows qcos qsin qorient).
Notation resaving := (resaving qcos qsin qorient).

Definition four : list Z := [STITCH; JUMP; TRIM; COLOR_CHANGE].

Record Cu (m : Z) (s : st) (cut : bool) (px py : Z) : Prop := mkCu {
  c_jumps : jumps_cut true (out N s);
  c_after : cut = true -> cut_after true (out N s) = true;
  c_cmds : Forall (fun a => In (cmd_of (scmd a)) four) (out N s);
  c_x : nx N s = inject_Z px;
  c_y : ny N s = inject_Z py;
  c_order : order_index N s = -1 -> cut = true;
  c_low : -1 <= order_index N s;
  c_mode : sequin_mode N s = false;
  c_jumping : jumping N s = false;
  c_high : high_flags N s = 0;
  c_ms : allows m (max_stitch N s);
  c_mj : allows m (max_jump N s);
  c_explicit : explicit_trim N s = false;
  c_on : tie_on_contingency N s <> CONTINGENCY_TIE_ON_THREE_SMALL;
  c_off : tie_off_contingency N s <> CONTINGENCY_TIE_OFF_THREE_SMALL;
  c_matrix : matrix N s = get_identity N }.

Ltac cu H := destruct H; constructor; attrs; try assumption.

(** One more command. *)
Lemma cu_put : forall m s cut px py x y c k, Cu m s cut px py -> cmd_of c = k -> In k [STITCH; JUMP; TRIM] ->
  (k = JUMP -> cut = true) -> (k = STITCH -> cut = false) ->
  Cu m (update_needle_position N (append N s (mkS (inject_Z x) (inject_Z y) c)) (inject_Z x) (inject_Z y)) cut x y.
Proof.
  intros m s cut px py x y c k H Hc Hk Hj Hs. cu H; try reflexivity.
  - apply jumps_snoc; [assumption|]. cbn [scmd]. rewrite Hc. auto.
  - intros e. rewrite cut_snoc. cbn [scmd]. unfold cut_by. rewrite Hc. specialize (c_after0 e). rewrite c_after0.
    cbn [In] in Hk. destruct Hk as [<-|[<-|[<-|[]]]]; try reflexivity. specialize (Hs eq_refl). congruence.
  - apply Forall_app. split; [assumption|]. constructor; [|constructor]. cbn [scmd]. rewrite Hc. unfold four. cbn [In] in *. tauto.
Qed.

Section Methods.
Variables (m : Z) (c : config) (seq : dict change) (src : list (stitch Q)).
Hypothesis (Hround : rounding c = true) (Hchange : thread_change_command c = COLOR_CHANGE).

Lemma cu_placed : forall s cut px py a, Cu m s cut px py ->
  placed N c s (mkS (inject_Z (sx a)) (inject_Z (sy a)) (scmd a)) = Ok (inject_Z (sx a), inject_Z (sy a)).
Proof.
  intros s cut px py a H. unfold placed. rewrite (c_matrix _ _ _ _ _ H), Hround. cbn [sx sy].
  cbn [point_in_matrix_space get_identity m0 m1 m2 m3 m4 m5 m6 m7 m8 f0 f1 fadd fmul fround QNum bindr].
  rewrite (q_round_int _ (sx a)), (q_round_int _ (sy a)); [reflexivity| |]; ring.
Qed.

Lemma cu_change : forall s s' cut px py, Cu m s cut px py -> next_change_sequence N c seq s = Ok s' ->
  Cu m s' true px py /\ 0 <= order_index N s' /\ trimmed N s' = true.
Proof.
  intros s s' cut px py H E. unfold next_change_sequence in E. rewrite Hchange in E.
  cbv zeta in E. destruct (dict_get _ seq) as [ch|]; [|discriminate]. change (COLOR_CHANGE =? COLOR_CHANGE) with true in E. cbn [Z.eqb] in E.
  pose proof (c_low _ _ _ _ _ H) as L. cbn [order_index set_order add_thread] in E.
  destruct (Z.eqb_spec (order_index N s + 1) 0) as [e|e]; cbn [negb] in E; attrs; cbn in E; injection E as <-.
  - assert (K : cut = true) by (apply (c_order _ _ _ _ _ H); lia). subst cut.
    split; [|split; [cbn; lia|reflexivity]]. cu H; try reflexivity; try (cbn; lia); try discriminate.
  - split; [|split; [cbn; lia|reflexivity]]. assert (T : forall t n i, cmd_of (encode_thread_change COLOR_CHANGE t n i) = COLOR_CHANGE).
    { intros. apply cmd_thread_change. unfold COLOR_CHANGE. lia. }
    cu H; try reflexivity; try (cbn; lia).
    + apply jumps_snoc; [assumption|]. cbn [scmd]. rewrite T. discriminate.
    + intros _. rewrite cut_snoc. cbn [scmd]. unfold cut_by. rewrite T. reflexivity.
    + apply Forall_app. split; [assumption|]. constructor; [|constructor]. cbn [scmd]. rewrite T. unfold four. cbn. tauto.
Qed.

Lemma cu_trimmed : forall s cut px py b, Cu m s cut px py -> Cu m (set_trimmed N s b) cut px py.
Proof. intros s cut px py b H. cu H. Qed.
Lemma cu_weaken : forall s cut px py, Cu m s cut px py -> 0 <= order_index N s -> Cu m s false px py.
Proof. intros s cut px py H Ho. cu H; [discriminate|intros; lia]. Qed.
Lemma cu_stitch : forall s cut px py x y, Cu m s cut px py -> 0 <= order_index N s ->
  Cu m (stitch_at N s (inject_Z x) (inject_Z y)) false x y.
Proof.
  intros s cut px py x y H Ho. apply (cu_weaken _ _ _ _ H) in Ho. unfold stitch_at, add_at.
  apply (cu_put m s false px py x y _ STITCH Ho); [rewrite (c_high _ _ _ _ _ Ho); reflexivity|left; reflexivity|discriminate|reflexivity].
Qed.
Lemma cu_jump : forall s px py x y, Cu m s true px py -> Cu m (jump_at N s (inject_Z x) (inject_Z y)) true x y.
Proof.
  intros s px py x y H. unfold jump_at. rewrite (c_mode _ _ _ _ _ H). cbv zeta. unfold add_at.
  apply (cu_put m s true px py x y _ JUMP H); [rewrite (c_high _ _ _ _ _ H); reflexivity|right; left; reflexivity|reflexivity|discriminate].
Qed.

Lemma cu_exec : forall pos rest a s s' cut px py, Cu m s cut px py -> trimmed N s = cut ->
  In (scmd a) four ->
  (In (cmd_of (scmd a)) [STITCH; JUMP] /\ step_within m px py (sx a) (sy a) \/
   In (cmd_of (scmd a)) [TRIM; COLOR_CHANGE; STOP; END] /\ sx a = px /\ sy a = py) ->
  (cmd_of (scmd a) = JUMP -> cut = true) ->
  exec N c seq src pos rest (mkS (inject_Z (sx a)) (inject_Z (sy a)) (scmd a)) (inject_Z (sx a)) (inject_Z (sy a)) (classify (cmd_of (scmd a))) s = Ok s' ->
  Cu m s' (cut_by cut (scmd a)) (sx a) (sy a) /\ trimmed N s' = cut_by cut (scmd a).
Proof.
  intros pos rest a s s' cut px py H Tr Hk Hs Hj E. cbn [In four] in Hk.
  destruct Hk as [Hk|[Hk|[Hk|[Hk|[]]]]]; rewrite <- Hk in *.
  - (* STITCH *)
    change (classify (cmd_of STITCH)) with OpStitch in E. change (cmd_of STITCH) with STITCH in *.
    assert (S : step_within m px py (sx a) (sy a)).
    { destruct Hs as [[_ Hs]|[Hs _]]; [exact Hs|]. cbn in Hs. intuition discriminate. }
    change (cut_by cut STITCH) with false.
    cbn [exec] in E. rewrite Tr in E. destruct cut.
    + unfold open_section in E. apply bind_ok in E. destruct E as (s1 & E1 & E2).
      unfold declare_not_trimmed in E1. apply bind_ok in E1. destruct E1 as (s0 & E0 & E1). injection E1 as <-.
      assert (A : Cu m s0 true px py /\ 0 <= order_index N s0).
      { destruct (Z.eqb_spec (order_index N s) (-1)) as [e|e].
        - destruct (cu_change s s0 _ px py H E0) as (A & A' & _). split; assumption.
        - injection E0 as <-. pose proof (c_low _ _ _ _ _ H). split; [exact H|lia]. }
      destruct A as [A A']. apply (cu_trimmed s0 true px py false) in A. apply bind_ok in E2. destruct E2 as (s2 & E2 & E3). injection E3 as <-.
      unfold jump_to_within_stitchrange in E2. rewrite (c_x _ _ _ _ _ A), (c_y _ _ _ _ _ A), (no_gap qcos qsin qorient m) in E2
        by (try exact (c_mj _ _ _ _ _ A); exact S). cbn [bindr] in E2.
      assert (B : exists qx qy, Cu m s2 true qx qy /\ 0 <= order_index N s2 /\ trimmed N s2 = false).
      { destruct (full_jump c); [|injection E2 as <-; exists px, py; auto].
        destruct (_ || _) in E2; injection E2 as <-; [|exists px, py; auto]. exists (sx a), (sy a).
        split; [apply (cu_jump _ px py); exact A|]. unfold jump_at. rewrite (c_mode _ _ _ _ _ A).
        split; [exact A'|reflexivity]. }
      destruct B as (qx & qy & B1 & B2 & B3). pose proof (cu_stitch s2 true qx qy (sx a) (sy a) B1 B2) as P.
      rewrite tie_on_nothing; [split; [exact P|exact B3]|exact (c_on _ _ _ _ _ P)].
    + rewrite (c_jumping _ _ _ _ _ H) in E.
      assert (O : 0 <= order_index N s).
      { pose proof (c_low _ _ _ _ _ H). destruct (Z.eq_dec (order_index N s) (-1)) as [e|e]; [|lia]. pose proof (c_order _ _ _ _ _ H e). discriminate. }
      assert (E' : s' = stitch_at N s (inject_Z (sx a)) (inject_Z (sy a))).
      { unfold stitch_with_contingency, sew_to, needle_to in E. rewrite (c_x _ _ _ _ _ H), (c_y _ _ _ _ _ H) in E.
        rewrite !(no_gap qcos qsin qorient m) in E by (try exact (c_ms _ _ _ _ _ H); exact S). cbn [bindr] in E.
        destruct (_ =? _) in E; [injection E as <-; reflexivity|]. destruct (_ =? _) in E; injection E as <-; reflexivity. }
      subst s'. split; [exact (cu_stitch s false px py _ _ H O)|exact Tr].
  - (* JUMP *)
    change (classify (cmd_of JUMP)) with OpJump in E. change (cmd_of JUMP) with JUMP in *. specialize (Hj eq_refl). subst cut.
    assert (S : step_within m px py (sx a) (sy a)).
    { destruct Hs as [[_ Hs]|[Hs _]]; [exact Hs|]. cbn in Hs. intuition discriminate. }
    cbn [exec] in E. rewrite (c_jumping _ _ _ _ _ H) in E. unfold jump_to in E.
    rewrite (c_x _ _ _ _ _ H), (c_y _ _ _ _ _ H), (no_gap qcos qsin qorient m) in E by (try exact (c_mj _ _ _ _ _ H); exact S). cbn [bindr] in E.
    injection E as <-. change (cut_by (trimmed N s) JUMP) with (trimmed N s). rewrite Hj in *. split; [apply (cu_jump _ px py); exact H|].
    unfold jump_at. rewrite (c_mode _ _ _ _ _ H). exact Hj.
  - (* TRIM *)
    change (classify (cmd_of TRIM)) with OpTrim in E. change (cmd_of TRIM) with TRIM in *.
    assert (S : sx a = px /\ sy a = py) by (destruct Hs as [[Hs _]|[_ Hs]]; [cbn in Hs; intuition discriminate|exact Hs]).
    destruct S as [S1 S2]. cbn [exec] in E. injection E as <-. change (cut_by cut TRIM) with true.
    unfold tie_off_and_trim_if_needed. rewrite Tr. destruct cut; cbn [negb]; [rewrite S1, S2; split; assumption|].
    rewrite tie_off_nothing by exact (c_off _ _ _ _ _ H).
    unfold trim_here. rewrite (c_mode _ _ _ _ _ H). cbv iota zeta. split; [|reflexivity]. rewrite S1, S2.
    unfold add, add_at. rewrite (c_high _ _ _ _ _ H). change (Z.lor TRIM 0) with TRIM. cu H; try reflexivity.
    + apply jumps_snoc; [assumption|]. discriminate.
    + intros _. rewrite cut_snoc. reflexivity.
    + apply Forall_app. split; [assumption|]. constructor; [|constructor]. cbn. tauto.
  - (* COLOR_CHANGE *)
    change (classify (cmd_of COLOR_CHANGE)) with OpThreadChange in E. change (cmd_of COLOR_CHANGE) with COLOR_CHANGE in *.
    assert (S : sx a = px /\ sy a = py) by (destruct Hs as [[Hs _]|[_ Hs]]; [cbn in Hs; intuition discriminate|exact Hs]).
    cbn [exec] in E. unfold tie_off_trim_color_change in E. apply bind_ok in E. destruct E as (s1 & E1 & E2).
    injection E2 as <-. change (cut_by cut COLOR_CHANGE) with true.
    assert (Cs : close_section N src pos s = s).
    { unfold close_section. destruct (trimmed N s); cbn [negb]; [reflexivity|]. rewrite tie_off_nothing by exact (c_off _ _ _ _ _ H).
      cbv zeta. rewrite (c_explicit _ _ _ _ _ H). reflexivity. }
    rewrite Cs in E1. destruct S as [S1 S2]. rewrite S1, S2. destruct (cu_change s s1 cut px py H E1) as (A & _ & _).
    split; [apply cu_trimmed; exact A|reflexivity].
Qed.

Lemma cu_loop : forall body e pos s s' cut px py, Cu m s cut px py -> trimmed N s = cut ->
  Forall (fun a => In (scmd a) four) body -> scmd e = END ->
  representable m [STITCH; JUMP] [TRIM; COLOR_CHANGE; STOP; END] px py (body ++ [e]) ->
  jumps_cut cut (body ++ [e]) ->
  main_loop N c seq src pos (map (back) (body ++ [e])) s = Ok s' ->
  jumps_cut true (out N s') /\ Forall (fun a => In (cmd_of (scmd a)) (END :: four)) (out N s').
Proof.
  induction body as [|a body IH]; intros e pos s s' cut px py H Tr Hb He R J E.
  - cbn [app map] in *. cbn [main_loop] in E. change (back e) with (mkS (inject_Z (sx e)) (inject_Z (sy e)) (scmd e)) in E. rewrite (cu_placed s cut px py e H) in E. cbn [bindr scmd] in E.
    rewrite He in E. change (classify (cmd_of END)) with OpEnd in E. cbn [exec bindr] in E. change (cmd_of END =? END) with true in E. cbv iota in E.
    injection E as <-. unfold end_here, add, add_at. attrs. cbn [out append set_trimmed set_high]. split.
    + apply jumps_snoc; [exact (c_jumps _ _ _ _ _ H)|]. discriminate.
    + apply Forall_app. split.
      * eapply Forall_impl; [|exact (c_cmds _ _ _ _ _ H)]. intros b Hb'. right. exact Hb'.
      * constructor; [|constructor]. left. reflexivity.
  - cbn [app map] in *. cbn [main_loop] in E. change (back a) with (mkS (inject_Z (sx a)) (inject_Z (sy a)) (scmd a)) in E. rewrite (cu_placed s cut px py a H) in E. cbn [bindr scmd] in E.
    apply Forall_cons_iff in Hb. destruct Hb as [Ha Hb]. cbn [representable jumps_cut] in *.
    destruct R as [R1 R2]. destruct J as [J1 J2].
    apply bind_ok in E. destruct E as (s1 & E1 & E2).
    assert (Hh : Cu m (set_high N s (Z.land (scmd a) FLAGS_MASK)) cut px py).
    { cu H. unfold four in Ha. cbn [In] in Ha. destruct Ha as [Ha|[Ha|[Ha|[Ha|[]]]]]; rewrite <- Ha; reflexivity. }
    assert (Hn : cmd_of (scmd a) <> END).
    { unfold four in Ha. cbn [In] in Ha. destruct Ha as [Ha|[Ha|[Ha|[Ha|[]]]]]; rewrite <- Ha; discriminate. }
    destruct (cu_exec pos _ a _ s1 cut px py Hh Tr Ha R1 J1 E1) as [X Y].
    destruct (Z.eqb_spec (cmd_of (scmd a)) END) as [e0|_]; [contradiction|].
    exact (IH e (pos + 1) s1 s' _ _ _ X Y Hb He R2 J2 E2).
Qed.
End Methods.

(** Of a closed list of stitches, jumps, trims and colour changes with cut jumps. *)
Theorem encoded_cut : forall m (set : settings N) body e threads o ths, resaving m set ->
  Forall (fun a => In (scmd a) four) body -> scmd e = END ->
  representable m [STITCH; JUMP] [TRIM; COLOR_CHANGE; STOP; END] 0 0 (body ++ [e]) -> jumps_cut true (body ++ [e]) ->
  transcode N set (mkP N (map back (body ++ [e])) threads) = Ok (o, ths) ->
  jumps_cut true o /\ Forall (fun a => In (cmd_of (scmd a)) (END :: four)) o.
Proof.
  intros m set body e threads o ths R Hb He Hr Hj E. unfold transcode in E.
  apply bind_ok in E. destruct E as (seq & _ & E). rewrite (r_change _ _ _ _ _ R) in E. cbn [Z.eqb] in E.
  change (COLOR_CHANGE =? NEEDLE_SET) with false in E. cbv iota zeta in E.
  apply bind_ok in E. destruct E as (s & E & E'). injection E' as <- <-. cbn [p_stitches] in E.
  refine (cu_loop m (init_config N set) seq _ _ (r_change _ _ _ _ _ R) body e 0 (init_state N set) s true 0 0 _ _ Hb He Hr Hj E); [|destruct R as [R1 R2 R3 R4 R5 R6 (R7 & R8 & R9) R10]|reflexivity].
  - cbn [init_config rounding]. rewrite (r_round _ _ _ _ _ R). reflexivity.
  - constructor; cbn [init_state out nx ny trimmed order_index sequin_mode jumping high_flags max_stitch max_jump explicit_trim
      tie_on_contingency tie_off_contingency matrix]; try assumption; try reflexivity; try discriminate; try lia; try exact I; try constructor.
    + destruct R5 as [-> | ->]; discriminate.
    + destruct R6 as [-> | ->]; discriminate.
    + unfold init_matrix. rewrite R7, R8, R9. reflexivity.
Qed.
End Cuts.
