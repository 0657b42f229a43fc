(** Encoding a steady design: nothing is added and nothing left out. *)
From Coq Require Import ZArith List Bool Lia QArith Qabs Qround Lqa.
From Verif Require Import PyBase EmbConst StreamModel StreamSpec FunctionsModel ThreadModel NumModel MatrixModel EncoderModel
  BitLemmas EncoderProofs NumQ MetricSpec EncoderMetricProofs QuantProofs ResaveSpec EncoderSettleProofs.
Import ListNotations.
Open Scope Z_scope.

Section Again.
Variables (qcos qsin : Q -> Q) (qorient : Q -> Q -> Q -> Q -> Q -> Q * Q).
Notation N := (QNum qcos qsin qorient).
Notation st := (st N).

(** [m] is allowed. *)
Definition allows (m : Z) (l : limit N) : Prop := match l with Fin _ v => (inject_Z m <= v)%Q | Inf _ => True end.
Definition same_command (a : stitch Q) (b : stitch Z) : Prop :=
  sx a = inject_Z (sx b) /\ sy a = inject_Z (sy b) /\ cmd_of (scmd a) = cmd_of (scmd b).

Record Ag (m : Z) (s : st) (done : list (stitch Z)) (cut sewn : bool) (px py : Z) : Prop := mkAg {
  g_out : Forall2 same_command (out N s) done;
  g_x : nx N s = inject_Z px;
  g_y : ny N s = inject_Z py;
  g_cut : trimmed N s = cut;
  g_sewn : sewn = true -> 0 <= order_index N s;
  g_uncut : cut = false -> sewn = true;
  g_order : -1 <= order_index N s;
  g_mode : sequin_mode N s = false;
  g_jumping : jumping N s = false;
  g_high : high_flags N s = 0;
  g_ms : allows m (max_stitch N s);
  g_mj : allows m (max_jump N s);
  g_explicit : explicit_trim N s = false;
  g_on : tie_on_contingency N s <> CONTINGENCY_TIE_ON_THREE_SMALL;
  g_off : tie_off_contingency N s <> CONTINGENCY_TIE_OFF_THREE_SMALL;
  g_matrix : matrix N s = get_identity N }.

Ltac ag H := destruct H; constructor; attrs; try assumption.

Lemma not_exceeding : forall m l a b, allows m l -> -m <= b - a <= m -> exceeds N (fsub N (inject_Z b) (inject_Z a)) l = false.
Proof.
  intros m l a b H S. destruct l as [v|]; [|reflexivity]. cbn [allows] in H. unfold exceeds. cbn [fgtb fabs fsub QNum]. unfold q_gt.
  apply negb_false_iff, Qle_bool_iff. eapply Qle_trans; [|exact H].
  unfold Qminus. rewrite <- inject_Z_opp, <- inject_Z_plus. apply Qabs_Qle_condition.
  rewrite <- inject_Z_opp, <- !Zle_Qle. lia.
Qed.
Lemma no_gap : forall m s x0 y0 x y l data, allows m l -> step_within m x0 y0 x y ->
  interpolate_gap_stitches N s (inject_Z x0) (inject_Z y0) (inject_Z x) (inject_Z y) l data = Ok s.
Proof.
  intros m s x0 y0 x y l data H [S1 S2]. unfold interpolate_gap_stitches. destruct l as [v|]; [|reflexivity].
  rewrite (not_exceeding m (Fin N v) x0 x H S1), (not_exceeding m (Fin N v) y0 y H S2). reflexivity.
Qed.

(** One more command at (x, y). *)
Lemma ag_put : forall m s done cut sewn px py x y k c b, Ag m s done cut sewn px py ->
  cmd_of c = k -> cmd_of (scmd b) = k -> sx b = x -> sy b = y ->
  Ag m (update_needle_position N (append N s (mkS (inject_Z x) (inject_Z y) c)) (inject_Z x) (inject_Z y)) (done ++ [b]) cut sewn x y.
Proof.
  intros m s done cut sewn px py x y k c b H Hc Hb Hx Hy. ag H; try reflexivity.
  apply Forall2_app; [assumption|]. constructor; [|constructor]. unfold same_command. cbn [sx sy scmd]. rewrite Hx, Hy, Hc, Hb. auto.
Qed.
Lemma ag_here : forall m s done cut sewn px py k c b, Ag m s done cut sewn px py ->
  cmd_of c = k -> cmd_of (scmd b) = k -> sx b = px -> sy b = py ->
  Ag m (append N s (mkS (nx N s) (ny N s) c)) (done ++ [b]) cut sewn px py.
Proof.
  intros m s done cut sewn px py k c b H Hc Hb Hx Hy. ag H; try reflexivity.
  apply Forall2_app; [assumption|]. constructor; [|constructor]. unfold same_command. cbn [sx sy scmd]. rewrite Hx, Hy, Hc, Hb. auto.
Qed.
Lemma ag_cut : forall m s done cut sewn px py, Ag m s done cut sewn px py -> Ag m (set_trimmed N s true) done true sewn px py.
Proof. intros m s done cut sewn px py H. ag H; [reflexivity|discriminate]. Qed.
Lemma ag_uncut : forall m s done cut sewn px py, Ag m s done cut sewn px py -> 0 <= order_index N s -> Ag m (set_trimmed N s false) done false true px py.
Proof. intros m s done cut sewn px py H Ho. ag H; try reflexivity; auto. Qed.
Lemma ag_sewn : forall m s done cut sewn px py, Ag m s done cut sewn px py -> 0 <= order_index N s -> Ag m s done cut true px py.
Proof. intros m s done cut sewn px py H Ho. ag H; auto. Qed.

Section Methods.
Variables (m : Z) (c : config) (seq : dict change) (src : list (stitch Q)).
Hypothesis (Hround : rounding c = true) (Hchange : thread_change_command c = COLOR_CHANGE).

Lemma placed_again : forall s done cut sewn px py a, Ag m s done cut sewn px py ->
  placed N c s (mkS (inject_Z (sx a)) (inject_Z (sy a)) (scmd a)) = Ok (inject_Z (sx a), inject_Z (sy a)).
Proof.
  intros s done cut sewn px py a H. unfold placed. rewrite (g_matrix _ _ _ _ _ _ _ H), Hround. cbn [sx sy].
  cbn [point_in_matrix_space get_identity m0 m1 m2 m3 m4 m5 m6 m7 m8 f0 f1 fadd fmul fround QNum bindr].
  rewrite (q_round_int _ (sx a)), (q_round_int _ (sy a)); [reflexivity| |]; ring.
Qed.

Lemma tie_on_nothing : forall pos s, tie_on_contingency N s <> CONTINGENCY_TIE_ON_THREE_SMALL -> tie_on N src pos s = s.
Proof. intros pos s H. unfold tie_on. destruct (Z.eqb_spec (tie_on_contingency N s) CONTINGENCY_TIE_ON_THREE_SMALL); [contradiction|reflexivity]. Qed.
Lemma tie_off_nothing : forall pos s, tie_off_contingency N s <> CONTINGENCY_TIE_OFF_THREE_SMALL -> tie_off N src pos s = s.
Proof. intros pos s H. unfold tie_off. destruct (Z.eqb_spec (tie_off_contingency N s) CONTINGENCY_TIE_OFF_THREE_SMALL); [contradiction|reflexivity]. Qed.

(** The first thread: no command. *)
Lemma first_change : forall s s' done cut sewn px py, Ag m s done cut sewn px py -> order_index N s = -1 ->
  next_change_sequence N c seq s = Ok s' -> Ag m s' done true sewn px py /\ 0 <= order_index N s'.
Proof.
  intros s s' done cut sewn px py H Ho E. unfold next_change_sequence in E. rewrite Hchange in E.
  cbv zeta in E. destruct (dict_get _ seq) as [ch|]; [|discriminate]. cbn [Z.eqb] in E. attrs. cbn [order_index set_order add_thread] in E. rewrite Ho in E. cbn in E.
  injection E as <-. split; [|cbn; lia]. ag H; try reflexivity; try (cbn; lia); try discriminate.
Qed.
Lemma later_change : forall s s' done cut sewn px py b, Ag m s done cut sewn px py -> 0 <= order_index N s ->
  cmd_of (scmd b) = COLOR_CHANGE -> sx b = px -> sy b = py ->
  next_change_sequence N c seq s = Ok s' -> Ag m s' (done ++ [b]) true true px py.
Proof.
  intros s s' done cut sewn px py b H Ho Hb Hx Hy E. unfold next_change_sequence in E. rewrite Hchange in E.
  cbv zeta in E. destruct (dict_get _ seq) as [ch|]; [|discriminate]. cbn [Z.eqb] in E. change (COLOR_CHANGE =? COLOR_CHANGE) with true in E. cbv iota in E.
  cbn [order_index set_order add_thread] in E. destruct (Z.eqb_spec (order_index N s + 1) 0) as [e|_]; [lia|]. cbn [negb] in E.
  injection E as <-. apply (ag_cut _ _ _ cut).
  unfold add_thread_change. apply (ag_here m _ done cut true px py COLOR_CHANGE); try assumption.
  - ag H; intros; lia.
  - apply cmd_thread_change. unfold COLOR_CHANGE. lia.
Qed.

Lemma exec_again : forall pos rest a s s' done cut sewn px py,
  Ag m s done cut sewn px py ->
  In (scmd a) [STITCH; JUMP; TRIM; COLOR_CHANGE; STOP; END] ->
  (In (cmd_of (scmd a)) [STITCH; JUMP] /\ step_within m px py (sx a) (sy a) \/
   In (cmd_of (scmd a)) [TRIM; COLOR_CHANGE; STOP; END] /\ sx a = px /\ sy a = py) ->
  (full_jump c = true -> cut = true -> cmd_of (scmd a) = STITCH -> sx a = px /\ sy a = py) ->
  (cmd_of (scmd a) = COLOR_CHANGE -> sewn = true) ->
  exec N c seq src pos rest (mkS (inject_Z (sx a)) (inject_Z (sy a)) (scmd a)) (inject_Z (sx a)) (inject_Z (sy a)) (classify (cmd_of (scmd a))) s = Ok s' ->
  scmd a <> END -> Ag m s' (done ++ (if cut && (cmd_of (scmd a) =? TRIM) then [] else [a])) (cut_by cut (scmd a)) (if cmd_of (scmd a) =? STITCH then true else sewn) (sx a) (sy a).
Proof.
  intros pos rest a s s' done cut sewn px py H Hk Hs Hc1 Hc3 E He. cbn [In] in Hk.
  destruct Hk as [Hk|[Hk|[Hk|[Hk|[Hk|[Hk|[]]]]]]]; rewrite <- Hk in *; try (exfalso; apply He; reflexivity);
    try match goal with |- context[if cut && (cmd_of ?k =? TRIM) then _ else _] => lazymatch k with TRIM => fail | _ =>
      replace (cut && (cmd_of k =? TRIM)) with false by (destruct cut; reflexivity); cbv iota end end.
  - (* STITCH *)
    change (classify (cmd_of STITCH)) with OpStitch in E. change (cmd_of STITCH) with STITCH in *.
    assert (S : step_within m px py (sx a) (sy a)).
    { destruct Hs as [[_ Hs]|[Hs _]]; [exact Hs|]. cbn in Hs. intuition discriminate. }
    unfold cut_by. change (cmd_of STITCH =? STITCH) with true. change (STITCH =? STITCH) with true. cbv iota.
    assert (P : forall s0, Ag m s0 done false true px py -> Ag m (stitch_at N s0 (inject_Z (sx a)) (inject_Z (sy a))) (done ++ [a]) false true (sx a) (sy a)).
    { intros s0 H0. unfold stitch_at, add_at. refine (ag_put m s0 done false true px py (sx a) (sy a) STITCH _ a H0 _ _ eq_refl eq_refl).
      - rewrite (g_high _ _ _ _ _ _ _ H0). reflexivity.
      - rewrite <- Hk. reflexivity. }
    cbn [exec] in E. rewrite (g_cut _ _ _ _ _ _ _ H) in E. destruct cut.
    + unfold open_section in E. apply bind_ok in E. destruct E as (s1 & E1 & E2).
      unfold declare_not_trimmed in E1. apply bind_ok in E1. destruct E1 as (s0 & E0 & E1). injection E1 as <-.
      assert (A : Ag m (set_trimmed N s0 false) done false true px py /\ 0 <= order_index N s0).
      { destruct (Z.eqb_spec (order_index N s) (-1)) as [e|e].
        - destruct (first_change s s0 done _ _ px py H e E0) as [A A']. split; [exact (ag_uncut _ _ _ _ _ _ _ A A')|exact A'].
        - injection E0 as <-. pose proof (g_order _ _ _ _ _ _ _ H). split; [apply (ag_uncut _ _ _ _ _ _ _ H)|]; lia. }
      destruct A as [A A']. apply bind_ok in E2. destruct E2 as (s2 & E2 & E3). injection E3 as <-.
      unfold jump_to_within_stitchrange in E2. rewrite (g_x _ _ _ _ _ _ _ A), (g_y _ _ _ _ _ _ _ A), (no_gap m) in E2
        by (try exact (g_mj _ _ _ _ _ _ _ A); exact S). cbn [bindr] in E2.
      assert (E2' : s2 = set_trimmed N s0 false).
      { destruct (full_jump c) eqn:Ej; [|injection E2 as <-; reflexivity]. destruct (Hc1 eq_refl eq_refl eq_refl) as [X Y]. rewrite X, Y in E2.
        rewrite (g_x _ _ _ _ _ _ _ A), (g_y _ _ _ _ _ _ _ A) in E2. cbn [feqb QNum] in E2. rewrite !Qeq_bool_refl in E2. cbn [negb orb] in E2.
        injection E2 as <-. reflexivity. }
      subst s2. specialize (P _ A). rewrite tie_on_nothing; [exact P|exact (g_on _ _ _ _ _ _ _ P)].
    + rewrite (g_jumping _ _ _ _ _ _ _ H) in E.
      assert (O : sewn = true) by exact (g_uncut _ _ _ _ _ _ _ H eq_refl).
      assert (E' : s' = stitch_at N s (inject_Z (sx a)) (inject_Z (sy a))).
      { unfold stitch_with_contingency, sew_to, needle_to in E. rewrite (g_x _ _ _ _ _ _ _ H), (g_y _ _ _ _ _ _ _ H) in E.
        rewrite !(no_gap m) in E by (try exact (g_ms _ _ _ _ _ _ _ H); exact S). cbn [bindr] in E.
        destruct (_ =? _) in E; [injection E as <-; reflexivity|]. destruct (_ =? _) in E; injection E as <-; reflexivity. }
      subst s' sewn. exact (P _ H).
  - (* JUMP *)
    change (classify (cmd_of JUMP)) with OpJump in E. change (cmd_of JUMP) with JUMP in *.
    assert (S : step_within m px py (sx a) (sy a)).
    { destruct Hs as [[_ Hs]|[Hs _]]; [exact Hs|]. cbn in Hs. intuition discriminate. }
    cbn [exec] in E. rewrite (g_jumping _ _ _ _ _ _ _ H) in E. unfold jump_to in E.
    rewrite (g_x _ _ _ _ _ _ _ H), (g_y _ _ _ _ _ _ _ H), (no_gap m) in E by (try exact (g_mj _ _ _ _ _ _ _ H); exact S). cbn [bindr] in E.
    injection E as <-. unfold jump_at. rewrite (g_mode _ _ _ _ _ _ _ H). unfold add_at.
    change (cut_by cut JUMP) with cut. change (JUMP =? STITCH) with false. cbv iota zeta.
    refine (ag_put m s done cut sewn px py (sx a) (sy a) JUMP _ a H _ _ eq_refl eq_refl).
    + rewrite (g_high _ _ _ _ _ _ _ H). reflexivity.
    + rewrite <- Hk. reflexivity.
  - (* TRIM *)
    change (classify (cmd_of TRIM)) with OpTrim in E. change (cmd_of TRIM) with TRIM in *.
    assert (S : sx a = px /\ sy a = py) by (destruct Hs as [[Hs _]|[_ Hs]]; [cbn in Hs; intuition discriminate|exact Hs]).
    cbn [exec] in E. injection E as <-.
    unfold tie_off_and_trim_if_needed. rewrite (g_cut _ _ _ _ _ _ _ H). destruct cut.
    { destruct S as [S1 S2]. cbn [negb andb]. change (TRIM =? TRIM) with true. change (cut_by true TRIM) with true.
      change (TRIM =? STITCH) with false. cbv iota. rewrite app_nil_r, S1, S2. exact H. }
    cbn [negb andb]. rewrite tie_off_nothing by exact (g_off _ _ _ _ _ _ _ H).
    unfold trim_here. rewrite (g_mode _ _ _ _ _ _ _ H). cbv iota zeta.
    change (cut_by false TRIM) with true. change (TRIM =? STITCH) with false. cbv iota. destruct S as [S1 S2]. rewrite S1, S2.
    apply (ag_cut m _ _ false). unfold add, add_at. apply (ag_here m s done false sewn px py TRIM); try assumption.
    + rewrite (g_high _ _ _ _ _ _ _ H). reflexivity.
    + rewrite <- Hk. reflexivity.
  - (* COLOR_CHANGE *)
    change (classify (cmd_of COLOR_CHANGE)) with OpThreadChange in E. change (cmd_of COLOR_CHANGE) with COLOR_CHANGE in *.
    assert (S : sx a = px /\ sy a = py) by (destruct Hs as [[Hs _]|[_ Hs]]; [cbn in Hs; intuition discriminate|exact Hs]).
    specialize (Hc3 eq_refl). subst sewn. cbn [exec] in E. unfold tie_off_trim_color_change in E. apply bind_ok in E. destruct E as (s1 & E1 & E2).
    injection E2 as <-. change (cut_by cut COLOR_CHANGE) with true. change (COLOR_CHANGE =? STITCH) with false. cbv iota.
    assert (Cs : close_section N src pos s = s).
    { unfold close_section. destruct (trimmed N s); cbn [negb]; [reflexivity|]. rewrite tie_off_nothing by exact (g_off _ _ _ _ _ _ _ H).
      cbv zeta. rewrite (g_explicit _ _ _ _ _ _ _ H). reflexivity. }
    rewrite Cs in E1. destruct S as [S1 S2]. apply (ag_cut m _ _ true). rewrite S1, S2.
    apply (later_change s s1 done cut true px py a H (g_sewn _ _ _ _ _ _ _ H eq_refl)); try assumption. rewrite <- Hk. reflexivity.
  - (* STOP *)
    change (classify (cmd_of STOP)) with OpStop in E. change (cmd_of STOP) with STOP in *.
    assert (S : sx a = px /\ sy a = py) by (destruct Hs as [[Hs _]|[_ Hs]]; [cbn in Hs; intuition discriminate|exact Hs]).
    cbn [exec] in E. injection E as <-. unfold stop_here, add, add_at. change (cut_by cut STOP) with true. change (STOP =? STITCH) with false. cbv iota.
    destruct S as [S1 S2]. rewrite S1, S2. apply (ag_cut m _ _ cut). apply (ag_here m s done cut sewn px py STOP); try assumption.
    + rewrite (g_high _ _ _ _ _ _ _ H). reflexivity.
    + rewrite <- Hk. reflexivity.
Qed.

Definition back (a : stitch Z) : stitch Q := mkS (inject_Z (sx a)) (inject_Z (sy a)) (scmd a).
Fixpoint sewn_first_from (sewn : bool) (l : list (stitch Z)) : Prop :=
  match l with
  | [] => True
  | a :: r => (cmd_of (scmd a) = COLOR_CHANGE -> sewn = true) /\ sewn_first_from (if cmd_of (scmd a) =? STITCH then true else sewn) r
  end.
Lemma sewn_from_true : forall l, sewn_first_from true l.
Proof. induction l as [|a l IH]; [exact I|]. cbn [sewn_first_from]. split; [reflexivity|]. destruct (_ =? _); exact IH. Qed.
Lemma sewn_from : forall l, sewn_first l -> sewn_first_from false l.
Proof.
  induction l as [|a l IH]; intros H; [exact I|]. cbn [sewn_first sewn_first_from] in *. destruct H as [H|[H1 H2]].
  - rewrite H. cbn [Z.eqb]. split; [discriminate|]. apply sewn_from_true.
  - split; [intros E; contradiction|]. destruct (_ =? _); [apply sewn_from_true|apply IH; exact H2].
Qed.

Lemma main_loop_again : forall body e pos s s' done cut sewn px py, Ag m s done cut sewn px py ->
  Forall (fun a => In (scmd a) [STITCH; JUMP; TRIM; COLOR_CHANGE; STOP]) body -> scmd e = END ->
  representable m [STITCH; JUMP] [TRIM; COLOR_CHANGE; STOP; END] px py (body ++ [e]) ->
  (full_jump c = true -> lands eq cut px py (body ++ [e])) -> sewn_first_from sewn (body ++ [e]) ->
  main_loop N c seq src pos (map back (body ++ [e])) s = Ok s' ->
  Forall2 same_command (out N s') (done ++ without_cut_trims cut (body ++ [e])).
Proof.
  induction body as [|a body IH]; intros e pos s s' done cut sewn px py H Hb He R S F E.
  - cbn [app map without_cut_trims] in *. rewrite He. replace (cut && (cmd_of END =? TRIM)) with false by (destruct cut; reflexivity).
    cbv iota. cbn [app]. cbn [main_loop] in E. change (back e) with (mkS (inject_Z (sx e)) (inject_Z (sy e)) (scmd e)) in E. rewrite (placed_again s done cut sewn px py e H) in E. cbn [bindr scmd] in E.
    rewrite He in E. change (classify (cmd_of END)) with OpEnd in E. cbn [exec bindr] in E. change (cmd_of END =? END) with true in E. cbv iota in E.
    injection E as <-. unfold end_here, add, add_at.
    assert (P : sx e = px /\ sy e = py).
    { cbn [representable] in R. rewrite He in R. destruct R as [[[R _]|[_ R]] _]; [cbn in R; intuition discriminate|exact R]. }
    destruct P as [P1 P2].
    refine (g_out m _ _ true sewn px py (ag_cut m _ _ cut sewn px py (ag_here m (set_high N s 0) done cut sewn px py END _ e _ _ _ P1 P2))).
    + ag H. reflexivity.
    + attrs. reflexivity.
    + rewrite He. reflexivity.
  - cbn [app map] in *. cbn [main_loop] in E. change (back a) with (mkS (inject_Z (sx a)) (inject_Z (sy a)) (scmd a)) in E. rewrite (placed_again s done cut sewn px py a H) in E. cbn [bindr scmd] in E.
    apply Forall_cons_iff in Hb. destruct Hb as [Ha Hb]. cbn [representable lands sewn_first_from without_cut_trims] in *.
    destruct R as [R1 R2]. destruct F as [F1 F2].
    apply bind_ok in E. destruct E as (s1 & E1 & E2).
    assert (Hh : Ag m (set_high N s (Z.land (scmd a) FLAGS_MASK)) done cut sewn px py).
    { ag H. cbn [In] in Ha. destruct Ha as [Ha|[Ha|[Ha|[Ha|[Ha|[]]]]]]; rewrite <- Ha; reflexivity. }
    assert (Hn : scmd a <> END /\ cmd_of (scmd a) <> END).
    { cbn [In] in Ha. destruct Ha as [Ha|[Ha|[Ha|[Ha|[Ha|[]]]]]]; rewrite <- Ha; split; discriminate. }
    assert (Ha' : In (scmd a) [STITCH; JUMP; TRIM; COLOR_CHANGE; STOP; END]) by (cbn [In] in *; tauto).
    pose proof (exec_again pos _ a _ s1 done cut sewn px py Hh Ha' R1 (fun J => proj1 (S J)) F1 E1 (proj1 Hn)) as X.
    destruct (Z.eqb_spec (cmd_of (scmd a)) END) as [e0|_]; [destruct Hn; contradiction|].
    pose proof (IH e (pos + 1) s1 s' _ _ _ _ _ X Hb He R2 (fun J => proj2 (S J)) F2 E2) as Y. rewrite <- app_assoc in Y. exact Y.
Qed.
End Methods.

(** Settings that ask for nothing but a format's steps. *)
Record resaving (m : Z) (set : settings N) : Prop := mkResaving {
  r_round : s_round N set = Some true;
  r_ms : allows m (get (s_max_stitch N set) (Inf N));
  r_mj : allows m (get (s_max_jump N set) (Inf N));
  r_explicit : get (s_explicit_trim N set) false = false;
  r_on : s_tie_on N set = None \/ s_tie_on N set = Some (TieBool false);
  r_off : s_tie_off N set = None \/ s_tie_off N set = Some (TieBool false);
  r_plain : s_translate N set = None /\ s_scale N set = None /\ s_rotate N set = None;
  r_change : thread_change_command (init_config N set) = COLOR_CHANGE }.

Lemma encoded_walking : forall m (set : settings N) l threads o ths, resaving m set -> walking m l ->
  (s_full_jump N set = Some true -> lands eq true 0 0 l) -> sewn_first l ->
  transcode N set (mkP N (map back l) threads) = Ok (o, ths) -> Forall2 same_command o (without_cut_trims true l).
Proof.
  intros m set l threads o ths R ((body & e & -> & He & Hb) & Hr) Hs0 Hf E.
  assert (Hs : full_jump (init_config N set) = true -> lands eq true 0 0 (body ++ [e])).
  { intros J. apply Hs0. cbn [init_config full_jump] in J. destruct (s_full_jump N set) as [[|]|]; [reflexivity|discriminate J|discriminate J]. }
  clear Hs0. unfold transcode in E.
  apply bind_ok in E. destruct E as (seq & _ & E). rewrite (r_change _ _ R) in E. cbn [Z.eqb] in E.
  change (COLOR_CHANGE =? NEEDLE_SET) with false in E. cbv iota zeta in E.
  apply bind_ok in E. destruct E as (s & E & E'). injection E' as <- <-. cbn [p_stitches] in E.
  refine (main_loop_again m (init_config N set) seq _ _ (r_change _ _ R) body e 0 (init_state N set) s [] true false 0 0 _ Hb He Hr Hs (sewn_from _ Hf) E).
  - cbn [init_config rounding]. rewrite (r_round _ _ R). reflexivity.
  - destruct R as [R1 R2 R3 R4 R5 R6 (R7 & R8 & R9) R10]. constructor; cbn [init_state out nx ny trimmed order_index sequin_mode jumping high_flags max_stitch max_jump explicit_trim
      tie_on_contingency tie_off_contingency matrix]; try assumption; try reflexivity; try discriminate; try lia.
    + constructor.
    + destruct R5 as [-> | ->]; discriminate.
    + destruct R6 as [-> | ->]; discriminate.
    + unfold init_matrix. rewrite R7, R8, R9. reflexivity.
Qed.
Theorem encoded_landing : forall m (set : settings N) l threads o ths, resaving m set -> landing m l -> sewn_first l ->
  transcode N set (mkP N (map back l) threads) = Ok (o, ths) -> Forall2 same_command o (without_cut_trims true l).
Proof. intros m set l threads o ths R (H1 & H2 & H3) Hf. apply (encoded_walking m set l threads o ths R (conj H1 H2) (fun _ => H3) Hf). Qed.
Lemma settles_lands : forall C (same : C -> C -> Prop) l cut px py, settles same cut px py l -> lands same cut px py l.
Proof. induction l as [|a l IH]; intros cut px py H; [exact I|]. cbn [settles lands] in *. destruct H as (A & _ & H). split; [exact A|apply IH; exact H]. Qed.
Lemma settles_trims : forall C (same : C -> C -> Prop) l cut px py, settles same cut px py l -> without_cut_trims cut l = l.
Proof.
  induction l as [|a l IH]; intros cut px py H; [reflexivity|]. cbn [settles without_cut_trims] in *. destruct H as (_ & B & H).
  rewrite (IH _ _ _ H). destruct cut; [|reflexivity]. destruct (Z.eqb_spec (cmd_of (scmd a)) TRIM) as [e|_]; [destruct (B eq_refl e)|reflexivity].
Qed.
Theorem encoded_again : forall m (set : settings N) l threads o ths, resaving m set -> steady m l -> sewn_first l ->
  transcode N set (mkP N (map back l) threads) = Ok (o, ths) -> Forall2 same_command o l.
Proof.
  intros m set l threads o ths R (S1 & S2 & S3) Hf E. rewrite <- (settles_trims _ _ _ _ _ _ S3).
  refine (encoded_landing m set l threads o ths R _ Hf E). split; [exact S1|]. split; [exact S2|exact (settles_lands _ _ _ _ _ _ S3)].
Qed.
End Again.
