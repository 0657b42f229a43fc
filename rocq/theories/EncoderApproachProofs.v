(** Encoding a loaded design with FULL_JUMP: a jump to the next stitch after a cut. *)
From Coq Require Import ZArith List Bool Lia QArith Qabs Qround Lqa.
From Verif Require Import PyBase EmbConst StreamModel StreamSpec FunctionsModel ThreadModel NumModel MatrixModel EncoderModel
  BitLemmas EncoderProofs NumQ MetricSpec EncoderMetricProofs QuantProofs ResaveSpec EncoderSettleProofs EncoderAgainProofs JefAgainSpec.
Import ListNotations.
Open Scope Z_scope.

Section Approach.
Variables (qcos qsin : Q -> Q) (qorient : Q -> Q -> Q -> Q -> Q -> Q * Q).
Notation N := (QNum qcos qsin qorient).
Notation st := (st N).
Notation Ag := (Ag qcos qsin qorient).
Notation resaving := (resaving qcos qsin qorient).
Variables (m : Z) (c : config) (seq : dict change) (src : list (stitch Q)).
Hypothesis (Hround : rounding c = true) (Hchange : thread_change_command c = COLOR_CHANGE) (Hfull : full_jump c = true).

Lemma exec_approach : forall pos rest a s s' done cut sewn px py,
  Ag m s done cut sewn px py ->
  In (scmd a) [STITCH; JUMP; TRIM; COLOR_CHANGE; STOP; END] ->
  (In (cmd_of (scmd a)) [STITCH; JUMP] /\ step_within m px py (sx a) (sy a) \/
   In (cmd_of (scmd a)) [TRIM; COLOR_CHANGE; STOP; END] /\ sx a = px /\ sy a = py) ->
  (cmd_of (scmd a) = COLOR_CHANGE -> sewn = true) ->
  exec N c seq src pos rest (mkS (inject_Z (sx a)) (inject_Z (sy a)) (scmd a)) (inject_Z (sx a)) (inject_Z (sy a)) (classify (cmd_of (scmd a))) s = Ok s' ->
  scmd a <> END ->
  Ag m s' (done ++ (if cut && (cmd_of (scmd a) =? TRIM) then []
       else if cut && (cmd_of (scmd a) =? STITCH) && negb ((sx a =? px) && (sy a =? py)) then [mkS (sx a) (sy a) JUMP; a]
       else [a])) (cut_by cut (scmd a)) (if cmd_of (scmd a) =? STITCH then true else sewn) (sx a) (sy a).
Proof.
  intros pos rest a s s' done cut sewn px py H Hk Hs Hc3 E He.
  destruct (cut && (cmd_of (scmd a) =? STITCH) && negb ((sx a =? px) && (sy a =? py))) eqn:Eb.
  2:{ pose proof (exec_again qcos qsin qorient m c seq src Hchange pos rest a s s' done cut sewn px py H Hk Hs) as X.
      assert (L : full_jump c = true -> cut = true -> cmd_of (scmd a) = STITCH -> sx a = px /\ sy a = py).
      { intros _ T C. rewrite T, C in Eb. cbn [andb Z.eqb] in Eb. change (STITCH =? STITCH) with true in Eb. cbn [andb] in Eb.
        apply negb_false_iff, andb_true_iff in Eb. destruct Eb as [A B]. apply Z.eqb_eq in A, B. auto. }
      exact (X L Hc3 E He). }
  apply andb_true_iff in Eb. destruct Eb as [Eb Ea]. apply andb_true_iff in Eb. destruct Eb as [Ec Eb]. apply Z.eqb_eq in Eb. subst cut.
  assert (Hk' : scmd a = STITCH).
  { cbn [In] in Hk. destruct Hk as [Hk|[Hk|[Hk|[Hk|[Hk|[Hk|[]]]]]]]; rewrite <- Hk in Eb; try discriminate Eb. symmetry. exact Hk. }
  rewrite Hk' in *. change (classify (cmd_of STITCH)) with OpStitch in E. change (cmd_of STITCH) with STITCH in *.
  change (true && (STITCH =? TRIM)) with false. cbv iota.
  assert (S : step_within m px py (sx a) (sy a)).
  { destruct Hs as [[_ Hs]|[Hs _]]; [exact Hs|]. cbn in Hs. intuition discriminate. }
  unfold cut_by. change (cmd_of STITCH =? STITCH) with true. change (STITCH =? STITCH) with true. cbv iota.
  cbn [exec] in E. rewrite (g_cut _ _ _ _ _ _ _ _ _ _ H) in E.
  unfold open_section in E. apply bind_ok in E. destruct E as (s1 & E1 & E2).
  unfold declare_not_trimmed in E1. apply bind_ok in E1. destruct E1 as (s0 & E0 & E1). injection E1 as <-.
  assert (A : Ag m (set_trimmed N s0 false) done false true px py).
  { destruct (Z.eqb_spec (order_index N s) (-1)) as [e|e].
    - destruct (first_change qcos qsin qorient m c seq Hchange s s0 done _ _ px py H e E0) as [A A']. exact (ag_uncut _ _ _ _ _ _ _ _ _ _ A A').
    - injection E0 as <-. pose proof (g_order _ _ _ _ _ _ _ _ _ _ H). apply (ag_uncut _ _ _ _ _ _ _ _ _ _ H); lia. }
  apply bind_ok in E2. destruct E2 as (s2 & E2 & E3). injection E3 as <-.
  unfold jump_to_within_stitchrange in E2. rewrite (g_x _ _ _ _ _ _ _ _ _ _ A), (g_y _ _ _ _ _ _ _ _ _ _ A), (no_gap qcos qsin qorient m) in E2
    by (try exact (g_mj _ _ _ _ _ _ _ _ _ _ A); exact S). cbn [bindr] in E2. rewrite Hfull in E2.
  rewrite (g_x _ _ _ _ _ _ _ _ _ _ A), (g_y _ _ _ _ _ _ _ _ _ _ A) in E2. cbn [feqb QNum] in E2.
  assert (Q1 : negb (Qeq_bool (inject_Z px) (inject_Z (sx a))) || negb (Qeq_bool (inject_Z py) (inject_Z (sy a))) = true).
  { rewrite <- negb_andb. apply negb_true_iff. apply negb_true_iff in Ea. apply not_true_iff_false. intros K. apply andb_true_iff in K. destruct K as [K1 K2].
    apply Qeq_bool_iff, (proj1 (inject_Z_injective _ _)) in K1. apply Qeq_bool_iff, (proj1 (inject_Z_injective _ _)) in K2. subst. rewrite !Z.eqb_refl in Ea. discriminate. }
  cbv zeta in E2. rewrite Q1 in E2 || (rewrite orb_comm in Q1; rewrite Q1 in E2). injection E2 as <-.
  assert (B : Ag m (jump_at N (set_trimmed N s0 false) (inject_Z (sx a)) (inject_Z (sy a))) (done ++ [mkS (sx a) (sy a) JUMP]) false true (sx a) (sy a)).
  { unfold jump_at. rewrite (g_mode _ _ _ _ _ _ _ _ _ _ A). unfold add_at.
    refine (ag_put qcos qsin qorient m _ done false true px py (sx a) (sy a) JUMP _ (mkS (sx a) (sy a) JUMP) A _ _ eq_refl eq_refl); [|reflexivity].
    rewrite (g_high _ _ _ _ _ _ _ _ _ _ A). reflexivity. }
  assert (P : Ag m (stitch_at N (jump_at N (set_trimmed N s0 false) (inject_Z (sx a)) (inject_Z (sy a))) (inject_Z (sx a)) (inject_Z (sy a)))
     ((done ++ [mkS (sx a) (sy a) JUMP]) ++ [a]) false true (sx a) (sy a)).
  { unfold stitch_at, add_at. refine (ag_put qcos qsin qorient m _ _ false true (sx a) (sy a) (sx a) (sy a) STITCH _ a B _ _ eq_refl eq_refl).
    - rewrite (g_high _ _ _ _ _ _ _ _ _ _ B). reflexivity.
    - rewrite Hk'. reflexivity. }
  rewrite tie_on_nothing; [|exact (g_on _ _ _ _ _ _ _ _ _ _ P)]. rewrite <- app_assoc in P. exact P.
Qed.

Notation back := (back).
Lemma main_loop_approach : forall body e pos s s' done cut sewn px py, Ag m s done cut sewn px py ->
  Forall (fun a => In (scmd a) [STITCH; JUMP; TRIM; COLOR_CHANGE; STOP]) body -> scmd e = END ->
  representable m [STITCH; JUMP] [TRIM; COLOR_CHANGE; STOP; END] px py (body ++ [e]) ->
  sewn_first_from sewn (body ++ [e]) ->
  main_loop N c seq src pos (map back (body ++ [e])) s = Ok s' ->
  Forall2 same_command (out N s') (done ++ approached cut px py (body ++ [e])).
Proof.
  induction body as [|a body IH]; intros e pos s s' done cut sewn px py H Hb He R F E.
  - cbn [app map approached] in *. rewrite He. replace (cut && (cmd_of END =? TRIM)) with false by (destruct cut; reflexivity).
    replace (cut && (cmd_of END =? STITCH)) with false by (destruct cut; reflexivity). cbn [andb]. cbv iota.
    cbn [app]. cbn [main_loop] in E. change (back e) with (mkS (inject_Z (sx e)) (inject_Z (sy e)) (scmd e)) in E.
    rewrite (placed_again qcos qsin qorient m c Hround s done cut sewn px py e H) in E. cbn [bindr scmd] in E.
    rewrite He in E. change (classify (cmd_of END)) with OpEnd in E. cbn [exec bindr] in E. change (cmd_of END =? END) with true in E. cbv iota in E.
    injection E as <-. unfold end_here, add, add_at.
    assert (P : sx e = px /\ sy e = py).
    { cbn [representable] in R. rewrite He in R. destruct R as [[[R _]|[_ R]] _]; [cbn in R; intuition discriminate|exact R]. }
    destruct P as [P1 P2].
    refine (g_out _ _ _ m _ _ true sewn px py (ag_cut _ _ _ m _ _ cut sewn px py (ag_here _ _ _ m (set_high N s 0) done cut sewn px py END _ e _ _ _ P1 P2))).
    + destruct H; constructor; attrs; try assumption. reflexivity.
    + attrs. reflexivity.
    + rewrite He. reflexivity.
  - cbn [app map] in *. cbn [main_loop] in E. change (back a) with (mkS (inject_Z (sx a)) (inject_Z (sy a)) (scmd a)) in E.
    rewrite (placed_again qcos qsin qorient m c Hround s done cut sewn px py a H) in E. cbn [bindr scmd] in E.
    apply Forall_cons_iff in Hb. destruct Hb as [Ha Hb]. cbn [representable sewn_first_from approached] in *.
    destruct R as [R1 R2]. destruct F as [F1 F2].
    apply bind_ok in E. destruct E as (s1 & E1 & E2).
    assert (Hh : Ag m (set_high N s (Z.land (scmd a) FLAGS_MASK)) done cut sewn px py).
    { destruct H; constructor; attrs; try assumption. cbn [In] in Ha. destruct Ha as [Ha|[Ha|[Ha|[Ha|[Ha|[]]]]]]; rewrite <- Ha; reflexivity. }
    assert (Hn : scmd a <> END /\ cmd_of (scmd a) <> END).
    { cbn [In] in Ha. destruct Ha as [Ha|[Ha|[Ha|[Ha|[Ha|[]]]]]]; rewrite <- Ha; split; discriminate. }
    assert (Ha' : In (scmd a) [STITCH; JUMP; TRIM; COLOR_CHANGE; STOP; END]) by (cbn [In] in *; tauto).
    pose proof (exec_approach pos _ a _ s1 done cut sewn px py Hh Ha' R1 F1 E1 (proj1 Hn)) as X.
    destruct (Z.eqb_spec (cmd_of (scmd a)) END) as [e0|_]; [destruct Hn; contradiction|].
    pose proof (IH e (pos + 1) s1 s' _ _ _ _ _ X Hb He R2 F2 E2) as Y. rewrite <- app_assoc in Y. exact Y.
Qed.
End Approach.

Section Whole.
Variables (qcos qsin : Q -> Q) (qorient : Q -> Q -> Q -> Q -> Q -> Q * Q).
Notation N := (QNum qcos qsin qorient).
Theorem encoded_approached : forall m (set : settings N) l threads o ths, resaving qcos qsin qorient m set -> s_full_jump N set = Some true -> walking m l -> sewn_first l ->
  transcode N set (mkP N (map back l) threads) = Ok (o, ths) -> Forall2 same_command o (approached true 0 0 l).
Proof.
  intros m set l threads o ths R Hj ((body & e & -> & He & Hb) & Hr) Hf E. unfold transcode in E.
  apply bind_ok in E. destruct E as (seq & _ & E). rewrite (r_change _ _ _ _ _ R) in E. cbn [Z.eqb] in E.
  change (COLOR_CHANGE =? NEEDLE_SET) with false in E. cbv iota zeta in E.
  apply bind_ok in E. destruct E as (s & E & E'). injection E' as <- <-. cbn [p_stitches] in E.
  refine (main_loop_approach qcos qsin qorient m (init_config N set) seq _ _ (r_change _ _ _ _ _ R) _ body e 0 (init_state N set) s [] true false 0 0 _ Hb He Hr (sewn_from _ Hf) E).
  - cbn [init_config rounding]. rewrite (r_round _ _ _ _ _ R). reflexivity.
  - cbn [init_config full_jump]. rewrite Hj. reflexivity.
  - destruct R as [R1 R2 R3 R4 R5 R6 (R7 & R8 & R9) R10]. constructor; cbn [init_state out nx ny trimmed order_index sequin_mode jumping high_flags max_stitch max_jump explicit_trim
      tie_on_contingency tie_off_contingency matrix]; try assumption; try reflexivity; try discriminate; try lia.
    + constructor.
    + destruct R5 as [-> | ->]; discriminate.
    + destruct R6 as [-> | ->]; discriminate.
    + unfold init_matrix. rewrite R7, R8, R9. reflexivity.
Qed.
End Whole.
