(** The second encoding, command by command. *)
From Coq Require Import ZArith List Bool Lia ZifyBool.
From Verif Require Import PyBase EmbConst BitLemmas FunctionsModel FunctionsProofs ThreadModel NumModel MatrixModel EncoderModel
  EncoderProofs EncoderSpec EncoderFlowProofs EncodeAgainSpec EncodeAgainProofs EncodeAgainPlan.
Import ListNotations.
Open Scope Z_scope.

Section Second.
Context (N : Num).
Notation F := (F N).
Notation st := (st N).
Variables (ms mj : limit N).
(** Movements that need no intermediate stitches, seen from (x, y). *)
Definition short (x y : F) (a : stitch F) (l : limit N) : Prop :=
  exceeds N (fsub N (sx a) x) l = false /\ exceeds N (fsub N (sy a) y) l = false.
Fixpoint short_steps (x y : F) (l : list (stitch F)) : Prop :=
  match l with
  | [] => True
  | a :: r => (cmd_of (scmd a) = STITCH -> short x y a ms) /\ (cmd_of (scmd a) = STITCH \/ cmd_of (scmd a) = JUMP -> short x y a mj) /\
              short_steps (sx a) (sy a) r
  end.
Variable c : config.
Variable seq : dict change.
Variable threads : list thread.
Variable all : list (stitch F).
Notation ccs l := (filter is_cc (map scmd l)).
Hypothesis Hcc : thread_change_command c = COLOR_CHANGE.
Hypothesis Hfull : full_jump c = false.
Hypothesis Hround : rounding c = false.
Hypothesis Hspeed : writes_speeds c = true.
Hypothesis Hid : forall a, In a all -> point_in_matrix_space N (get_identity N) (sx a) (sy a) = (sx a, sy a).
Hypothesis Hplan0 : exists ch, dict_get 0 seq = Some ch /\ plan_same threads 0 ch None.
Hypothesis Hplan : forall j k, nth_error (ccs all) j = Some k ->
  exists ch, dict_get (1 + Z.of_nat j) seq = Some ch /\ plan_same threads (1 + Z.of_nat j) ch (Some k).
Hypothesis Hlen : length threads = S (length (ccs all)).

Definition order_of (any : bool) (pre : list (stitch F)) : Z := if any then Z.of_nat (length (ccs pre)) else -1.
Record Again (pre : list (stitch F)) (m : mon) (s : st) : Prop := mkAgain {
  a_out : out N s = pre;
  a_pos : endpos (f0 N) (f0 N) pre = (nx N s, ny N s);
  a_threads : othreads N s = map Own (firstn (Z.to_nat (order_of (m_any m) pre + 1)) threads);
  a_order : order_index N s = order_of (m_any m) pre;
  a_sewn : m_sewn m = true -> m_any m = true;
  a_start : m_any m = false -> ccs pre = [];
  a_trim : trimmed N s = negb (m_sewn m);
  a_mode : m_mode m = false;
  a_seq : sequin_mode N s = false;
  a_jump : jumping N s = false;
  a_ms : max_stitch N s = ms;
  a_mj : max_jump N s = mj;
  a_expl : explicit_trim N s = false;
  a_on : tie_on_contingency N s = CONTINGENCY_TIE_ON_NONE;
  a_off : tie_off_contingency N s = CONTINGENCY_TIE_OFF_NONE;
  a_mat : matrix N s = get_identity N }.

Lemma no_gap s x0 y0 a l k : short x0 y0 a l -> interpolate_gap_stitches N s x0 y0 (sx a) (sy a) l k = Ok s.
Proof. intros [H1 H2]. unfold interpolate_gap_stitches. destruct l; [|reflexivity]. rewrite H1, H2. reflexivity. Qed.
Lemma tie_on_none src pos s : tie_on_contingency N s = CONTINGENCY_TIE_ON_NONE -> tie_on N src pos s = s.
Proof. intros H. unfold tie_on. rewrite H. reflexivity. Qed.
Lemma tie_off_none src pos s : tie_off_contingency N s = CONTINGENCY_TIE_OFF_NONE -> tie_off N src pos s = s.
Proof. intros H. unfold tie_off. rewrite H. reflexivity. Qed.
Lemma close_none src pos s : tie_off_contingency N s = CONTINGENCY_TIE_OFF_NONE -> explicit_trim N s = false -> close_section N src pos s = s.
Proof. intros H E. unfold close_section. rewrite tie_off_none, E by exact H. destruct (negb _); reflexivity. Qed.
Lemma own_nth k : (k < length threads)%nat -> exists t, nth_error threads k = Some t /\ get_thread_or_filler threads (Z.of_nat k) = Own t.
Proof.
  intros H. destruct (nth_error threads k) as [t|] eqn:E; [|apply nth_error_None in E; lia].
  exists t. split; [reflexivity|]. unfold get_thread_or_filler. destruct (Z.leb_spec (Z.of_nat (length threads)) (Z.of_nat k)); [lia|].
  rewrite Nat2Z.id, E. reflexivity.
Qed.
Lemma firstn_snoc {A} (l : list A) k t : nth_error l k = Some t -> firstn (S k) l = firstn k l ++ [t].
Proof.
  revert l. induction k as [|k IH]; intros [|b l] H; try discriminate; cbn [nth_error firstn app] in *.
  - injection H as ->. reflexivity.
  - rewrite <- (IH l H). reflexivity.
Qed.
Lemma ccs_snoc (pre : list (stitch F)) (a : stitch F) : ccs (pre ++ [a]) = ccs pre ++ (if is_cc (scmd a) then [scmd a] else []).
Proof. rewrite map_app, filter_app. cbn [map filter]. reflexivity. Qed.


Lemma exec_again pre a post rest src pos m m' s :
  all = pre ++ a :: post -> Again pre m s ->
  mstep COLOR_CHANGE false true m (scmd a) = Some m' ->
  (m_any m = false -> cmd_of (scmd a) <> COLOR_CHANGE) ->
  trail (fst (endpos (f0 N) (f0 N) pre)) (snd (endpos (f0 N) (f0 N) pre)) (a :: post) ->
  short_steps (fst (endpos (f0 N) (f0 N) pre)) (snd (endpos (f0 N) (f0 N) pre)) (a :: post) ->
  exists s', exec N c seq src pos rest a (sx a) (sy a) (classify (cmd_of (scmd a))) (set_high N s (Z.land (scmd a) FLAGS_MASK)) = Ok s' /\
    Again (pre ++ [a]) m' s'.
Proof.
  intros Ea A Em Hany T Sh. destruct A as [A1 A2 A3 A4 A0 A5 A6 A7 A8 A9 B1 B2 B3 B4 B5 B6].
  rewrite A2 in T, Sh. cbn [fst snd trail short_steps] in T, Sh. destruct T as (T1 & T2 & _). destruct Sh as (S1 & S2 & _).
  set (s0 := set_high N s (Z.land (scmd a) FLAGS_MASK)).
  unfold mstep in Em. rewrite A7 in Em.
  assert (Pos : endpos (f0 N) (f0 N) (pre ++ [a]) = (sx a, sy a)) by apply endpos_snoc.
  destruct a as [ax ay k]. cbn [sx sy scmd] in *.
  destruct (Z.eqb_spec (cmd_of k) STITCH) as [Ek|Nst].
  { (* STITCH *)
    assert (W : Z.lor STITCH (Z.land k FLAGS_MASK) = k).
    { destruct T2 as [W|W]; [rewrite <- Ek; exact W|rewrite Ek in W; discriminate]. }
    specialize (S1 Ek). specialize (S2 (or_introl Ek)). injection Em as <-. rewrite Ek. change (classify STITCH) with OpStitch. cbn [exec].
    assert (Ncc : ccs (pre ++ [mkS ax ay k]) = ccs pre).
    { rewrite ccs_snoc. unfold is_cc. cbn [scmd]. rewrite Ek. apply app_nil_r. }
    destruct (trimmed N s0) eqn:Et.
    - (* opening a section *)
      unfold open_section, declare_not_trimmed.
      destruct (m_any m) eqn:Ma.
      + assert (Eo : order_index N s0 =? -1 = false).
        { change (order_index N s0) with (order_index N s). rewrite A4. unfold order_of. apply Z.eqb_neq. lia. }
        rewrite Eo. cbn [bindr]. unfold jump_to_within_stitchrange. rewrite Hfull.
        change (max_jump N (set_trimmed N s0 false)) with (max_jump N s). rewrite B2.
        change (nx N (set_trimmed N s0 false)) with (nx N s). change (ny N (set_trimmed N s0 false)) with (ny N s).
        pose proof (no_gap (set_trimmed N s0 false) (nx N s) (ny N s) (mkS ax ay k) mj JUMP S2) as G. cbn [sx sy] in G. rewrite G. cbn [bindr].
        eexists. split; [reflexivity|]. rewrite tie_on_none by exact B4.
        constructor; unfold stitch_at; unfold s0; attrs; try assumption; try reflexivity.
        * rewrite A1, W. reflexivity.
        * unfold order_of in *. cbn [m_any]. rewrite Ncc. exact A3.
        * unfold order_of in *. cbn [m_any]. rewrite Ncc. exact A4.
        * discriminate.
      + specialize (A5 eq_refl).
        assert (Eo : order_index N s0 =? -1 = true).
        { change (order_index N s0) with (order_index N s). rewrite A4. reflexivity. }
        rewrite Eo. unfold next_change_sequence. cbv zeta.
        change (order_index N (set_order N s0 (order_index N s0 + 1))) with (order_index N s + 1). rewrite A4.
        change (order_of false pre + 1) with 0.
        destruct Hplan0 as (ch & D0 & P1 & _). rewrite D0, Hcc. change (COLOR_CHANGE =? COLOR_CHANGE) with true. cbv iota.
        change (order_index N (add_thread N (set_order N s0 (order_index N s0 + 1)) (c_obj ch))) with (order_index N s + 1). rewrite A4.
        change (negb (order_of false pre + 1 =? 0)) with false. cbv iota. cbn [bindr].
        set (s1 := set_trimmed N (set_trimmed N _ true) false).
        unfold jump_to_within_stitchrange. rewrite Hfull.
        change (max_jump N s1) with (max_jump N s). rewrite B2.
        change (nx N s1) with (nx N s). change (ny N s1) with (ny N s).
        pose proof (no_gap s1 (nx N s) (ny N s) (mkS ax ay k) mj JUMP S2) as G. cbn [sx sy] in G. rewrite G. cbn [bindr].
        eexists. split; [reflexivity|]. rewrite tie_on_none by exact B4.
        constructor; unfold stitch_at; unfold s1, s0; attrs; try assumption; try reflexivity.
        * rewrite A1, W. reflexivity.
        * unfold s1, s0. attrs. rewrite A3, P1. unfold order_of. cbn [m_any]. rewrite Ncc, A5. cbn [length Z.of_nat Z.add Z.to_nat].
          change (Z.to_nat (-1 + 1)) with 0%nat. change (Pos.to_nat 1) with (S 0). change (Z.to_nat 1) with (S 0).
          destruct (own_nth 0 ltac:(lia)) as (t & E1 & E2). rewrite (firstn_snoc _ _ _ E1). change (Z.of_nat 0) with 0 in E2. rewrite E2, map_app. reflexivity.
        * unfold s1, s0. attrs. rewrite A4. unfold order_of. cbn [m_any]. rewrite Ncc, A5. reflexivity.
        * discriminate.
    - change (jumping N s0) with (jumping N s). rewrite A9. unfold stitch_with_contingency, sew_to, needle_to.
      change (max_stitch N s0) with (max_stitch N s). rewrite B1. change (nx N s0) with (nx N s). change (ny N s0) with (ny N s).
      pose proof (no_gap s0 (nx N s) (ny N s) (mkS ax ay k) ms STITCH S1) as G1.
      pose proof (no_gap s0 (nx N s) (ny N s) (mkS ax ay k) ms JUMP S1) as G2. cbn [sx sy] in G1, G2. rewrite G1, G2. cbn [bindr].
      exists (stitch_at N s0 ax ay). split; [destruct (_ =? _); [reflexivity|]; destruct (_ =? _); reflexivity|].
      assert (Sw : m_sewn m = true) by (change (trimmed N s0) with (trimmed N s) in Et; rewrite A6 in Et; destruct (m_sewn m); [reflexivity|discriminate]).
      constructor; unfold stitch_at; unfold s0; attrs; try assumption; try reflexivity.
      * rewrite A1, W. reflexivity.
      * unfold order_of in *. cbn [m_any]. rewrite (A0 Sw) in A3. rewrite Ncc. exact A3.
      * unfold order_of in *. cbn [m_any]. rewrite (A0 Sw) in A4. rewrite Ncc. exact A4.
      * discriminate. }
  destruct (Z.eqb_spec (cmd_of k) JUMP) as [Ek|Nj].
  { assert (W : Z.lor JUMP (Z.land k FLAGS_MASK) = k).
    { destruct T2 as [W|W]; [rewrite <- Ek; exact W|rewrite Ek in W; discriminate]. }
    assert (Ncc : ccs (pre ++ [mkS ax ay k]) = ccs pre).
    { rewrite ccs_snoc. unfold is_cc. cbn [scmd]. rewrite Ek. apply app_nil_r. }
    specialize (S2 (or_intror Ek)). injection Em as <-. rewrite Ek. change (classify JUMP) with OpJump. cbn [exec].
    change (jumping N s0) with (jumping N s). rewrite A9. unfold jump_to.
    change (max_jump N s0) with (max_jump N s). rewrite B2. change (nx N s0) with (nx N s). change (ny N s0) with (ny N s).
    pose proof (no_gap s0 (nx N s) (ny N s) (mkS ax ay k) mj JUMP S2) as G. cbn [sx sy] in G. rewrite G. cbn [bindr].
    eexists. split; [reflexivity|]. unfold jump_at. change (sequin_mode N s0) with (sequin_mode N s). rewrite A8.
    constructor; unfold s0; attrs; try assumption; try reflexivity.
    - rewrite A1, W. reflexivity.
    - unfold order_of in *. rewrite Ncc. exact A3.
    - unfold order_of in *. rewrite Ncc. exact A4.
    - rewrite Ncc. exact A5. }
  assert (Here : (ax, ay) = (nx N s, ny N s)).
  { destruct T1 as [[-> ->]|M]; [reflexivity|]. unfold moving in M. destruct M as [M|[M|M]]; try contradiction.
    rewrite M in Em. cbn [orb] in Em. destruct (m_sewn m); discriminate Em. }
  injection Here as -> ->.
  destruct (Z.eqb_spec (cmd_of k) TRIM) as [Ek|Nt].
  { assert (W : Z.lor TRIM (Z.land k FLAGS_MASK) = k).
    { destruct T2 as [W|W]; [rewrite <- Ek; exact W|rewrite Ek in W; discriminate]. }
    assert (Ncc : ccs (pre ++ [mkS (nx N s) (ny N s) k]) = ccs pre).
    { rewrite ccs_snoc. unfold is_cc. cbn [scmd]. rewrite Ek. apply app_nil_r. }
    destruct (m_sewn m) eqn:Sw; [|discriminate Em]. injection Em as <-. rewrite Ek. change (classify TRIM) with OpTrim. cbn [exec].
    eexists. split; [reflexivity|]. unfold tie_off_and_trim_if_needed. change (trimmed N s0) with (trimmed N s). rewrite A6. cbn [negb].
    rewrite tie_off_none by exact B5. unfold trim_here. change (sequin_mode N s0) with (sequin_mode N s). rewrite A8.
    constructor; unfold s0; attrs; try assumption; try reflexivity.
    - rewrite A1, W. reflexivity.
    - unfold order_of in *. cbn [m_any]. rewrite Ncc. exact A3.
    - unfold order_of in *. cbn [m_any]. rewrite Ncc. exact A4.
    - discriminate.
    - cbn [m_any]. rewrite Ncc. exact A5. }
  destruct (Z.eqb_spec (cmd_of k) STOP) as [Ek|Nst2].
  { assert (W : Z.lor STOP (Z.land k FLAGS_MASK) = k).
    { destruct T2 as [W|W]; [rewrite <- Ek; exact W|rewrite Ek in W; discriminate]. }
    assert (Ncc : ccs (pre ++ [mkS (nx N s) (ny N s) k]) = ccs pre).
    { rewrite ccs_snoc. unfold is_cc. cbn [scmd]. rewrite Ek. apply app_nil_r. }
    injection Em as <-. rewrite Ek. change (classify STOP) with OpStop. cbn [exec].
    eexists. split; [reflexivity|]. unfold stop_here.
    constructor; unfold s0; attrs; try assumption; try reflexivity.
    - rewrite A1, W. reflexivity.
    - unfold order_of in *. cbn [m_any]. rewrite Ncc. exact A3.
    - unfold order_of in *. cbn [m_any]. rewrite Ncc. exact A4.
    - discriminate.
    - cbn [m_any]. rewrite Ncc. exact A5. }
  destruct (Z.eqb_spec (cmd_of k) COLOR_CHANGE) as [Ek|Ncc0].
  { assert (Ma : m_any m = true) by (destruct (m_any m); [reflexivity|]; specialize (Hany eq_refl); contradiction).
    assert (Ncc : ccs (pre ++ [mkS (nx N s) (ny N s) k]) = ccs pre ++ [k]).
    { rewrite ccs_snoc. unfold is_cc. cbn [scmd]. rewrite Ek. reflexivity. }
    assert (Nk : nth_error (ccs all) (length (ccs pre)) = Some k).
    { rewrite Ea, map_app, filter_app, nth_error_app2 by lia. rewrite Nat.sub_diag. cbn [map filter]. unfold is_cc at 1. cbn [scmd]. rewrite Ek. reflexivity. }
    change (COLOR_CHANGE =? COLOR_CHANGE) with true in Em. cbv iota in Em. injection Em as <-.
    rewrite Ek. change (classify COLOR_CHANGE) with OpThreadChange. cbn [exec].
    unfold tie_off_trim_color_change. rewrite close_none by assumption. unfold next_change_sequence. cbv zeta.
    change (order_index N (set_order N s0 (order_index N s0 + 1))) with (order_index N s + 1).
    rewrite A4. unfold order_of. rewrite Ma. replace (Z.of_nat (length (ccs pre)) + 1) with (1 + Z.of_nat (length (ccs pre))) by lia.
    destruct (Hplan _ _ Nk) as (ch & D1 & P1 & P2). rewrite D1, Hcc. change (COLOR_CHANGE =? COLOR_CHANGE) with true. cbv iota.
    change (order_index N (add_thread N (set_order N s0 (order_index N s0 + 1)) (c_obj ch))) with (order_index N s + 1).
    rewrite A4. unfold order_of. rewrite Ma. destruct (Z.eqb_spec (Z.of_nat (length (ccs pre)) + 1) 0); [lia|]. cbn [negb bindr].
    eexists. split; [reflexivity|]. constructor; unfold s0; attrs; try assumption; try reflexivity.
    - rewrite A1, P2. reflexivity.
    - rewrite A3, P1. unfold order_of. cbn [m_any]. rewrite Ma, Ncc, app_length. cbn [length].
      assert (Lk : (length (ccs pre) < length (ccs all))%nat) by (apply nth_error_Some; rewrite Nk; discriminate).
      replace (Z.to_nat (Z.of_nat (length (ccs pre)) + 1)) with (S (length (ccs pre))) by lia.
      replace (Z.to_nat (Z.of_nat (length (ccs pre) + 1) + 1)) with (S (S (length (ccs pre)))) by lia.
      destruct (own_nth (S (length (ccs pre))) ltac:(lia)) as (t & E1 & E2). rewrite (firstn_snoc _ _ _ E1), map_app.
      replace (Z.of_nat (S (length (ccs pre)))) with (1 + Z.of_nat (length (ccs pre))) in E2 by lia. rewrite E2. reflexivity.
    - rewrite A4. unfold order_of. cbn [m_any]. rewrite Ma, Ncc, app_length. cbn [length]. lia.
    - discriminate.
    }
  destruct (Z.eqb_spec (cmd_of k) NEEDLE_SET); [discriminate Em|].
  destruct (Z.eqb_spec (cmd_of k) SEQUIN_MODE); [discriminate Em|].
  destruct (Z.eqb_spec (cmd_of k) SEQUIN_EJECT); [discriminate Em|].
  destruct ((cmd_of k =? SLOW) || (cmd_of k =? FAST)) eqn:Ek0; [|discriminate Em]. injection Em as <-.
  assert (W : Z.lor (cmd_of k) (Z.land k FLAGS_MASK) = k) by (destruct T2 as [W|W]; [exact W|contradiction]).
  assert (Ncc : ccs (pre ++ [mkS (nx N s) (ny N s) k]) = ccs pre).
  { rewrite ccs_snoc. unfold is_cc. cbn [scmd]. rewrite (proj2 (Z.eqb_neq _ _) Ncc0). apply app_nil_r. }
  exists (add N s0 (cmd_of k)). split.
  { apply orb_true_iff in Ek0. destruct Ek0 as [Ek|Ek]; apply Z.eqb_eq in Ek; rewrite Ek.
    - change (classify SLOW) with OpSlow. cbn [exec]. rewrite Hspeed. reflexivity.
    - change (classify FAST) with OpFast. cbn [exec]. rewrite Hspeed. reflexivity. }
  constructor; unfold s0; attrs; try assumption; try reflexivity.
  - rewrite A1, W. reflexivity.
  - unfold order_of in *. rewrite Ncc. exact A3.
  - unfold order_of in *. rewrite Ncc. exact A4.
  - rewrite Ncc. exact A5.
Qed.

Lemma short_app pre post : forall x y, short_steps x y (pre ++ post) ->
  short_steps (fst (endpos x y pre)) (snd (endpos x y pre)) post.
Proof. induction pre as [|b pre IH]; intros x y H; [exact H|]. cbn [app short_steps endpos] in *. apply IH, H. Qed.
Lemma loop_again : forall post pre e m mf s pos, all = pre ++ post ++ [e] -> Again pre m s ->
  mrun COLOR_CHANGE false true m (map scmd post) = Some mf -> cmd_of (scmd e) = END ->
  trail (f0 N) (f0 N) all -> short_steps (f0 N) (f0 N) all ->
  (forall p1 a p2, all = p1 ++ a :: p2 -> cmd_of (scmd a) = COLOR_CHANGE -> exists b, In b p1 /\ cmd_of (scmd b) = STITCH) ->
  (m_any m = false -> Forall (fun b => cmd_of (scmd b) <> STITCH) pre) ->
  exists s', main_loop N c seq all pos (post ++ [e]) s = Ok s' /\ out N s' = all /\
    othreads N s' = map Own (firstn (Z.to_nat (order_of (m_any mf) (pre ++ post) + 1)) threads).
Proof.
  induction post as [|a post IH]; intros pre e m mf s pos Ea A Em Ee T Sh Hop Hno.
  - cbn [map mrun] in Em. injection Em as <-. cbn [app] in Ea |- *. cbn [main_loop]. rewrite app_nil_r. rename e into a.
    destruct A as [A1 A2 A3 A4 A0 A5 A6 A7 A8 A9 B1 B2 B3 B4 B5 B6].
    unfold placed. rewrite B6, Hid, Hround by (rewrite Ea; apply in_or_app; right; left; reflexivity). cbn [bindr]. rewrite Ee. change (classify END) with OpEnd. cbn [exec bindr].
    change (END =? END) with true. cbv iota. eexists. split; [reflexivity|]. unfold end_here. attrs. split; [|exact A3].
    rewrite Ea in T. apply trail_app in T. destruct T as [_ T]. rewrite A2 in T. cbn [fst snd trail] in T. destruct T as (T1 & T2 & _).
    rewrite A1, Ea. destruct a as [ax ay k]. cbn [sx sy scmd] in *. f_equal.
    assert (W : Z.lor END (Z.land k FLAGS_MASK) = k).
    { destruct T2 as [W|W]; [rewrite <- Ee; exact W|rewrite Ee in W; discriminate]. }
    rewrite W. destruct T1 as [[-> ->]|[M|[M|M]]]; [reflexivity|rewrite Ee in M; discriminate..].
  - cbn [map mrun] in Em. destruct (mstep _ _ _ m (scmd a)) as [m'|] eqn:Es; [|discriminate]. cbn [app].
    cbn [main_loop]. pose proof (a_mat _ _ _ A) as B6. unfold placed. rewrite B6, Hid, Hround by (rewrite Ea; apply in_or_app; right; left; reflexivity). cbn [bindr].
    assert (Ea' : all = pre ++ a :: (post ++ [e])) by exact Ea.
    assert (T' := T). rewrite Ea' in T'. apply trail_app in T'. destruct T' as [_ T'].
    assert (Sh' : short_steps (fst (endpos (f0 N) (f0 N) pre)) (snd (endpos (f0 N) (f0 N) pre)) (a :: post ++ [e])).
    { rewrite Ea' in Sh. apply short_app in Sh. exact Sh. }
    destruct (exec_again pre a (post ++ [e]) (a :: post ++ [e]) all pos m m' s Ea' A Es) as (s' & Ex & A').
    { intros Ma E. destruct (Hop _ _ _ Ea' E) as (b & Hb & Sb). specialize (Hno Ma). rewrite Forall_forall in Hno. exact (Hno b Hb Sb). }
    { exact T'. }
    { exact Sh'. }
    rewrite Ex. cbn [bindr].
    assert (Ne : cmd_of (scmd a) =? END = false).
    { apply Z.eqb_neq. intros E. unfold mstep in Es. rewrite E in Es. discriminate Es. }
    rewrite Ne.
    replace (pre ++ a :: post) with ((pre ++ [a]) ++ post) by (rewrite <- app_assoc; reflexivity).
    apply (IH (pre ++ [a]) e m' mf s' (pos + 1)); try assumption.
    + rewrite Ea', <- app_assoc. reflexivity.
    + intros Ma. apply Forall_app. unfold mstep in Es.
      destruct (Z.eqb_spec (cmd_of (scmd a)) STITCH) as [E|NE]; [injection Es as <-; discriminate Ma|].
      split; [|constructor; [exact NE|constructor]]. apply Hno.
      repeat (match type of Es with (if ?b then _ else _) = _ => destruct b end; try discriminate Es; try (injection Es as <-; exact Ma)).
Qed.
End Second.

(** ** The monitor *)
Lemma step_relax seqs w m k m' : mstep COLOR_CHANGE seqs w m k = Some m' -> cmd_of k <> SEQUIN_MODE -> cmd_of k <> SEQUIN_EJECT ->
  mstep COLOR_CHANGE false true m k = Some m' /\ tame k /\ cmd_of k <> END /\
  m_changes m' = m_changes m ++ (if is_cc k then [k] else []).
Proof.
  unfold mstep, tame, is_cc. intros E N1 N2.
  destruct (Z.eqb_spec (cmd_of k) STITCH) as [->|]; [injection E as <-; cbn; rewrite app_nil_r; repeat split; discriminate|].
  destruct (Z.eqb_spec (cmd_of k) JUMP) as [->|]; [destruct (m_mode m); [discriminate|]; injection E as <-; cbn; rewrite app_nil_r; repeat split; discriminate|].
  destruct (Z.eqb_spec (cmd_of k) TRIM) as [->|]; [destruct (_ || _); [discriminate|]; injection E as <-; cbn; rewrite app_nil_r; repeat split; discriminate|].
  destruct (Z.eqb_spec (cmd_of k) STOP) as [->|]; [injection E as <-; cbn; rewrite app_nil_r; repeat split; discriminate|].
  destruct (Z.eqb_spec (cmd_of k) COLOR_CHANGE) as [->|]; [cbn in E |- *; injection E as <-; cbn; repeat split; discriminate|].
  destruct (Z.eqb_spec (cmd_of k) NEEDLE_SET); [discriminate|].
  destruct (Z.eqb_spec (cmd_of k) SEQUIN_MODE); [contradiction|]. destruct (Z.eqb_spec (cmd_of k) SEQUIN_EJECT); [contradiction|].
  destruct (_ || _) eqn:Es; [|discriminate]. destruct w; [|discriminate]. injection E as <-. rewrite app_nil_r.
  apply orb_true_iff in Es. destruct Es as [Es|Es]; apply Z.eqb_eq in Es; rewrite Es; repeat split; discriminate.
Qed.
Lemma run_relax seqs w : forall l m m', mrun COLOR_CHANGE seqs w m l = Some m' ->
  Forall (fun k => cmd_of k <> SEQUIN_MODE /\ cmd_of k <> SEQUIN_EJECT) l ->
  mrun COLOR_CHANGE false true m l = Some m' /\ Forall tame l /\ m_changes m' = m_changes m ++ filter is_cc l.
Proof.
  induction l as [|k l IH]; intros m m' E F; cbn [mrun filter] in *.
  - injection E as <-. rewrite app_nil_r. auto.
  - inversion F as [|? ? [N1 N2] Fr]; subst. destruct (mstep COLOR_CHANGE seqs w m k) as [m1|] eqn:Es; [|discriminate].
    destruct (step_relax _ _ _ _ _ Es N1 N2) as (A & B & _ & D). rewrite A. destruct (IH _ _ E Fr) as (A1 & B1 & D1).
    split; [exact A1|]. split; [constructor; assumption|]. rewrite D1, D, <- app_assoc. destruct (is_cc k); reflexivity.
Qed.
Lemma numbered_changes seq : (forall j ch, dict_get j seq = Some ch -> numbered_change j ch) ->
  forall chs k, (forall i ch, nth_error chs i = Some ch -> dict_get (k + Z.of_nat i) seq = Some ch) ->
  numbered k (map (enc COLOR_CHANGE) chs).
Proof.
  intros Hs. induction chs as [|ch chs IH]; intros k H; [exact I|]. cbn [map numbered]. split.
  - pose proof (H 0%nat ch eq_refl) as G. replace (k + Z.of_nat 0) with k in G by lia. destruct (Hs _ _ G) as [<- R].
    exists (c_needle ch). split; [exact R|reflexivity].
  - apply IH. intros i c' E. specialize (H (S i) c' E). replace (k + 1 + Z.of_nat i) with (k + Z.of_nat (S i)) by lia. exact H.
Qed.

Section Both.
Context (N : Num).
Variable good : F N -> Prop.
Hypothesis Hgood0 : good (f0 N).
Hypothesis Hadd : forall a b, good (fadd N a b).
Hypothesis Hrnd : forall a b, good a -> fround N a = Ok b -> good b.
Hypothesis Hlock : forall a b, good a -> towards N a b (f0 N) = a.
Hypothesis Hid : forall x y, good x -> good y -> point_in_matrix_space N (get_identity N) x y = (x, y).
Lemma encode_again (set set2 : settings N) p o ths threads :
  transcode N set p = Ok (o, ths) -> ordinary set -> no_tie_commands (p_stitches N p) -> leaves_threads_open (p_stitches N p) ->
  opens_with_stitch o -> no_sequins o -> count_cmd COLOR_CHANGE o <= 254 ->
  asks_nothing set2 ->
  short_steps N (get (s_max_stitch N set2) (Inf N)) (get (s_max_jump N set2) (Inf N)) (f0 N) (f0 N) o ->
  length threads = length ths -> transcode N set2 (mkP N o threads) = Ok (o, map Own threads).
Proof.
  intros E O Ht Ho Hop Hns Hcount A Sh Hlen.
  assert (Ecc : thread_change_command (init_config N set) = COLOR_CHANGE).
  { cbn [init_config thread_change_command]. destruct (or_change _ O) as [-> | ->]; cbn [get]; rewrite andb_false_r; reflexivity. }
  assert (Enc : 1 <= needle_count (init_config N set) <= 254).
  { cbn [init_config needle_count]. destruct (or_needles _ O) as [->|(n & -> & R)]; cbn [get]; lia. }
  assert (Tr0 : trail (f0 N) (f0 N) o /\ Forall (gs N good) o).
  { apply (encoded_trail N good set p o ths Hgood0 Hadd Hrnd Hlock Ecc); [|exact E]. cbn [init_state sequin_contingency].
    destruct (or_sequins _ O) as [->|(v & -> & R)]; cbn [get]; [|exact R].
    destruct (s_strip_sequins N set) as [[|]|]; unfold sequin_known; cbv beta iota; tauto. }
  destruct Tr0 as [Tr Gs].
  destruct (transcode_inv N set p o ths E) as (seq & body & e & s1 & m & Eb & Eo & He & Hi & Eout & Eths).
  rewrite Ecc in Eb. rewrite is_cmd_of in He. apply Z.eqb_eq in He.
  assert (Nt : has_ties N (p_stitches N p) = false).
  { destruct (has_ties N (p_stitches N p)) eqn:Et; [|reflexivity]. unfold has_ties in Et.
    apply existsb_exists in Et. destruct Et as (a & Ha & Hb). unfold no_tie_commands in Ht. rewrite Forall_forall in Ht.
    destruct (Ht a Ha) as [X Y]. rewrite X, Y in Hb. discriminate. }
  rewrite Nt in Hi.
  pose proof (i_run _ _ _ _ _ _ _ _ Hi) as R. unfold cmds in R. rewrite Eout, Ecc in R.
  assert (Fb : Forall (fun k => cmd_of k <> SEQUIN_MODE /\ cmd_of k <> SEQUIN_EJECT) (map scmd body)).
  { unfold no_sequins in Hns. rewrite Eo in Hns. apply Forall_app in Hns. destruct Hns as [Hns _].
    apply Forall_map. eapply Forall_impl; [|exact Hns]. intros a [X Y]. rewrite is_cmd_of in X, Y.
    apply Z.eqb_neq in X, Y. auto. }
  destruct (run_relax _ _ _ _ _ R Fb) as (R2 & Tm & Ech). cbn [mon0 m_changes app] in Ech.
  assert (Ecs : filter is_cc (map scmd o) = filter is_cc (map scmd body)).
  { rewrite Eo, map_app, filter_app. cbn [map filter]. unfold is_cc at 2. rewrite He. apply app_nil_r. }
  assert (Any : m_any m = true).
  { pose proof (run_means _ _ _ _ [] mon0 m (means_nil _ _ _) R) as M. cbn [app] in M. destruct M as (_ & _ & M3 & _).
    apply M3. unfold sews. destruct Hop as (p1 & a & p2 & Ep & Sa & _). rewrite Eo in Ep.
    destruct (snoc_split _ body e p1 a p2 Ep) as [(p2' & Eb')|(-> & _)]; [rewrite Eb'|].
    - apply Exists_app. right. left. left. exact Sa.
    - rewrite is_cmd_of, He in Sa. discriminate. }
  pose proof (i_any _ _ _ _ _ _ _ _ Hi eq_refl Any) as Ord.
  destruct (i_plan _ _ _ _ _ _ _ _ Hi) as (chs & L & Pn & P1 & _). destruct (P1 Ecc) as [T1 C1]. clear P1.
  assert (Hb : start_threads N set (p_threads N p) = []) by (unfold start_threads; rewrite Ecc; reflexivity).
  rewrite Hb in T1. cbn [app] in T1. destruct chs as [|c0 chs]; [cbn [length] in L; lia|]. cbn [tl] in C1.
  assert (Num : numbered 1 (filter is_cc (map scmd o))).
  { rewrite Ecs, <- Ech, C1. apply (numbered_changes seq).
    - eapply first_plan; [exact Enc|exact Ho|exact Eb].
    - intros i ch Hc. specialize (Pn (S i) ch Hc). replace (1 + Z.of_nat i) with (Z.of_nat (S i)) by lia. exact Pn. }
  assert (Lth : length threads = S (length (filter is_cc (map scmd o)))).
  { rewrite Hlen, Eths, T1, Ecs, <- Ech, C1, !map_length. reflexivity. }
  destruct Hop as (pre & a & post & Ep & Sa & Fp). rewrite is_cmd_of in Sa. apply Z.eqb_eq in Sa.
  assert (Ec2 : thread_change_command (init_config N set2) = COLOR_CHANGE).
  { cbn [init_config thread_change_command]. destruct (an_change _ A) as [-> | ->]; cbn [get]; rewrite andb_false_r; reflexivity. }
  rewrite transcode_unfold. cbn [p_stitches p_threads]. rewrite Ec2.
  destruct (second_plan COLOR_CHANGE (needle_count (init_config N set2)) threads (map scmd o) (map scmd pre) (scmd a) (map scmd post))
    as (seq2 & E2 & Q0 & Q1).
  { cbn [init_config needle_count]. destruct (an_needles _ A) as [->|(n & -> & Rn)]; cbn [get]; lia. }
  { rewrite Ep, map_app. reflexivity. }
  { rewrite Eo, map_app. apply Forall_app. split; [exact Tm|]. constructor; [|constructor]. unfold tame. rewrite He. repeat split; discriminate. }
  { exact Sa. }
  { apply Forall_map. eapply Forall_impl; [|exact Fp]. intros b Hb0. cbv beta in Hb0 |- *. rewrite is_cmd_of in Hb0. apply Z.eqb_neq, Hb0. }
  { exact Num. }
  { unfold count_cmd in Hcount.
    replace (length (filter is_cc (map scmd o))) with (length (filter (is_cmd COLOR_CHANGE) o)); [exact Hcount|].
    clear. induction o as [|b l IH]; [reflexivity|]. cbn [map filter]. unfold is_cc at 1. rewrite is_cmd_of.
    destruct (_ =? _); cbn [length]; rewrite IH; reflexivity. }
  rewrite E2. cbn [bindr].
  destruct (loop_again N (get (s_max_stitch N set2) (Inf N)) (get (s_max_jump N set2) (Inf N)) (init_config N set2) seq2 threads o)
    with (post := body) (pre := @nil (stitch (F N))) (e := e) (m := mon0) (mf := m) (s := start N set2 threads) (pos := 0) as (s' & El & Os & Ts); try assumption.
  { cbn. destruct (an_full _ A) as [-> | ->]; reflexivity. }
  { cbn. destruct (an_round _ A) as [-> | ->]; reflexivity. }
  { cbn. destruct (an_speeds _ A) as [-> | ->]; reflexivity. }
  { intros b Hb0. rewrite Forall_forall in Gs. destruct (Gs b Hb0). apply Hid; assumption. }
  { unfold start. rewrite Ec2. change (COLOR_CHANGE =? NEEDLE_SET) with false. cbv iota.
    constructor; cbn [init_state out othreads nx ny order_index trimmed sequin_mode jumping max_stitch max_jump explicit_trim
      tie_on_contingency tie_off_contingency matrix mon0 m_sewn m_any m_mode]; try reflexivity; try discriminate.
    - destruct (an_trim _ A) as [-> | ->]; reflexivity.
    - destruct (an_on _ A) as [-> | ->]; reflexivity.
    - destruct (an_off _ A) as [-> | ->]; reflexivity.
    - unfold init_matrix. rewrite (an_translate _ A), (an_scale _ A), (an_rotate _ A). reflexivity. }
  { intros p1 b p2 Eb2 Cb. exists a. split; [|exact Sa]. rewrite Ep in Eb2.
    destruct (app_eq_app _ _ _ _ Eb2) as (l & [(-> & El)|(-> & El)]).
    - destruct l as [|x l]; cbn [app] in El.
      + injection El as -> ->. rewrite Sa in Cb. discriminate.
      + injection El as <- ->. rewrite Forall_forall in Fp. assert (Hin : In b (p1 ++ b :: l)) by (apply in_or_app; right; left; reflexivity).
        specialize (Fp b Hin). rewrite is_cmd_of, Cb in Fp. discriminate.
    - destruct l as [|x l]; cbn [app] in El.
      + injection El as -> ->. rewrite Sa in Cb. discriminate.
      + injection El as <- ->. apply in_or_app. right. left. reflexivity. }
  { constructor. }
  rewrite <- Eo in El. cbn [app] in El. rewrite El. cbn [bindr]. rewrite Os, Ts. f_equal. f_equal. f_equal.
  cbn [app]. unfold order_of. rewrite Any. rewrite Ecs in Lth. rewrite firstn_all2 by lia. reflexivity.
Qed.
End Both.
