(** What the trim interpolation of the DST reader leaves: tidy lists with short steps. *)
From Coq Require Import ZArith QArith Qabs List Bool Lia.
From Verif Require Import PyBase EmbConst StreamModel StreamSpec StreamProofs PatternModel PatternSpec TrimProofs
  DstModel DstSpec DstProofs DstFileProofs DstFileModel DstFileSpec BitLemmas DstTrimProofs.
Import ListNotations.
Open Scope Z_scope.

(** Every step is short. *)
Fixpoint short (px py : Z) (l : list (stitch Z)) : Prop :=
  match l with
  | [] => True
  | s :: r => step_within 121 px py (sx s) (sy s) /\ short (sx s) (sy s) r
  end.
Lemma short_app : forall a b px py, short px py a -> short (fst (needle_after px py a)) (snd (needle_after px py a)) b -> short px py (a ++ b).
Proof. induction a as [|s a IH]; intros b px py H K; [exact K|]. cbn [app short needle_after] in *. destruct H as [H1 H2]. split; [exact H1|apply IH; assumption]. Qed.
Lemma short_cut : forall a b px py, short px py (a ++ b) -> short px py a.
Proof. induction a as [|s a IH]; intros b px py H; [exact I|]. cbn [app short] in *. destruct H as [H1 H2]. split; [exact H1|apply IH with b; assumption]. Qed.
Lemma needle_app : forall a b px py, needle_after px py (a ++ b) = needle_after (fst (needle_after px py a)) (snd (needle_after px py a)) b.
Proof. induction a as [|s a IH]; intros b px py; [reflexivity|]. cbn [app needle_after]. apply IH. Qed.

(** Jumps that do not lead back, and what follows them. *)
Definition away (x0 y0 : Z) (j : stitch Z) : Prop := scmd j = JUMP /\ ~ (sx j = x0 /\ sy j = y0).
Lemma tidy_run n tr x0 y0 T : forall J k px py, Forall (away x0 y0) J -> (tr = true \/ k + zlen J < n) ->
  tidy n tr (Some (k + zlen J, x0, y0)) (fst (needle_after px py J)) (snd (needle_after px py J)) T ->
  tidy n tr (Some (k, x0, y0)) px py (J ++ T).
Proof.
  induction J as [|j J IH]; intros k px py H Hk HT.
  - cbn [app needle_after fst snd] in *. unfold zlen in HT. cbn [length] in HT. rewrite Z.add_0_r in HT. exact HT.
  - apply Forall_cons_iff in H. destruct H as [[H1 H2] H]. rewrite zlen_cons in *. cbn [app tidy]. rewrite H1. cbv zeta.
    change ((cmd_of JUMP =? STITCH) || (cmd_of JUMP =? SEQUIN_EJECT)) with false.
    change ((cmd_of JUMP =? COLOR_CHANGE) || (cmd_of JUMP =? STOP)) with false. change (cmd_of JUMP =? TRIM) with false.
    change (cmd_of JUMP =? JUMP) with true. cbv iota. pose proof (zlen_nonneg J).
    split; [destruct Hk as [Hk|Hk]; [left; exact Hk|right; lia]|]. split; [exact H2|]. apply IH; [exact H| |].
    + destruct Hk as [Hk|Hk]; [left; exact Hk|right; lia].
    + cbn [needle_after] in HT. replace (k + 1 + zlen J) with (k + (1 + zlen J)) by lia. exact HT.
Qed.
(** What follows does not ask for the run. *)
Definition no_run (T : list (stitch Z)) : Prop :=
  match T with [] => True | s :: _ => In (scmd s) [STITCH; COLOR_CHANGE] end.
Lemma tidy_no_run n tr run run' px py px' py' T : no_run T -> tidy n tr run px py T -> tidy n tr run' px' py' T.
Proof.
  destruct T as [|s T]; [auto|]. cbn [no_run tidy]. intros H. cbn [In] in H. destruct H as [H|[H|[]]]; rewrite <- H; exact (fun X => X).
Qed.
Lemma tidy_from n tr x0 y0 T J : Forall (away x0 y0) J -> (tr = true \/ zlen J < n) -> no_run T ->
  tidy n tr None x0 y0 T -> tidy n tr None x0 y0 (J ++ T).
Proof.
  intros H Hk HT T0. destruct J as [|j J]; [exact T0|].
  assert (E : tidy n tr (Some (0, x0, y0)) x0 y0 ((j :: J) ++ T)).
  { apply tidy_run; [exact H|exact Hk|]. eapply tidy_no_run; [exact HT|exact T0]. }
  apply Forall_cons_iff in H. destruct H as [[H1 _] _]. cbn [app tidy] in *. rewrite H1 in *. exact E.
Qed.

(** In the middle of the work: [B] is settled, [J] is the run of jumps that may still go. *)
Record working (n : Z) (st : trim_state) (B J R : list (stitch Z)) (x y x0 y0 : Z) (tr : bool) : Prop := mkWorking {
  w_ss : r_ss st = map inj (B ++ J ++ R);
  w_i : r_i st = zlen B + zlen J - 1;
  w_ie : r_ie st = zlen B + zlen J + zlen R - 1;
  w_x : r_x st = inject_Z x;
  w_y : r_y st = inject_Z y;
  w_here : needle_after x0 y0 J = (x, y);
  w_there : needle_after 0 0 B = (x0, y0);
  w_tidy : forall T, tidy n tr None x0 y0 T -> tidy n true None 0 0 (B ++ T);
  w_short : short 0 0 (B ++ J);
  w_plain : Forall (fun a => In (scmd a) [STITCH; JUMP; TRIM; COLOR_CHANGE]) (B ++ J);
  w_away : Forall (away x0 y0) J;
  w_tr : r_trimmed st = tr;
  w_run : r_jumping st = true ->
    r_start st = zlen B /\ (r_dx st == inject_Z (x - x0))%Q /\ (r_dy st == inject_Z (y - y0))%Q /\
    zlen J <= r_count st /\ (tr = true \/ r_count st < n);
  w_rest : r_jumping st = false -> J = [] }.

Section Steps.
Variable n : Z.
Hypothesis Hn : 1 <= n.
Notation step := (trim_step (Some n) None true).
Notation loop := (trim_loop (Some n) None true).

Lemma w_jumps st B J R x y x0 y0 tr : working n st B J R x y x0 y0 tr -> tr = true \/ zlen J < n.
Proof.
  intros W. destruct (r_jumping st) eqn:E.
  - destruct (w_run _ _ _ _ _ _ _ _ _ _ W E) as (_ & _ & _ & H1 & [H2|H2]); [left; exact H2|right; lia].
  - rewrite (w_rest _ _ _ _ _ _ _ _ _ _ W E). unfold zlen. cbn. right. lia.
Qed.
Lemma w_fetch st B J s R x y x0 y0 tr : working n st B J (s :: R) x y x0 y0 tr ->
  py_index (r_i st + 1) (r_ss st) = Ok (inj s) /\ (r_i st <? r_ie st) = true.
Proof.
  intros W. rewrite (w_ss _ _ _ _ _ _ _ _ _ _ W), (w_i _ _ _ _ _ _ _ _ _ _ W), (w_ie _ _ _ _ _ _ _ _ _ _ W).
  pose proof (zlen_nonneg B). pose proof (zlen_nonneg J). pose proof (zlen_nonneg R).
  rewrite zlen_cons. split; [|apply Z.ltb_lt; lia]. rewrite app_assoc, map_app. cbn [map].
  apply py_index_app. unfold zlen. rewrite map_length, app_length. lia.
Qed.

(** A stitch or a colour change ends the run. *)
Lemma w_step_sew st B J s R x y x0 y0 tr : working n st B J (s :: R) x y x0 y0 tr ->
  In (scmd s) [STITCH; COLOR_CHANGE] -> step_within 121 x y (sx s) (sy s) ->
  exists st' tr', step st = Ok st' /\ working n st' (B ++ J ++ [s]) [] R (sx s) (sy s) (sx s) (sy s) tr'.
Proof.
  intros W Hs Hw. destruct (w_fetch _ _ _ _ _ _ _ _ _ _ W) as [F _]. pose proof (w_jumps _ _ _ _ _ _ _ _ _ W) as Hj.
  assert (X : exists tr', step st = Ok (mkTr (r_ss st) (r_i st + 1) (r_ie st) (inject_Z (sx s)) (inject_Z (sy s)) (r_count st) (r_start st) (r_dx st) (r_dy st) false tr') /\
     forall T, tidy n tr' None (sx s) (sy s) T -> tidy n tr None x0 y0 (s :: T)).
  { unfold trim_step. rewrite F. cbn [bindr of_int scmd sx sy tidy]. cbn [In] in Hs. destruct Hs as [Hs|[Hs|[]]]; rewrite <- Hs.
    - exists false. split; [reflexivity|]. intros T H. exact H.
    - exists true. split; [reflexivity|]. intros T H. exact H. }
  destruct X as (tr' & -> & X). eexists. exists tr'. split; [reflexivity|].
  destruct W as [E1 E2 E3 E4 E5 E6 E7 E8 E9 E10 E11 E12 E13 E14].
  constructor; cbn [r_ss r_i r_ie r_x r_y r_jumping r_trimmed r_start r_dx r_dy r_count]; try reflexivity; try discriminate; try (constructor; fail).
  - rewrite E1, <- !app_assoc. reflexivity.
  - rewrite !zlen_app. unfold zlen in *. cbn [length]. lia.
  - rewrite E3, !zlen_app, zlen_cons. unfold zlen in *. cbn [length]. lia.
  - rewrite app_assoc. apply needle_snoc.
  - intros T HT. rewrite <- !app_assoc. cbn [app]. apply E8. apply tidy_from; [exact E11|exact Hj|cbn [no_run]; exact Hs|]. apply X. exact HT.
  - rewrite app_nil_r, app_assoc. apply short_app; [exact E9|]. rewrite needle_app, E7. cbn [fst snd]. rewrite E6. cbn [fst snd short]. auto.
  - rewrite app_nil_r, app_assoc. apply Forall_app. split; [exact E10|]. constructor; [|constructor]. cbn [In] in *. tauto.
Qed.

(** A jump. *)
Lemma w_step_jump st B J s R x y x0 y0 tr : working n st B J (s :: R) x y x0 y0 tr ->
  scmd s = JUMP -> step_within 121 x y (sx s) (sy s) ->
  exists st' B' J' tr', step st = Ok st' /\ working n st' B' J' R (sx s) (sy s) x0 y0 tr'.
Proof.
  intros W Hs Hw. destruct (w_fetch _ _ _ _ _ _ _ _ _ _ W) as [F _].
  unfold trim_step. rewrite F. cbn [bindr of_int scmd sx sy]. rewrite Hs.
  change ((cmd_of JUMP =? STITCH) || (cmd_of JUMP =? SEQUIN_EJECT)) with false.
  change ((cmd_of JUMP =? COLOR_CHANGE) || (cmd_of JUMP =? NEEDLE_SET) || (cmd_of JUMP =? TRIM)) with false.
  change (cmd_of JUMP =? JUMP) with true. cbv iota.
  pose proof (w_run _ _ _ _ _ _ _ _ _ _ W) as Hrun. pose proof (w_rest _ _ _ _ _ _ _ _ _ _ W) as Hrest.
  assert (C : exists dx dy c, (if r_jumping st then (r_dx st, r_dy st, r_count st, r_start st) else (0%Q, 0%Q, 0, r_i st + 1)) = (dx, dy, c, zlen B) /\
     (dx == inject_Z (x - x0))%Q /\ (dy == inject_Z (y - y0))%Q /\ zlen J <= c /\ (tr = true \/ c < n)).
  { destruct (r_jumping st).
    - destruct (Hrun eq_refl) as (H1 & H2 & H3 & H4 & H5). rewrite H1. exists (r_dx st), (r_dy st), (r_count st). auto.
    - specialize (Hrest eq_refl). subst J. pose proof (w_here _ _ _ _ _ _ _ _ _ _ W) as K. cbn [needle_after] in K. injection K as -> ->.
      rewrite !Z.sub_diag. exists 0%Q, 0%Q, 0. split; [f_equal; rewrite (w_i _ _ _ _ _ _ _ _ _ _ W); unfold zlen; cbn [length]; lia|].
      split; [reflexivity|]. split; [reflexivity|]. unfold zlen. cbn [length]. split; [lia|right; lia]. }
  destruct C as (dx & dy & c & -> & D1 & D2 & D3 & D4). cbv zeta. rewrite orb_false_r.
  destruct W as [E1 E2 E3 E4 E5 E6 E7 E8 E9 E10 E11 E12 _ _].
  assert (Q0 : forall d (a b c : Z), (d == inject_Z (b - c) -> d + (inject_Z a - inject_Z b) == inject_Z (a - c))%Q).
  { intros d a b c0 ->. unfold Zminus. rewrite !inject_Z_plus, !inject_Z_opp. ring. }
  rewrite E4, E5. pose proof (Q0 _ (sx s) x x0 D1) as Dx. pose proof (Q0 _ (sy s) y y0 D2) as Dy. clear Q0.
  (* the trim *)
  assert (M : exists B1 tr1, (if negb (r_trimmed st) && (c + 1 =? n)
      then do ss <- trim_at (zlen B) (r_ss st); Ok (ss, zlen B + 1, r_i st + 1 + 1, r_ie st + 1, true)
      else Ok (r_ss st, zlen B, r_i st + 1, r_ie st, r_trimmed st))
    = Ok (map inj (B1 ++ J ++ s :: R), zlen B1, zlen B1 + zlen J, zlen B1 + zlen J + zlen R, tr1) /\
    needle_after 0 0 B1 = (x0, y0) /\ (forall T, tidy n tr1 None x0 y0 T -> tidy n true None 0 0 (B1 ++ T)) /\
    short 0 0 (B1 ++ J) /\ Forall (fun a => In (scmd a) [STITCH; JUMP; TRIM; COLOR_CHANGE]) (B1 ++ J) /\ (tr1 = true \/ c + 1 < n)).
  { rewrite E12. destruct (negb tr && (c + 1 =? n)) eqn:Et.
    - apply andb_true_iff in Et. destruct Et as [Et1 Et2]. apply negb_true_iff in Et1. subst tr. rewrite Et1 in *.
      exists (B ++ [mkS x0 y0 TRIM]), true. split; [|split; [|split; [|split; [|split]]]].
      + destruct (J ++ s :: R) as [|a T] eqn:EJ; [destruct J; discriminate EJ|].
        rewrite E1. rewrite ?EJ. destruct (trim_at_int B a T) as (xx & yy & Exy & ->). rewrite E7 in Exy. injection Exy as <- <-.
        cbn [bindr]. rewrite <- app_assoc. cbn [app]. rewrite zlen_cons in E3.
        assert (L1 : zlen (B ++ [mkS x0 y0 TRIM]) = zlen B + 1) by (rewrite zlen_app; reflexivity). rewrite L1.
        replace (r_i st + 1 + 1) with (zlen B + 1 + zlen J) by lia. replace (r_ie st + 1) with (zlen B + 1 + zlen J + zlen R) by lia. reflexivity.
      + apply needle_snoc.
      + intros T HT. rewrite <- app_assoc. cbn [app]. apply E8. cbn [tidy scmd sx sy].
        change ((cmd_of TRIM =? STITCH) || (cmd_of TRIM =? SEQUIN_EJECT)) with false.
        change ((cmd_of TRIM =? COLOR_CHANGE) || (cmd_of TRIM =? STOP)) with false. change (cmd_of TRIM =? TRIM) with true. cbv iota zeta. auto.
      + rewrite <- app_assoc. apply short_app; [exact (short_cut _ _ _ _ E9)|]. rewrite E7. cbn [fst snd app short sx sy]. split; [unfold step_within; lia|].
        clear - E9 E7. revert E9 E7. generalize 0 at 1 3. generalize 0. revert x0 y0. induction B as [|b B IH]; intros x0 y0 u v H K.
        * cbn [app needle_after] in *. injection K as -> ->. exact H.
        * cbn [app short needle_after] in *. destruct H as [_ H]. exact (IH _ _ _ _ H K).
      + rewrite <- app_assoc. apply Forall_app in E10. destruct E10 as [P1 P2]. apply Forall_app. split; [exact P1|]. constructor; [cbn; auto|exact P2].
      + left; reflexivity.
    - exists B, tr. split.
      { rewrite zlen_cons in E3. replace (r_i st + 1) with (zlen B + zlen J) by lia. replace (r_ie st) with (zlen B + zlen J + zlen R) by lia.
        rewrite E1. reflexivity. } split; [exact E7|]. split; [exact E8|]. split; [exact E9|]. split; [exact E10|].
      apply andb_false_iff in Et. destruct Et as [Et|Et]; [left; apply negb_false_iff in Et; exact Et|].
      apply Z.eqb_neq in Et. destruct D4 as [D4|D4]; [left; exact D4|right; lia]. }
  destruct M as (B1 & tr1 & -> & M1 & M2 & M3 & M4 & M5). clear E1 E2 E3 E7 E8 E9 E10. cbn [bindr andb].
  assert (Sh : short 0 0 (B1 ++ J ++ [s])).
  { rewrite app_assoc. apply short_app; [exact M3|]. rewrite needle_app, M1. cbn [fst snd]. rewrite E6. cbn [fst snd short]. auto. }
  assert (Pl : Forall (fun a => In (scmd a) [STITCH; JUMP; TRIM; COLOR_CHANGE]) (B1 ++ J ++ [s])).
  { rewrite app_assoc. apply Forall_app. split; [exact M4|]. constructor; [rewrite Hs; cbn; auto|constructor]. }
  destruct (Qeq_bool _ 0 && Qeq_bool _ 0) eqn:Ec.
  - (* back where the run began *)
    apply andb_true_iff in Ec. destruct Ec as [C1 C2]. apply Qeq_bool_iff in C1, C2.
    rewrite Dx in C1. rewrite Dy in C2. change 0%Q with (inject_Z 0) in C1, C2. apply (proj1 (inject_Z_injective _ _)) in C1, C2.
    assert (Ex : sx s = x0) by lia. assert (Ey : sy s = y0) by lia.
    assert (Hd : py_del (zlen B1) (zlen B1 + zlen J + 1) (map inj (B1 ++ J ++ s :: R)) = map inj (B1 ++ R)).
    { replace (J ++ s :: R) with ((J ++ [s]) ++ R) by (rewrite <- app_assoc; reflexivity). rewrite !map_app.
      apply py_del_app; unfold zlen; rewrite ?map_length, ?app_length, ?map_length; cbn [length map]; lia. }
    rewrite Hd. eexists. exists B1, [], tr1. split; [reflexivity|].
    constructor; cbn [r_ss r_i r_ie r_x r_y r_jumping r_trimmed r_start r_dx r_dy r_count]; try reflexivity; try discriminate; try (constructor; fail).
    + unfold zlen. cbn [length]. lia.
    + unfold zlen. rewrite map_length, app_length. cbn [length]. lia.
    + cbn [needle_after]. rewrite Ex, Ey. reflexivity.
    + exact M1.
    + exact M2.
    + rewrite app_nil_r. exact (short_cut _ _ _ _ M3).
    + rewrite app_nil_r. apply Forall_app in M4. exact (proj1 M4).
    + intros _. split; [reflexivity|]. split; [exact Dx|]. split; [exact Dy|]. pose proof (zlen_nonneg J). unfold zlen at 1. cbn [length].
      split; [lia|exact M5].
  - eexists. exists B1, (J ++ [s]), tr1. split; [reflexivity|].
    assert (Lz : zlen (J ++ [s]) = zlen J + 1) by (rewrite zlen_app; reflexivity).
    constructor; cbn [r_ss r_i r_ie r_x r_y r_jumping r_trimmed r_start r_dx r_dy r_count]; try reflexivity; try discriminate.
    + rewrite <- !app_assoc. reflexivity.
    + lia.
    + lia.
    + rewrite needle_app, E6. reflexivity.
    + exact M1.
    + exact M2.
    + exact Sh.
    + exact Pl.
    + apply Forall_app. split; [exact E11|]. constructor; [|constructor]. split; [exact Hs|]. intros [Ex Ey].
      rewrite <- not_true_iff_false in Ec. apply Ec. apply andb_true_iff. split; apply Qeq_bool_iff; [rewrite Dx, Ex|rewrite Dy, Ey]; rewrite Z.sub_diag; reflexivity.
    + intros _. split; [reflexivity|]. split; [exact Dx|]. split; [exact Dy|]. split; [lia|exact M5].
Qed.

Lemma w_loop e : scmd e = END -> forall R fuel st st' B J x y x0 y0 tr, working n st B J (R ++ [e]) x y x0 y0 tr ->
  Forall (fun a => In (scmd a) [STITCH; JUMP; COLOR_CHANGE]) R -> short x y R -> needle_after x y R = (sx e, sy e) ->
  loop fuel st = Ok st' ->
  exists body, r_ss st' = map inj (body ++ [e]) /\ short 0 0 (body ++ [e]) /\ tidy n true None 0 0 body /\
    Forall (fun a => In (scmd a) [STITCH; JUMP; TRIM; COLOR_CHANGE]) body /\ needle_after 0 0 body = (sx e, sy e).
Proof.
  intros He. induction R as [|s R IH]; intros fuel st st' B J x y x0 y0 tr W HR Hsh Hne E.
  - cbn [app needle_after] in *. injection Hne as Hx Hy. destruct (w_fetch _ _ _ _ _ _ _ _ _ _ W) as [F F'].
    assert (Er : r_ss st' = r_ss st).
    { destruct fuel as [|fuel]; cbn [trim_loop] in E; rewrite F' in E; [discriminate|].
      unfold trim_step in E. rewrite F in E. cbn [bindr of_int scmd sx sy] in E. rewrite He in E.
      change ((cmd_of END =? STITCH) || (cmd_of END =? SEQUIN_EJECT)) with false in E.
      change ((cmd_of END =? COLOR_CHANGE) || (cmd_of END =? NEEDLE_SET) || (cmd_of END =? TRIM)) with false in E. change (cmd_of END =? JUMP) with false in E.
      cbv iota in E. cbn [bindr] in E. destruct fuel; cbn [trim_loop r_i r_ie] in E;
        (destruct (Z.ltb_spec (r_i st + 1) (r_ie st)) as [L|L]; [rewrite (w_i _ _ _ _ _ _ _ _ _ _ W), (w_ie _ _ _ _ _ _ _ _ _ _ W) in L; unfold zlen in L; cbn [length] in L; lia|]);
        injection E as <-; reflexivity. }
    pose proof (w_jumps _ _ _ _ _ _ _ _ _ W) as Hj. destruct W as [E1 E2 E3 E4 E5 E6 E7 E8 E9 E10 E11 E12 E13 E14].
    assert (Nd : needle_after 0 0 (B ++ J) = (sx e, sy e)) by (rewrite needle_app, E7; cbn [fst snd]; rewrite E6, Hx, Hy; reflexivity).
    exists (B ++ J). split; [rewrite Er, E1, app_assoc; reflexivity|]. split; [|split; [|split; [exact E10|exact Nd]]].
    + apply short_app; [exact E9|]. rewrite Nd. cbn [fst snd short]. split; [unfold step_within; lia|exact I].
    + apply E8. rewrite <- (app_nil_r J). apply tidy_from; [exact E11|exact Hj|exact I|exact I].
  - apply Forall_cons_iff in HR. destruct HR as [Hs HR]. cbn [app short needle_after] in *. destruct Hsh as [Hw Hsh].
    destruct (w_fetch _ _ _ _ _ _ _ _ _ _ W) as [_ F']. destruct fuel as [|fuel]; cbn [trim_loop] in E; rewrite F' in E; [discriminate|].
    destruct (Z.eq_dec (scmd s) JUMP) as [Hj|Hj].
    + destruct (w_step_jump _ _ _ _ _ _ _ _ _ _ W Hj Hw) as (st1 & B1 & J1 & tr1 & E1 & W1). rewrite E1 in E. cbn [bindr] in E.
      exact (IH _ _ _ _ _ _ _ _ _ _ W1 HR Hsh Hne E).
    + destruct (w_step_sew _ _ _ _ _ _ _ _ _ _ W) as (st1 & tr1 & E1 & W1); [cbn [In] in *; intuition congruence|exact Hw|]. rewrite E1 in E. cbn [bindr] in E.
      exact (IH _ _ _ _ _ _ _ _ _ _ W1 HR Hsh Hne E).
Qed.

Theorem interpolated_tidy : forall body e fuel l', scmd e = END -> Forall (fun a => In (scmd a) [STITCH; JUMP; COLOR_CHANGE]) body ->
  short 0 0 body -> needle_after 0 0 body = (sx e, sy e) ->
  interpolate_trims (Some n) None true fuel (map inj (body ++ [e])) = Ok l' ->
  exists body', l' = map inj (body' ++ [e]) /\ short 0 0 (body' ++ [e]) /\ tidy n true None 0 0 body' /\
    Forall (fun a => In (scmd a) [STITCH; JUMP; TRIM; COLOR_CHANGE]) body' /\ needle_after 0 0 body' = (sx e, sy e).
Proof.
  intros body e fuel l' He Hb Hs Hne E. unfold interpolate_trims in E.
  destruct (trim_loop _ _ _ _ _) as [st'|] eqn:El; [|discriminate]. cbn [bindr] in E. injection E as <-.
  eapply (w_loop e He body fuel _ st' [] [] 0 0 0 0 true); try eassumption.
  constructor; cbn [r_ss r_i r_ie r_x r_y r_jumping r_trimmed app]; try reflexivity; try discriminate; try (constructor; fail).
  - unfold zlen. rewrite map_length. cbn [length]. lia.
  - intros T H. exact H.
Qed.
End Steps.
