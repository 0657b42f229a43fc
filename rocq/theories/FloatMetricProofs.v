(** Step lengths of the encoder's output on floats. *)
From Coq Require Import ZArith Reals List Bool Lia Lra.
From Flocq Require Import Core.
From Verif Require Import PyBase EmbConst StreamModel StreamSpec StreamProofs FunctionsModel ThreadModel NumModel MatrixModel EncoderModel
  BitLemmas EncoderProofs MetricSpec EncoderMetricProofs QuantProofs FloatModel FloatSpec FloatProofs.
Import ListNotations.
Open Scope R_scope.

Notation b2 := (bpow radix2).
Lemma b2_m22 : b2 (-22) = / 4194304. Proof. reflexivity. Qed.
Lemma b2_m21 : b2 (-21) = / 2097152. Proof. reflexivity. Qed.
Lemma b2_m32 : b2 (-32) = / 4294967296. Proof. reflexivity. Qed.
Lemma b2_m40 : b2 (-40) = / 1099511627776. Proof. reflexivity. Qed.
Lemma b2_m43 : b2 (-43) = / 8796093022208. Proof. reflexivity. Qed.
Lemma b2_20 : b2 20 = 1048576. Proof. reflexivity. Qed.
Lemma b2_21 : b2 21 = 2097152. Proof. reflexivity. Qed.
Lemma b2_22 : b2 22 = 4194304. Proof. reflexivity. Qed.
Lemma b2_11 : b2 11 = 2048. Proof. reflexivity. Qed.

Lemma whole_Z : forall n, whole (IZR n). Proof. intros n. exists n. reflexivity. Qed.
Lemma whole_add : forall a b, whole a -> whole b -> whole (a + b).
Proof. intros a b [x ->] [y ->]. exists (x + y)%Z. rewrite plus_IZR. reflexivity. Qed.
Lemma whole_opp : forall a, whole a -> whole (- a).
Proof. intros a [x ->]. exists (- x)%Z. rewrite opp_IZR. reflexivity. Qed.
Lemma rnd_whole : forall x, whole x -> Rabs x <= b2 53 -> rnd x = x.
Proof. intros x [n ->] H. apply rnd_Z. apply le_IZR. rewrite abs_IZR. exact H. Qed.

(** ** Allowed steps and their quantisation *)
Section Step.
Variable m : Z.
Hypothesis Hm : (1 <= m <= 2047)%Z.

Lemma m_real : 1 <= IZR m <= 2047.
Proof. split; apply IZR_le; lia. Qed.

(** To a whole coordinate, at most m and a quarter; elsewhere a little less than m. *)
Definition fstep (a b : R) : Prop := (whole b /\ Rabs (b - a) <= IZR m + / 4) \/ Rabs (b - a) <= IZR m - b2 (-22).
Lemma fstep_refl : forall a, fstep a a.
Proof.
  intros a. right. replace (a - a) with 0 by ring. rewrite Rabs_R0. pose proof m_real. rewrite b2_m22. lra.
Qed.
Lemma fstep_eq : forall a b, b = a -> fstep a b.
Proof. intros a b ->. apply fstep_refl. Qed.

Definition fnear (x : R) (xx : Z) : Prop := Rabs (x - IZR xx) <= / 2 + b2 (-40) /\ (whole x -> x = IZR xx).
Lemma fnear_0 : fnear 0 0.
Proof.
  split; [replace (0 - 0) with 0 by ring; rewrite Rabs_R0, b2_m40; lra|reflexivity].
Qed.

Lemma fnear_far : forall x xx x', fnear x xx -> fstep x x' -> Rabs (x' - IZR xx) <= b2 11.
Proof.
  intros x xx x' [N _] F. pose proof m_real as M. rewrite b2_11. rewrite b2_m40 in N.
  assert (Rabs (x' - x) <= IZR m + / 4).
  { destruct F as [[_ F]|F]; [exact F|]. rewrite b2_m22 in F. lra. }
  apply Rabs_le_inv in N, H. apply Rabs_le. lra.
Qed.
Lemma fnear_next : forall x xx x', fnear x xx -> fstep x x' -> fnear x' (xx + qz_f x' xx).
Proof.
  intros x xx x' N F. pose proof (fnear_far x xx x' N F) as B. split.
  - eapply Rle_trans; [apply (qz_near 11); [lia|exact B]|]. change (11 - 54)%Z with (-43)%Z. rewrite b2_m43, b2_m40. lra.
  - intros [n ->]. rewrite qz_whole; [f_equal; lia|]. apply le_IZR. rewrite abs_IZR, minus_IZR. eapply Rle_trans; [exact B|].
    change (IZR (2 ^ 53)) with (b2 53). apply bpow_le. lia.
Qed.
Lemma fnear_stay : forall x xx, fnear x xx -> whole x -> qz_f x xx = 0%Z.
Proof. intros x xx [_ N] W. rewrite (N W). rewrite qz_whole; [lia|]. rewrite Z.sub_diag. cbn. lia. Qed.
Lemma fnear_step : forall x xx x', fnear x xx -> fstep x x' -> (- m <= qz_f x' xx <= m)%Z.
Proof.
  intros x xx x' N F. pose proof (fnear_far x xx x' N F) as B. pose proof m_real as M. destruct N as [N _].
  destruct F as [[[n ->] F]|F].
  - rewrite qz_whole.
    + assert (Rabs (IZR (n - xx)) < IZR (m + 1)).
      { rewrite minus_IZR, plus_IZR. rewrite b2_m40 in N. apply Rabs_le_inv in N, F. apply Rabs_def1; lra. }
      rewrite <- abs_IZR in H. apply lt_IZR in H. lia.
    + apply le_IZR. rewrite abs_IZR, minus_IZR. eapply Rle_trans; [exact B|].
      change (IZR (2 ^ 53)) with (b2 53). apply bpow_le. lia.
  - unfold qz_f. apply near_abs. pose proof (rnd_err 11 _ ltac:(lia) B) as E. change (11 - 54)%Z with (-43)%Z in E.
    rewrite b2_m43 in E. rewrite b2_m22 in F. rewrite b2_m40 in N. apply Rabs_le_inv in N, F, E. apply Rabs_def1; lra.
Qed.

(** The commands of [l] one allowed step after the other; those that do not move the needle stay at a whole position. *)
Fixpoint fwalk (x y : R) (l : list (stitch R)) : Prop :=
  match l with
  | [] => True
  | s :: r => (fstep x (sx s) /\ fstep y (sy s) /\ (travels (scmd s) \/ (sx s = x /\ sy s = y /\ whole x /\ whole y)))
              /\ fwalk (sx s) (sy s) r
  end.
Lemma fwalk_app : forall a b x y,
  fwalk x y (a ++ b) <-> fwalk x y a /\ fwalk (fst (end_pos x y a)) (snd (end_pos x y a)) b.
Proof.
  clear Hm. induction a as [|s a IH]; intros b x y.
  - cbn [app fwalk end_pos fst snd]. tauto.
  - cbn [app fwalk end_pos]. rewrite IH. tauto.
Qed.
Lemma fwalk_written : forall l x y xx yy, fwalk x y l -> fnear x xx -> fnear y yy ->
  iwalk m xx yy (apply_rel xx yy (quantise qz_f xx yy l)).
Proof.
  induction l as [|s l IH]; intros x y xx yy W Nx Ny; [exact I|].
  cbn [quantise apply_rel iwalk sx sy scmd fwalk] in *. destruct W as [(Gx & Gy & T) W].
  pose proof (fnear_step _ _ _ Nx Gx) as Bx. pose proof (fnear_step _ _ _ Ny Gy) as By.
  split; [unfold step_within; lia|]. split.
  - destruct T as [T|(Ex & Ey & Wx & Wy)]; [left; exact T|right].
    rewrite Ex, Ey, (fnear_stay _ _ Nx Wx), (fnear_stay _ _ Ny Wy). lia.
  - apply (IH (sx s) (sy s)); [exact W|exact (fnear_next _ _ _ Nx Gx)|exact (fnear_next _ _ _ Ny Gy)].
Qed.

(** ** Filling gaps *)
(** Whole and at most 2^20. *)
Definition place (x : R) : Prop := whole x /\ Rabs x <= b2 20.
Lemma place_0 : place 0.
Proof. split; [apply (whole_Z 0)|rewrite Rabs_R0; apply bpow_ge_0]. Qed.
Lemma place_f64 : forall x, place x -> f64 x.
Proof.
  intros x [[n ->] B]. apply f64_Z. apply le_IZR. rewrite abs_IZR. eapply Rle_trans; [exact B|].
  change (IZR (2 ^ 53)) with (b2 53). apply bpow_le. lia.
Qed.
Lemma place_diff : forall u v, place u -> place v -> exists d, v - u = IZR d /\ rnd (v - u) = IZR d /\ (Z.abs d <= 2 ^ 21)%Z.
Proof.
  intros u v [[a ->] A] [[b ->] B]. exists (b - a)%Z. rewrite minus_IZR. split; [reflexivity|].
  rewrite <- !minus_IZR. rewrite b2_20 in *. rewrite <- abs_IZR in *. apply le_IZR in A, B.
  split; [apply rnd_Z; lia|lia].
Qed.

(** Division rounded: a quotient above the step count by any amount is above it by 2^-11 at least. *)
Lemma quot_fits : forall d l n, (Z.abs d <= 2 ^ 21)%Z -> 1 <= l <= IZR m -> (0 <= n <= 2 ^ 21)%Z ->
  Rabs (rnd (IZR d / l)) <= IZR n -> (Z.abs d <= n * m)%Z.
Proof.
  intros d l n Hd Hl Hn H. destruct (Z_le_gt_dec (Z.abs d) (n * m)) as [L|G]; [exact L|exfalso].
  assert (G1 : (n * m + 1 <= Z.abs d)%Z) by lia. apply IZR_le in G1. rewrite plus_IZR, mult_IZR in G1.
  assert (R1 : Rabs (rnd (IZR d / l)) = rnd (Rabs (IZR d) / l)).
  { unfold Rdiv, Rabs. destruct (Rcase_abs (IZR d)).
    - replace (IZR d * / l) with (- (- IZR d * / l)) by ring. rewrite rnd_opp.
      assert (0 <= rnd (- IZR d * / l)).
      { rewrite <- rnd_0. apply rnd_le. apply Rmult_le_pos; [lra|]. apply Rlt_le, Rinv_0_lt_compat. lra. }
      destruct (Rcase_abs _); lra.
    - assert (0 <= rnd (IZR d * / l)).
      { rewrite <- rnd_0. apply rnd_le. apply Rmult_le_pos; [lra|]. apply Rlt_le, Rinv_0_lt_compat. lra. }
      destruct (Rcase_abs _); lra. }
  rewrite R1 in H. rewrite <- abs_IZR in H.
  assert (Q1 : IZR n + / 2048 <= IZR (Z.abs d) / l).
  { apply Rmult_le_reg_r with l; [lra|]. unfold Rdiv. rewrite Rmult_assoc, Rinv_l by lra.
    pose proof m_real as M. assert (N0 : 0 <= IZR n) by (apply IZR_le; lia). nra. }
  apply rnd_le in Q1. rewrite rnd_f64 in Q1; [lra|].
  replace (IZR n + / 2048) with (IZR (n * 2048 + 1) * b2 (-11)).
  - apply f64_digits; lia.
  - rewrite plus_IZR, mult_IZR. change (b2 (-11)) with (/ 2048). lra.
Qed.

(** One step length: exactly m between whole positions, or less than m by at least 2^-21 and rounding. *)
Definition pace (d : R) : Prop := Rabs d = IZR m \/ Rabs d <= IZR m - b2 (-21) + b2 (-43).
Lemma pace_of : forall d n, (Z.abs d <= n * m)%Z -> (1 <= n <= 2 ^ 21)%Z ->
  pace (rnd (IZR d / IZR n)) /\ Rabs (rnd (IZR d / IZR n) - IZR d / IZR n) <= b2 (-43).
Proof.
  intros d n Hd Hn. pose proof m_real as M.
  assert (N1 : 1 <= IZR n) by (apply IZR_le; lia).
  assert (B : Rabs (IZR d / IZR n) <= IZR m).
  { unfold Rdiv. rewrite Rabs_mult, (Rabs_pos_eq (/ IZR n)) by (apply Rlt_le, Rinv_0_lt_compat; lra).
    apply Rmult_le_reg_r with (IZR n); [lra|]. rewrite Rmult_assoc, Rinv_l, Rmult_1_r by lra.
    rewrite <- abs_IZR, <- mult_IZR. apply IZR_le. lia. }
  assert (E : Rabs (rnd (IZR d / IZR n) - IZR d / IZR n) <= b2 (-43)).
  { change (-43)%Z with (11 - 54)%Z. apply rnd_err; [lia|]. rewrite b2_11. lra. }
  split; [|exact E].
  destruct (Z.eq_dec (Z.abs d) (n * m)) as [Q|Q].
  - left. assert (X : exists k, IZR d / IZR n = IZR k /\ Z.abs k = m).
    { exists (Z.sgn d * m)%Z. split.
      - rewrite <- (Z.abs_sgn d) at 1. rewrite Q, !mult_IZR. field. lra.
      - assert (0 < n * m)%Z by (apply Z.mul_pos_pos; lia). rewrite Z.abs_mul. destruct d; cbn [Z.sgn Z.abs] in *; lia. }
    destruct X as (k & -> & Ek). rewrite rnd_Z by lia. rewrite <- abs_IZR, Ek. reflexivity.
  - right. assert (B' : Rabs (IZR d / IZR n) <= IZR m - b2 (-21)).
    { unfold Rdiv. rewrite Rabs_mult, (Rabs_pos_eq (/ IZR n)) by (apply Rlt_le, Rinv_0_lt_compat; lra).
      apply Rmult_le_reg_r with (IZR n); [lra|]. rewrite Rmult_assoc, Rinv_l, Rmult_1_r by lra.
      rewrite <- abs_IZR. assert (D1 : (Z.abs d <= n * m - 1)%Z) by lia. apply IZR_le in D1. rewrite minus_IZR, mult_IZR in D1.
      assert (N2 : IZR n <= 2097152) by (apply IZR_le; lia). rewrite b2_m21. nra. }
    apply Rabs_le_inv in E, B'. apply Rabs_le. lra.
Qed.

(** The position after [i] steps of [d] from [u]. *)
Definition paced (u d : R) (i : Z) (q : R) : Prop :=
  Rabs (q - (u + IZR i * d)) <= IZR i * b2 (-32) /\ (Rabs d = IZR m -> whole q).
Lemma paced_next : forall u d i q, place u -> pace d -> (0 <= i < 2 ^ 21)%Z -> Rabs (IZR (i + 1) * d) <= b2 21 + 1 -> paced u d i q ->
  paced u d (i + 1) (rnd (q + d)) /\ fstep q (rnd (q + d)).
Proof.
  intros u d i q [Wu Bu] Pd Hi Bd [P1 P2]. pose proof m_real as M.
  assert (I0 : 0 <= IZR i <= 2097152) by (split; apply IZR_le; lia).
  assert (IE : IZR i * b2 (-32) <= 1) by (rewrite b2_m32; lra).
  assert (X : Rabs (q + d) <= b2 22).
  { rewrite plus_IZR in Bd. rewrite b2_20 in Bu. rewrite b2_21 in Bd. rewrite b2_22.
    apply Rabs_le_inv in Bu, Bd, P1. apply Rabs_le. lra. }
  pose proof (rnd_err 22 _ ltac:(lia) X) as E. change (22 - 54)%Z with (-32)%Z in E.
  assert (W : Rabs d = IZR m -> whole (rnd (q + d)) /\ rnd (q + d) = q + d).
  { intros Ed. assert (Wd : whole d).
    { unfold Rabs in Ed. destruct (Rcase_abs d); [|rewrite Ed; apply whole_Z].
      replace d with (- IZR m) by lra. apply whole_opp, whole_Z. }
    assert (Wq : whole (q + d)) by (apply whole_add; [exact (P2 Ed)|exact Wd]).
    rewrite (rnd_whole (q + d) Wq); [auto|]. eapply Rle_trans; [exact X|apply bpow_le; lia]. }
  split.
  - split.
    + rewrite plus_IZR. apply Rabs_le_inv in P1, E. apply Rabs_le. lra.
    + intros Ed. apply W. exact Ed.
  - destruct Pd as [Ed|Ed].
    + left. destruct (W Ed) as [W1 W2]. split; [exact W1|]. rewrite W2. replace (q + d - q) with d by ring. lra.
    + right. rewrite b2_m21, b2_m43 in Ed. rewrite b2_m32 in E. rewrite b2_m22.
      apply Rabs_le_inv in Ed, E. apply Rabs_le. lra.
Qed.
(** The last step, to the target. *)
Lemma paced_last : forall u v d n q, place u -> place v -> v - u = IZR d -> (Z.abs d <= n * m)%Z -> (1 <= n <= 2 ^ 21)%Z ->
  paced u (rnd (IZR d / IZR n)) (n - 1) q -> fstep q v.
Proof.
  intros u v d n q Pu Pv E Hd Hn [P1 _]. left. split; [apply Pv|]. pose proof m_real as M.
  destruct (pace_of d n Hd Hn) as [_ A]. set (s := rnd (IZR d / IZR n)) in *.
  assert (N1 : 1 <= IZR n <= 2097152) by (split; apply IZR_le; lia).
  assert (B : Rabs (IZR d / IZR n) <= IZR m).
  { unfold Rdiv. rewrite Rabs_mult, (Rabs_pos_eq (/ IZR n)) by (apply Rlt_le, Rinv_0_lt_compat; lra).
    apply Rmult_le_reg_r with (IZR n); [lra|]. rewrite Rmult_assoc, Rinv_l, Rmult_1_r by lra.
    rewrite <- abs_IZR, <- mult_IZR. apply IZR_le. lia. }
  rewrite minus_IZR in P1. set (t := IZR d / IZR n) in *.
  assert (D : IZR d = IZR n * t) by (unfold t; field; lra).
  assert (A' : Rabs ((IZR n - 1) * (s - t)) <= (IZR n - 1) * b2 (-43)).
  { rewrite Rabs_mult, (Rabs_pos_eq (IZR n - 1)) by lra. apply Rmult_le_compat_l; [lra|exact A]. }
  rewrite b2_m43 in A'. rewrite b2_m32 in P1. apply Rabs_le_inv in P1, A', B. apply Rabs_le.
  assert (v = u + IZR n * t) by lra. subst v. clear E D Pv.
  split; nra.
Qed.
End Step.

Lemma ftravels_lor : forall k h, Z.land h FLAGS_MASK = h -> k = STITCH \/ k = JUMP \/ k = SEQUIN_EJECT ->
  travels (Z.lor k h).
Proof.
  intros k h Hh Hk. unfold travels. change (Z.land (Z.lor k h) 255) with (cmd_of (Z.lor k h)).
  rewrite cmd_lor_high; [exact Hk| |exact Hh].
  destruct Hk as [-> | [-> | ->]]; unfold STITCH, JUMP, SEQUIN_EJECT; lia.
Qed.
Lemma fbind : forall A B (x : res A) (k : A -> res B) b, bindr x k = Ok b -> exists a, x = Ok a /\ k a = Ok b.
Proof. intros A B x k b H. destruct x as [a|e]; [|discriminate]. exists a. auto. Qed.

Section FEnc.
Variables (fcos fsin : R -> R) (forient : R -> R -> R -> R -> R -> R * R).
Notation N := (FNum fcos fsin forient).
Notation st := (st N).
Variable m : Z.
Hypothesis Hm : (1 <= m <= 2047)%Z.
Hypothesis Horient : forall x0 y0 x1 y1 l, Rabs x0 <= b2 20 -> Rabs y0 <= b2 20 -> 1 <= l <= 2047 ->
  Rabs (fst (forient x0 y0 x1 y1 l) - x0) <= l + 1 /\ Rabs (snd (forient x0 y0 x1 y1 l) - y0) <= l + 1.
Notation fstep := (fstep m).
Section FMatrix.
(** The transformation of the settings. *)
Variable mx : mat N.

Definition flimit_ok (l : limit N) : Prop := match l with Fin _ l => 1 <= l <= IZR m | Inf _ => False end.

Record FMet (s : st) : Prop := mkFMet {
  f_walk : fwalk m 0 0 (out N s);
  f_end : fst (end_pos 0 0 (out N s)) = nx N s /\ snd (end_pos 0 0 (out N s)) = ny N s;
  f_ms : flimit_ok (max_stitch N s);
  f_mj : flimit_ok (max_jump N s);
  f_long : long_ok (long_stitch_contingency N s);
  f_seq : sequins_ok (sequin_contingency N s);
  f_high : Z.land (high_flags N s) FLAGS_MASK = high_flags N s;
  f_matrix : matrix N s = mx }.
Definition fhome (s : st) : Prop := place (nx N s) /\ place (ny N s).
(** Leaving the sequin mode writes nothing. *)
Definition quiet (s : st) : Prop := sequin_mode N s = false \/ sequin_contingency N s <> CONTINGENCY_SEQUIN_UTILIZE.

Ltac fmet H := destruct H as [? ? ? ? ? ? ? ?]; constructor; attrs; assumption.

Lemma fmet_go : forall s a, FMet s -> fstep (nx N s) (sx a) -> fstep (ny N s) (sy a) ->
  (travels (scmd a) \/ (sx a = nx N s /\ sy a = ny N s /\ whole (nx N s) /\ whole (ny N s))) ->
  FMet (update_needle_position N (append N s a) (sx a) (sy a)).
Proof.
  intros s a [W [Ex Ey] L1 L2 L3 L4 L5 L6] Gx Gy T. constructor; attrs; try assumption.
  - apply fwalk_app. split; [exact W|]. rewrite Ex, Ey. cbn [fwalk]. split; [|exact I]. split; [exact Gx|]. split; [exact Gy|exact T].
  - rewrite end_pos_app. cbn [end_pos fst snd]. split; reflexivity.
Qed.
Lemma fmet_stay : forall s a, FMet s -> fhome s -> sx a = nx N s -> sy a = ny N s -> FMet (append N s a).
Proof.
  intros s a H [[Wx _] [Wy _]] Ex Ey.
  assert (H' : FMet (update_needle_position N (append N s a) (sx a) (sy a))).
  { apply fmet_go; [exact H| | |right; auto].
    - exact (fstep_eq m Hm _ _ Ex).
    - exact (fstep_eq m Hm _ _ Ey). }
  destruct H' as [W [E1 E2] L1 L2 L3 L4 L5 L6]. constructor; try assumption.
  revert E1 E2. attrs. intros E1 E2. rewrite E1, E2. split; assumption.
Qed.

Lemma fmet_trimmed : forall s b, FMet s -> FMet (set_trimmed N s b). Proof. intros s b H. fmet H. Qed.
Lemma fmet_mode : forall s b, FMet s -> FMet (set_sequin_mode N s b). Proof. intros s b H. fmet H. Qed.
Lemma fmet_order : forall s b, FMet s -> FMet (set_order N s b). Proof. intros s b H. fmet H. Qed.
Lemma fmet_thread : forall s b, FMet s -> FMet (add_thread N s b). Proof. intros s b H. fmet H. Qed.
Lemma fmet_jumping : forall s b, FMet s -> FMet (set_jumping N s b). Proof. intros s b H. fmet H. Qed.
Lemma fmet_set_high : forall s v, FMet s -> FMet (set_high N s (Z.land v FLAGS_MASK)).
Proof. intros s v [? ? ? ? ? ? ? ?]. constructor; attrs; try assumption. apply high_flags_mask. Qed.
Lemma fmet_add : forall s k, FMet s -> fhome s -> FMet (add N s k).
Proof. intros s k H Hh. apply fmet_stay; [exact H|exact Hh|reflexivity|reflexivity]. Qed.

Lemma fmet_toggle : forall s, FMet s -> fhome s \/ sequin_contingency N s <> CONTINGENCY_SEQUIN_UTILIZE ->
  FMet (toggle_sequins N s) /\ nx N (toggle_sequins N s) = nx N s /\ ny N (toggle_sequins N s) = ny N s
  /\ high_flags N (toggle_sequins N s) = high_flags N s
  /\ sequin_contingency N (toggle_sequins N s) = sequin_contingency N s
  /\ (sequin_mode N s = true -> quiet (toggle_sequins N s)).
Proof.
  intros s H Hh. unfold toggle_sequins. destruct (Z.eqb_spec (sequin_contingency N s) CONTINGENCY_SEQUIN_UTILIZE) as [E|E].
  - split; [apply fmet_mode, fmet_add; [exact H|]; destruct Hh; [assumption|contradiction]|].
    attrs. split; [reflexivity|]. split; [reflexivity|]. split; [reflexivity|]. split; [reflexivity|].
    intros Em. left. attrs. rewrite Em. reflexivity.
  - split; [exact H|]. split; [reflexivity|]. split; [reflexivity|]. split; [reflexivity|]. split; [reflexivity|].
    intros _. right. exact E.
Qed.
Lemma fmet_leave : forall s (b : bool), FMet s -> fhome s \/ quiet s -> (b = true -> sequin_mode N s = true) ->
  let s' := if b then toggle_sequins N s else s in
  FMet s' /\ nx N s' = nx N s /\ ny N s' = ny N s /\ high_flags N s' = high_flags N s
  /\ (b = sequin_mode N s -> quiet s').
Proof.
  intros s b H Hh Hb. destruct b.
  - destruct (fmet_toggle s H) as (A & B & C & D & _ & F).
    + destruct Hh as [Hh|[Hh|Hh]]; [left; exact Hh|rewrite Hb in Hh by reflexivity; discriminate|right; exact Hh].
    + split; [exact A|]. split; [exact B|]. split; [exact C|]. split; [exact D|]. intros _. apply F. apply Hb. reflexivity.
  - split; [exact H|]. split; [reflexivity|]. split; [reflexivity|]. split; [reflexivity|]. intros E. left. symmetry. exact E.
Qed.

Lemma gap_loop_fmet : forall n s u v ax ay cmd i qx qy, FMet s -> qx = nx N s -> qy = ny N s -> travels cmd ->
  place u -> place v -> pace m ax -> pace m ay -> (0 <= i)%Z -> (i + Z.of_nat n <= 2 ^ 21)%Z ->
  (forall k, (0 <= k <= i + Z.of_nat n)%Z -> Rabs (IZR k * ax) <= b2 21 + 1 /\ Rabs (IZR k * ay) <= b2 21 + 1) ->
  paced m u ax i qx -> paced m v ay i qy ->
  let s' := gap_loop N n qx qy ax ay cmd s in
  FMet s' /\ sequin_mode N s' = sequin_mode N s /\ sequin_contingency N s' = sequin_contingency N s
  /\ paced m u ax (i + Z.of_nat n) (nx N s') /\ paced m v ay (i + Z.of_nat n) (ny N s').
Proof.
  induction n as [|n IH]; intros s u v ax ay cmd i qx qy H Ex Ey T Pu Pv Px Py I0 In Bd Sx Sy.
  - cbn [gap_loop]. rewrite Z.add_0_r. subst qx qy. split; [exact H|]. split; [reflexivity|]. split; [reflexivity|]. split; assumption.
  - cbn [gap_loop]. cbn [fadd FNum].
    destruct (paced_next m Hm u ax i qx Pu Px ltac:(lia) (proj1 (Bd (i + 1)%Z ltac:(lia))) Sx) as [Sx' Gx].
    destruct (paced_next m Hm v ay i qy Pv Py ltac:(lia) (proj2 (Bd (i + 1)%Z ltac:(lia))) Sy) as [Sy' Gy].
    assert (H1 : FMet (update_needle_position N (append N s (mkS (rnd (qx + ax)) (rnd (qy + ay)) cmd)) (rnd (qx + ax)) (rnd (qy + ay)))).
    { apply (fmet_go s (mkS (rnd (qx + ax)) (rnd (qy + ay)) cmd) H); cbn [sx sy scmd]; [rewrite <- Ex; exact Gx|rewrite <- Ey; exact Gy|left; exact T]. }
    replace (i + Z.of_nat (S n))%Z with (i + 1 + Z.of_nat n)%Z in * by lia.
    destruct (IH _ u v ax ay cmd (i + 1)%Z (rnd (qx + ax)) (rnd (qy + ay)) H1 eq_refl eq_refl T Pu Pv Px Py ltac:(lia) In Bd Sx' Sy') as (A & B & C & D & E).
    split; [exact A|]. split; [exact B|]. split; [exact C|]. split; assumption.
Qed.

Lemma interpolate_fmet : forall s s' x y l data, FMet s -> fhome s -> place x -> place y -> flimit_ok l ->
  data = STITCH \/ data = JUMP ->
  interpolate_gap_stitches N s (nx N s) (ny N s) x y l data = Ok s' ->
  FMet s' /\ fstep (nx N s') x /\ fstep (ny N s') y /\ (data = JUMP -> fhome s' \/ quiet s').
Proof.
  intros s s' x y l data H Hh Px Py L HD E. destruct l as [l|]; [|contradiction]. cbn [flimit_ok] in L.
  pose proof (m_real m Hm) as M. destruct Hh as [Hx Hy] eqn:EH. clear EH.
  destruct (place_diff (nx N s) x Hx Px) as (dx & Dx1 & Dx2 & Dx3).
  destruct (place_diff (ny N s) y Hy Py) as (dy & Dy1 & Dy2 & Dy3).
  unfold interpolate_gap_stitches in E. cbv zeta in E. unfold exceeds in E.
  cbn [fsub fabs fgtb fdiv fdivz fceil FNum F] in E. rewrite Dx2, Dy2 in E.
  destruct (Rlt_bool l (Rabs (IZR dx)) || Rlt_bool l (Rabs (IZR dy))) eqn:G.
  - rewrite !Req_bool_false in E by lra. cbn [bindr] in E.
    set (nx' := Zceil (Rabs (rnd (IZR dx / l)))) in *. set (ny' := Zceil (Rabs (rnd (IZR dy / l)))) in *.
    set (n := if (ny' <? nx')%Z then nx' else ny') in *.
    assert (En : n = Z.max nx' ny') by (unfold n; destruct (Z.ltb_spec ny' nx'); lia).
    assert (U : forall d, (Z.abs d <= 2 ^ 21)%Z -> Rabs (rnd (IZR d / l)) <= 2097152).
    { intros d Hd. apply (rnd_abs_le _ 2097152); [lia|]. unfold Rdiv. rewrite Rabs_mult, (Rabs_pos_eq (/ l)) by (apply Rlt_le, Rinv_0_lt_compat; lra).
      apply Rmult_le_reg_r with l; [lra|]. rewrite Rmult_assoc, Rinv_l, Rmult_1_r by lra. rewrite <- abs_IZR.
      apply IZR_le in Hd. change (IZR (2 ^ 21)) with 2097152 in Hd. lra. }
    assert (N2 : (n <= 2 ^ 21)%Z).
    { rewrite En. apply Z.max_lub; unfold nx', ny'; rewrite <- (Zceil_IZR (2 ^ 21)); apply Zceil_le; apply U; assumption. }
    assert (N1 : (1 <= n)%Z).
    { assert (K : forall d, Rlt_bool l (Rabs (IZR d)) = true -> (1 <= Zceil (Rabs (rnd (IZR d / l))))%Z).
      { intros d Hd. apply Rlt_bool_true in Hd || (revert Hd; case Rlt_bool_spec; [intros Hd _|discriminate]).
        rewrite <- (Zceil_IZR 1). apply Zceil_le.
        assert (Q : rnd 1 <= rnd (Rabs (IZR d) / l)).
        { apply rnd_le. apply Rmult_le_reg_r with l; [lra|]. unfold Rdiv. rewrite Rmult_assoc, Rinv_l by lra. lra. }
        rewrite (rnd_Z 1) in Q by lia. eapply Rle_trans; [exact Q|].
        unfold Rabs at 1. destruct (Rcase_abs (IZR d)).
        - replace (- IZR d / l) with (- (IZR d / l)) by (unfold Rdiv; ring). rewrite rnd_opp. rewrite <- Rabs_Ropp. apply Rle_abs.
        - apply Rle_abs. }
      rewrite En. apply orb_true_iff in G. destruct G as [G|G]; apply K in G; fold nx' in G || fold ny' in G; lia. }
    assert (Fx : (Z.abs dx <= n * m)%Z).
    { apply (quot_fits m Hm dx l n Dx3 L); [lia|]. eapply Rle_trans; [apply Zceil_ub|]. apply IZR_le. fold nx'. lia. }
    assert (Fy : (Z.abs dy <= n * m)%Z).
    { apply (quot_fits m Hm dy l n Dy3 L); [lia|]. eapply Rle_trans; [apply Zceil_ub|]. apply IZR_le. fold ny'. lia. }
    destruct (Z.eqb_spec n 0) as [N0|_]; [lia|]. cbn [bindr] in E.
    destruct (pace_of m Hm dx n Fx ltac:(lia)) as [Pcx Ecx]. destruct (pace_of m Hm dy n Fy ltac:(lia)) as [Pcy Ecy].
    destruct (fmet_leave s ((data =? JUMP)%Z && sequin_mode N s) H (or_introl (conj Hx Hy))
      ltac:(intros Q; apply andb_true_iff in Q; apply Q)) as (A & B1 & B2 & B3 & B4).
    set (s1 := if ((data =? JUMP)%Z && sequin_mode N s)%bool then toggle_sequins N s else s) in *.
    assert (HD' : data = STITCH \/ data = JUMP \/ data = SEQUIN_EJECT) by tauto.
    assert (Bd : forall d k, (Z.abs d <= 2 ^ 21)%Z -> Rabs (rnd (IZR d / IZR n) - IZR d / IZR n) <= b2 (-43) ->
      (0 <= k <= n - 1)%Z -> Rabs (IZR k * rnd (IZR d / IZR n)) <= b2 21 + 1).
    { intros d k Hd He Hk. assert (K1 : 0 <= IZR k <= IZR n - 1) by (split; [apply IZR_le; lia|rewrite <- minus_IZR; apply IZR_le; lia]).
      assert (N3 : 1 <= IZR n <= 2097152) by (split; apply IZR_le; lia).
      assert (D2 : Rabs (IZR d) <= 2097152) by (rewrite <- abs_IZR; apply IZR_le; lia).
      assert (D3 : Rabs (IZR d / IZR n) * IZR n = Rabs (IZR d)).
      { unfold Rdiv. rewrite Rabs_mult, (Rabs_pos_eq (/ IZR n)) by (apply Rlt_le, Rinv_0_lt_compat; lra). rewrite Rmult_assoc, Rinv_l by lra. ring. }
      set (t := IZR d / IZR n) in *. set (r := rnd t) in *.
      assert (Rabs r <= Rabs t + b2 (-43)).
      { replace r with (t + (r - t)) by ring. eapply Rle_trans; [apply Rabs_triang|]. lra. }
      rewrite Rabs_mult, (Rabs_pos_eq (IZR k)) by lra. rewrite b2_21. rewrite b2_m43 in *. clear He.
      pose proof (Rabs_pos t) as T0. nra. }
    pose proof (gap_loop_fmet (Z.to_nat (n - 1)) s1 (nx N s) (ny N s) (rnd (IZR dx / IZR n)) (rnd (IZR dy / IZR n))
      (Z.lor data (high_flags N s1)) 0 (nx N s) (ny N s) A (eq_sym B1) (eq_sym B2)
      (ftravels_lor data (high_flags N s1) (f_high _ A) HD') Hx Hy Pcx Pcy ltac:(lia) ltac:(lia)) as Z0.
    cbv zeta in Z0. injection E as E. rewrite E in Z0. rewrite Z2Nat.id in Z0 by lia. rewrite Z.add_0_l in Z0.
    destruct Z0 as (C1 & C2 & C3 & C4 & C5).
    + intros k Hk. split; apply Bd; assumption.
    + split; [rewrite Rmult_0_l, Rmult_0_l, Rplus_0_r; replace (nx N s - nx N s) with 0 by ring; rewrite Rabs_R0; lra|intros _; apply Hx].
    + split; [rewrite Rmult_0_l, Rmult_0_l, Rplus_0_r; replace (ny N s - ny N s) with 0 by ring; rewrite Rabs_R0; lra|intros _; apply Hy].
    + split; [exact C1|]. split; [exact (paced_last m Hm _ _ dx n _ Hx Px Dx1 Fx ltac:(lia) C4)|].
      split; [exact (paced_last m Hm _ _ dy n _ Hy Py Dy1 Fy ltac:(lia) C5)|].
      intros Ed. right. unfold quiet. rewrite C2, C3. apply B4. rewrite Ed, Z.eqb_refl. reflexivity.
  - injection E as <-. apply orb_false_iff in G. destruct G as [G1 G2].
    revert G1 G2. case Rlt_bool_spec; [discriminate|]. intros K1 _. case Rlt_bool_spec; [discriminate|]. intros K2 _.
    split; [exact H|]. split; [left; split; [apply Px|rewrite Dx1; lra]|]. split; [left; split; [apply Py|rewrite Dy1; lra]|].
    intros _. left. split; assumption.
Qed.

Lemma stitch_at_fmet : forall s x y, FMet s -> fstep (nx N s) x -> fstep (ny N s) y -> place x -> place y ->
  FMet (stitch_at N s x y) /\ fhome (stitch_at N s x y).
Proof.
  intros s x y H Gx Gy Px Py. unfold stitch_at, add_at. split; [|split; attrs; assumption].
  apply (fmet_go s (mkS x y (Z.lor STITCH (high_flags N s))) H Gx Gy). left.
  apply ftravels_lor; [exact (f_high _ H)|tauto].
Qed.
Lemma jump_at_fmet : forall s x y, FMet s -> fhome s \/ quiet s -> fstep (nx N s) x -> fstep (ny N s) y -> place x -> place y ->
  FMet (jump_at N s x y) /\ fhome (jump_at N s x y).
Proof.
  intros s x y H Hh Gx Gy Px Py. unfold jump_at.
  destruct (fmet_leave s (sequin_mode N s) H Hh (fun e => e)) as (A & B1 & B2 & _).
  set (s1 := if sequin_mode N s then toggle_sequins N s else s) in *.
  rewrite <- B1 in Gx. rewrite <- B2 in Gy. split; [|split; attrs; assumption].
  apply (fmet_go s1 (mkS x y (Z.lor JUMP (high_flags N s1))) A Gx Gy). left.
  apply ftravels_lor; [exact (f_high _ A)|tauto].
Qed.

Section Methods.
Variables (c : config) (seq : dict change).

Lemma jump_within_fmet : forall s s' x y, FMet s -> fhome s -> place x -> place y ->
  jump_to_within_stitchrange N c s x y = Ok s' -> FMet s' /\ fstep (nx N s') x /\ fstep (ny N s') y.
Proof.
  intros s s' x y H Hh Px Py E. unfold jump_to_within_stitchrange in E. apply fbind in E.
  destruct E as (s1 & E1 & E2).
  destruct (interpolate_fmet s s1 x y _ JUMP H Hh Px Py (f_mj _ H) (or_intror eq_refl) E1) as (A & Gx & Gy & Hq).
  destruct (full_jump c); [|injection E2 as <-; auto].
  destruct (_ || _) in E2; injection E2 as <-; [|auto].
  destruct (jump_at_fmet s1 x y A (Hq eq_refl) Gx Gy Px Py) as [B1 B2]. split; [exact B1|].
  unfold jump_at. attrs. split; apply fstep_refl; exact Hm.
Qed.
Lemma jump_to_fmet : forall s s' x y, FMet s -> fhome s -> place x -> place y ->
  jump_to N s x y = Ok s' -> FMet s' /\ fhome s'.
Proof.
  intros s s' x y H Hh Px Py E. unfold jump_to in E. apply fbind in E. destruct E as (s1 & E1 & E2).
  destruct (interpolate_fmet s s1 x y _ JUMP H Hh Px Py (f_mj _ H) (or_intror eq_refl) E1) as (A & Gx & Gy & Hq).
  injection E2 as <-. apply jump_at_fmet; auto.
Qed.
Lemma needle_to_fmet : forall s s' x y, FMet s -> fhome s -> place x -> place y ->
  needle_to N s x y = Ok s' -> FMet s' /\ fhome s'.
Proof.
  intros s s' x y H Hh Px Py E. unfold needle_to in E. apply fbind in E. destruct E as (s1 & E1 & E2).
  destruct (interpolate_fmet s s1 x y _ JUMP H Hh Px Py (f_ms _ H) (or_intror eq_refl) E1) as (A & Gx & Gy & _).
  injection E2 as <-. apply stitch_at_fmet; assumption.
Qed.
Lemma sew_to_fmet : forall s s' x y, FMet s -> fhome s -> place x -> place y ->
  sew_to N s x y = Ok s' -> FMet s' /\ fhome s'.
Proof.
  intros s s' x y H Hh Px Py E. unfold sew_to in E. apply fbind in E. destruct E as (s1 & E1 & E2).
  destruct (interpolate_fmet s s1 x y _ STITCH H Hh Px Py (f_ms _ H) (or_introl eq_refl) E1) as (A & Gx & Gy & _).
  injection E2 as <-. apply stitch_at_fmet; assumption.
Qed.
Lemma contingency_fmet : forall s s' x y, FMet s -> fhome s -> place x -> place y ->
  stitch_with_contingency N s x y = Ok s' -> FMet s' /\ fhome s'.
Proof.
  intros s s' x y H Hh Px Py E. unfold stitch_with_contingency in E.
  destruct (f_long _ H) as [L|L]; rewrite L in E.
  - rewrite Z.eqb_refl in E. exact (sew_to_fmet _ _ _ _ H Hh Px Py E).
  - rewrite Z.eqb_refl in E.
    change (CONTINGENCY_LONG_STITCH_JUMP_NEEDLE =? CONTINGENCY_LONG_STITCH_SEW_TO)%Z with false in E.
    exact (needle_to_fmet _ _ _ _ H Hh Px Py E).
Qed.
Lemma sequin_at_fmet : forall s s' x y, FMet s -> fhome s -> place x -> place y ->
  sequin_at N s x y = Ok s' -> FMet s' /\ fhome s'.
Proof.
  intros s s' x y H Hh Px Py E. unfold sequin_at in E.
  destruct (Z.eqb_spec (sequin_contingency N s) CONTINGENCY_SEQUIN_REMOVE) as [E0|E0];
    [injection E as <-; auto|].
  apply fbind in E. destruct E as (s1 & E1 & E2).
  destruct (interpolate_fmet s s1 x y _ STITCH H Hh Px Py (f_ms _ H) (or_introl eq_refl) E1) as (A & Gx & Gy & _).
  injection E2 as <-.
  assert (D : forall k, k = STITCH \/ k = JUMP \/ k = SEQUIN_EJECT ->
    FMet (update_needle_position N (add_at N s1 k x y) x y) /\ fhome (update_needle_position N (add_at N s1 k x y) x y)).
  { intros k Hk. split; [|split; attrs; assumption].
    apply (fmet_go s1 (mkS x y (Z.lor k (high_flags N s1))) A Gx Gy). left.
    apply ftravels_lor; [exact (f_high _ A)|exact Hk]. }
  destruct (f_seq _ H) as [L|[L|[L|L]]]; rewrite L in *.
  - contradiction.
  - rewrite Z.eqb_refl. apply D. auto.
  - change (CONTINGENCY_SEQUIN_JUMP =? CONTINGENCY_SEQUIN_UTILIZE)%Z with false. rewrite Z.eqb_refl. apply D. auto.
  - change (CONTINGENCY_SEQUIN_STITCH =? CONTINGENCY_SEQUIN_UTILIZE)%Z with false.
    change (CONTINGENCY_SEQUIN_STITCH =? CONTINGENCY_SEQUIN_JUMP)%Z with false. rewrite Z.eqb_refl. apply D. auto.
Qed.

(** ** Lock stitches *)
Lemma flock_anchor : forall x y ax ay l, place x -> place y -> flimit_ok l ->
  let p := match l with
           | Fin _ l => if fdist_gt N x y ax ay l then foriented N x y ax ay l else (ax, ay)
           | Inf _ => (ax, ay)
           end in
  Rabs (fst p - x) <= IZR m + 1 /\ Rabs (snd p - y) <= IZR m + 1.
Proof.
  intros x y ax ay l Px Py L. destruct l as [l|]; [|contradiction]. cbn [flimit_ok] in L. pose proof (m_real m Hm) as M.
  cbn [fdist_gt foriented FNum]. case Rlt_bool_spec; intros G; cbv zeta.
  - assert (L2 : 1 <= l <= 2047) by lra.
    destruct (Horient x y ax ay l (proj2 Px) (proj2 Py) L2) as [O1 O2]. split; (eapply Rle_trans; [exact O1 || exact O2|lra]).
  - cbn [fst snd].
    assert (S2 : (0 <= (m + 1) * (m + 1) <= 2048 * 2048)%Z) by (split; [apply Z.mul_nonneg_nonneg; lia|apply Z.mul_le_mono_nonneg; lia]).
    assert (K : forall dx dy, rnd (sqrt (rnd (rnd (rnd dx * rnd dx) + rnd (rnd dy * rnd dy)))) <= l -> Rabs dx <= IZR m + 1).
    { intros dx dy K. apply Rnot_lt_le. intros B.
      assert (B1 : IZR (m + 1) <= Rabs (rnd dx)).
      { unfold Rabs in B |- *. rewrite plus_IZR. destruct (Rcase_abs dx).
        - assert (Q : rnd (IZR (m + 1)) <= rnd (- dx)) by (apply rnd_le; rewrite plus_IZR; lra).
          rewrite rnd_Z, rnd_opp, plus_IZR in Q by lia. destruct (Rcase_abs _); lra.
        - assert (Q : rnd (IZR (m + 1)) <= rnd dx) by (apply rnd_le; rewrite plus_IZR; lra).
          rewrite rnd_Z, plus_IZR in Q by lia. destruct (Rcase_abs _); lra. }
      assert (B2 : IZR ((m + 1) * (m + 1)) <= rnd (rnd dx * rnd dx)).
      { rewrite <- rnd_Z by lia. apply rnd_le. rewrite mult_IZR. rewrite <- (Rabs_pos_eq (rnd dx * rnd dx)) by apply Rle_0_sqr.
        rewrite Rabs_mult. assert (0 <= IZR (m + 1)) by (apply IZR_le; lia). apply Rmult_le_compat; assumption. }
      assert (B3 : 0 <= rnd (rnd dy * rnd dy)) by (rewrite <- rnd_0; apply rnd_le, Rle_0_sqr).
      assert (B4 : IZR ((m + 1) * (m + 1)) <= rnd (rnd (rnd dx * rnd dx) + rnd (rnd dy * rnd dy))).
      { rewrite <- rnd_Z by lia. apply rnd_le. lra. }
      assert (B5 : IZR (m + 1) <= sqrt (rnd (rnd (rnd dx * rnd dx) + rnd (rnd dy * rnd dy)))).
      { rewrite <- (sqrt_square (IZR (m + 1))) by (apply IZR_le; lia). rewrite <- mult_IZR. apply sqrt_le_1_alt. exact B4. }
      apply rnd_le in B5. rewrite rnd_Z, plus_IZR in B5 by lia. lra. }
    split; [exact (K _ _ G)|]. apply (K (ay - y) (ax - x)). rewrite Rplus_comm. exact G.
Qed.

Lemma f33_near : Rabs (rnd (33 / 100) - 33 / 100) <= b2 (-54).
Proof. apply (rnd_err 0); [lia|]. cbn [bpow]. rewrite Rabs_pos_eq by lra. lra. Qed.
Lemma f66_near : Rabs (rnd (66 / 100) - 66 / 100) <= b2 (-54).
Proof. apply (rnd_err 0); [lia|]. cbn [bpow]. rewrite Rabs_pos_eq by lra. lra. Qed.
Lemma towards_near : forall x ax t t', place x -> Rabs (ax - x) <= IZR m + 1 -> 0 <= t <= / 2 + / 4 -> Rabs (t' - t) <= b2 (-54) ->
  Rabs (rnd (rnd (t' * rnd (ax - x)) + x) - (x + t * (ax - x))) <= b2 (-20).
Proof.
  intros x ax t t' Px D Ht Ht'. pose proof (m_real m Hm) as M. destruct Px as [_ Bx].
  assert (D1 : Rabs (ax - x) <= b2 11) by (rewrite b2_11; lra).
  pose proof (rnd_err 11 _ ltac:(lia) D1) as E1. change (11 - 54)%Z with (-43)%Z in E1.
  set (d := ax - x) in *. set (d' := rnd d) in *.
  assert (T : Rabs (t' - t) <= / 1099511627776).
  { eapply Rle_trans; [exact Ht'|]. rewrite <- b2_m40. apply bpow_le. lia. }
  assert (D2 : Rabs d' <= 2049) by (rewrite b2_m43 in E1; rewrite b2_11 in D1; apply Rabs_le_inv in E1, D1; apply Rabs_le; lra).
  assert (P : Rabs (t' * d' - t * d) <= / 134217728).
  { replace (t' * d' - t * d) with ((t' - t) * d' + t * (d' - d)) by ring.
    eapply Rle_trans; [apply Rabs_triang|]. rewrite !Rabs_mult, (Rabs_pos_eq t) by lra. rewrite b2_m43 in E1.
    pose proof (Rabs_pos (t' - t)). pose proof (Rabs_pos (d' - d)). pose proof (Rabs_pos d').
    assert (Rabs (t' - t) * Rabs d' <= / 1099511627776 * 2049) by (apply Rmult_le_compat; assumption).
    assert (t * Rabs (d' - d) <= (/ 2 + / 4) * / 8796093022208) by (apply Rmult_le_compat; lra). lra. }
  assert (P1 : Rabs (t' * d') <= 2048).
  { rewrite b2_11 in D1. apply Rabs_le_inv in P, D1. apply Rabs_le. nra. }
  pose proof (rnd_err 11 (t' * d') ltac:(lia) ltac:(rewrite b2_11; exact P1)) as E2. change (11 - 54)%Z with (-43)%Z in E2.
  set (p := rnd (t' * d')) in *.
  assert (P2 : Rabs (p + x) <= b2 21).
  { rewrite b2_m43 in E2. rewrite b2_20 in Bx. rewrite b2_21. apply Rabs_le_inv in E2, P1, Bx. apply Rabs_le. lra. }
  pose proof (rnd_err 21 (p + x) ltac:(lia) P2) as E3. change (21 - 54)%Z with (-33)%Z in E3.
  assert (E4 : b2 (-33) <= b2 (-32)) by (apply bpow_le; lia). rewrite b2_m32 in E4. rewrite b2_m43 in E2.
  change (b2 (-20)) with (/ 1048576). apply Rabs_le_inv in E2, E3, P. apply Rabs_le. lra.
Qed.
Lemma towards_zero : forall x ax, place x -> rnd (rnd (0 * rnd (ax - x)) + x) = x.
Proof. intros x ax Px. rewrite Rmult_0_l, rnd_0, Rplus_0_l. apply rnd_f64, place_f64, Px. Qed.

Lemma lock_fmet : forall s ax ay l, FMet s -> fhome s -> flimit_ok l -> FMet (lock_stitch N s (nx N s) (ny N s) ax ay l).
Proof.
  intros s ax ay l H [Px Py] L. pose proof (flock_anchor (nx N s) (ny N s) ax ay l Px Py L) as B. cbv zeta in B.
  unfold lock_stitch.
  destruct (match l with Fin _ _ => _ | Inf _ => _ end) as [bx by']. cbn [fst snd] in B. destruct B as [Bx By].
  unfold towards. cbn [fadd fmul fsub f33 f66 f0 FNum]. pose proof (m_real m Hm) as M.
  destruct H as [W [Ex Ey] L1 L2 L3 L4 L5 L6]. constructor; attrs; try assumption.
  - rewrite <- !app_assoc. cbn [app]. apply fwalk_app. split; [exact W|]. rewrite Ex, Ey. cbn [fwalk sx sy scmd].
    assert (T : travels STITCH) by (left; reflexivity).
    assert (S0 : forall x b, place x -> Rabs (b - x) <= IZR m + 1 ->
      fstep x (rnd (rnd (rnd (33 / 100) * rnd (b - x)) + x)) /\
      fstep (rnd (rnd (rnd (33 / 100) * rnd (b - x)) + x)) (rnd (rnd (rnd (66 / 100) * rnd (b - x)) + x)) /\
      fstep (rnd (rnd (rnd (66 / 100) * rnd (b - x)) + x)) (rnd (rnd (rnd (33 / 100) * rnd (b - x)) + x)) /\
      fstep (rnd (rnd (rnd (33 / 100) * rnd (b - x)) + x)) (rnd (rnd (0 * rnd (b - x)) + x))).
    { intros x b Pb D. rewrite (towards_zero x b Pb).
      pose proof (towards_near x b (33 / 100) _ Pb D ltac:(lra) f33_near) as A1.
      pose proof (towards_near x b (66 / 100) _ Pb D ltac:(lra) f66_near) as A2.
      set (u := rnd (rnd (rnd (33 / 100) * rnd (b - x)) + x)) in *. set (v := rnd (rnd (rnd (66 / 100) * rnd (b - x)) + x)) in *.
      change (b2 (-20)) with (/ 1048576) in *. apply Rabs_le_inv in A1, A2, D.
      split; [|split; [|split]]; right; rewrite b2_m22; apply Rabs_le; lra. }
    destruct (S0 _ _ Px Bx) as (X1 & X2 & X3 & X4). destruct (S0 _ _ Py By) as (Y1 & Y2 & Y3 & Y4).
    split; [split; [exact X1|split; [exact Y1|left; exact T]]|].
    split; [split; [exact X2|split; [exact Y2|left; exact T]]|].
    split; [split; [exact X3|split; [exact Y3|left; exact T]]|].
    split; [split; [exact X4|split; [exact Y4|left; exact T]]|exact I].
  - rewrite <- !app_assoc. cbn [app]. rewrite end_pos_app. cbn [end_pos sx sy fst snd].
    rewrite (towards_zero _ bx Px), (towards_zero _ by' Py). split; reflexivity.
Qed.
Lemma flock_home : forall s x y ax ay l, nx N (lock_stitch N s x y ax ay l) = nx N s /\
  ny N (lock_stitch N s x y ax ay l) = ny N s.
Proof.
  intros s x y ax ay l. unfold lock_stitch.
  destruct (match l with Fin _ _ => _ | Inf _ => _ end) as [bx by']. attrs. auto.
Qed.
Lemma lock_towards_fmet : forall s b, FMet s -> fhome s -> FMet (lock_towards N s b) /\ fhome (lock_towards N s b).
Proof.
  intros s b H Hh. unfold lock_towards. destruct b as [b|]; [|auto].
  destruct (point_in_matrix_space N (matrix N s) (sx b) (sy b)) as [bx by'].
  destruct (is_anchor (scmd b)); [|auto]. split; [apply lock_fmet; [exact H|exact Hh|exact (f_ms _ H)]|].
  unfold fhome. destruct (flock_home s (nx N s) (ny N s) bx by' (max_stitch N s)) as [-> ->]. exact Hh.
Qed.
Lemma tie_off_fmet : forall src pos s, FMet s -> fhome s -> FMet (tie_off N src pos s) /\ fhome (tie_off N src pos s).
Proof. intros src pos s H Hh. unfold tie_off. destruct (_ =? _)%Z; [apply lock_towards_fmet; assumption|auto]. Qed.
Lemma tie_on_fmet : forall src pos s, FMet s -> fhome s -> FMet (tie_on N src pos s) /\ fhome (tie_on N src pos s).
Proof. intros src pos s H Hh. unfold tie_on. destruct (_ =? _)%Z; [apply lock_towards_fmet; assumption|auto]. Qed.

Lemma trim_here_fmet : forall s, FMet s -> fhome s -> FMet (trim_here N s) /\ fhome (trim_here N s).
Proof.
  intros s H Hh. unfold trim_here. destruct (fmet_leave s (sequin_mode N s) H (or_introl Hh) (fun e => e)) as (A & B1 & B2 & _).
  set (s1 := if sequin_mode N s then toggle_sequins N s else s) in *.
  assert (Hh1 : fhome s1) by (unfold fhome; rewrite B1, B2; exact Hh).
  split; [apply fmet_trimmed; apply fmet_add; [exact A|exact Hh1]|exact Hh1].
Qed.
Lemma close_fmet : forall src pos s, FMet s -> fhome s ->
  FMet (close_section N src pos s) /\ fhome (close_section N src pos s).
Proof.
  intros src pos s H Hh. unfold close_section. destruct (negb (trimmed N s)); [|auto].
  destruct (tie_off_fmet src pos s H Hh) as [A B].
  destruct (explicit_trim N (tie_off N src pos s)); [apply trim_here_fmet|]; auto.
Qed.
Lemma trim_if_needed_fmet : forall src pos s, FMet s -> fhome s ->
  FMet (tie_off_and_trim_if_needed N src pos s) /\ fhome (tie_off_and_trim_if_needed N src pos s).
Proof.
  intros src pos s H Hh. unfold tie_off_and_trim_if_needed. destruct (negb (trimmed N s)); [|auto].
  destruct (tie_off_fmet src pos s H Hh) as [A B]. apply trim_here_fmet; assumption.
Qed.
Lemma next_change_fmet : forall s s', FMet s -> fhome s -> next_change_sequence N c seq s = Ok s' ->
  FMet s' /\ fhome s'.
Proof.
  intros s s' H Hh E. unfold next_change_sequence in E.
  set (s1 := set_order N s (order_index N s + 1)) in *.
  assert (A : FMet s1) by (apply fmet_order; exact H). assert (B : fhome s1) by exact Hh.
  destruct (dict_get (order_index N s1) seq) as [ch|]; [|discriminate]. injection E as <-.
  assert (G : forall s k, FMet s -> fhome s -> FMet (add_thread_change N s k (c_thread ch) (c_needle ch))).
  { intros s0 k H0 H1. unfold add_thread_change. apply fmet_stay; [exact H0|exact H1|reflexivity|reflexivity]. }
  destruct (thread_change_command c =? COLOR_CHANGE)%Z.
  - cbv zeta. destruct (negb (order_index N s + 1 =? 0)%Z).
    + split; [apply fmet_trimmed, G; [apply fmet_thread; exact A|exact B]|exact B].
    + split; [apply fmet_trimmed, fmet_thread; exact A|exact B].
  - destruct (thread_change_command c =? NEEDLE_SET)%Z; [split; [apply fmet_trimmed, G; [exact A|exact B]|exact B]|].
    destruct (thread_change_command c =? STOP)%Z.
    + split; [apply fmet_trimmed, G; [apply fmet_thread; exact A|exact B]|exact B].
    + split; [apply fmet_trimmed; exact A|exact B].
Qed.
Lemma declare_fmet : forall s s', FMet s -> fhome s -> declare_not_trimmed N c seq s = Ok s' -> FMet s' /\ fhome s'.
Proof.
  intros s s' H Hh E. unfold declare_not_trimmed in E. apply fbind in E. destruct E as (s1 & E1 & E2).
  injection E2 as <-. destruct (order_index N s =? -1)%Z.
  - destruct (next_change_fmet _ _ H Hh E1) as [A B]. split; [apply fmet_trimmed; exact A|exact B].
  - injection E1 as <-. split; [apply fmet_trimmed; exact H|exact Hh].
Qed.
Lemma open_section_fmet : forall src pos x y s s', FMet s -> fhome s -> place x -> place y ->
  open_section N c seq src pos x y s = Ok s' -> FMet s' /\ fhome s'.
Proof.
  intros src pos x y s s' H Hh Px Py E. unfold open_section in E. apply fbind in E.
  destruct E as (s1 & E1 & E2). destruct (declare_fmet _ _ H Hh E1) as [A B].
  apply fbind in E2. destruct E2 as (s2 & E2 & E3).
  destruct (jump_within_fmet _ _ _ _ A B Px Py E2) as (D & Gx & Gy). injection E3 as <-.
  destruct (stitch_at_fmet s2 x y D Gx Gy Px Py) as [D1 D2]. apply tie_on_fmet; assumption.
Qed.
Lemma color_break_fmet : forall src pos rest s s', FMet s -> fhome s ->
  color_break N c seq src pos rest s = Ok s' -> FMet s' /\ fhome s'.
Proof.
  intros src pos rest s s' H Hh E. unfold color_break in E.
  destruct (order_index N s <? 0)%Z; [injection E as <-; auto|].
  destruct (close_fmet src pos s H Hh) as [A B].
  destruct (negb _) in E; [injection E as <-; auto|].
  apply fbind in E. destruct E as (s1 & E1 & E2). injection E2 as <-.
  destruct (next_change_fmet _ _ A B E1) as [D1 D2]. split; [apply fmet_trimmed; exact D1|exact D2].
Qed.
Lemma change_fmet : forall src pos s s', FMet s -> fhome s ->
  tie_off_trim_color_change N c seq src pos s = Ok s' -> FMet s' /\ fhome s'.
Proof.
  intros src pos s s' H Hh E. unfold tie_off_trim_color_change in E.
  apply fbind in E. destruct E as (s1 & E1 & E2). injection E2 as <-.
  destruct (close_fmet src pos s H Hh) as [A B].
  destruct (next_change_fmet _ _ A B E1) as [D1 D2]. split; [apply fmet_trimmed; exact D1|exact D2].
Qed.

(** The commands under which the bound can be kept: no transformations. *)
Definition fop_bounded (a : stitch R) (o : op) : Prop :=
  match o with
  | OpMaxJump | OpMaxStitch => 1 <= sx a <= IZR m
  | OpLongStitch v => long_ok v
  | OpSequinContingency v => sequins_ok v
  | OpTranslate | OpScaleOrigin | OpRotateOrigin | OpScale | OpRotate | OpReset => False
  | _ => True
  end.

Lemma sew_exec_fmet : forall src pos x y s s' (f : st -> res st), FMet s -> fhome s -> place x -> place y ->
  (forall s s', FMet s -> fhome s -> f s = Ok s' -> FMet s' /\ fhome s') ->
  (if trimmed N s then open_section N c seq src pos x y s
   else if jumping N s then do s <- needle_to N s x y; Ok (set_jumping N s false)
   else f s) = Ok s' -> FMet s' /\ fhome s'.
Proof.
  intros src pos x y s s' f H Hh Px Py Hf E. destruct (trimmed N s).
  - exact (open_section_fmet _ _ _ _ _ _ H Hh Px Py E).
  - destruct (jumping N s); [|exact (Hf _ _ H Hh E)].
    apply fbind in E. destruct E as (s1 & E1 & E2). injection E2 as <-.
    destruct (needle_to_fmet _ _ _ _ H Hh Px Py E1) as [A B]. split; [apply fmet_jumping; exact A|exact B].
Qed.

Lemma toggle_home : forall s, FMet s -> fhome s -> FMet (toggle_sequins N s) /\ fhome (toggle_sequins N s).
Proof.
  intros s H Hh. destruct (fmet_toggle s H (or_introl Hh)) as (A & B1 & B2 & _). split; [exact A|].
  unfold fhome. rewrite B1, B2. exact Hh.
Qed.

Lemma exec_fmet : forall src pos rest a x y o s s', FMet s -> fhome s -> place x -> place y -> fop_bounded a o ->
  exec N c seq src pos rest a x y o s = Ok s' -> FMet s' /\ fhome s'.
Proof.
  intros src pos rest a x y o s s' H Hh Px Py Ho E. destruct o; cbn [exec] in E; cbn [fop_bounded] in Ho; try contradiction.
  - injection E as <-. auto.
  - exact (sew_exec_fmet src pos x y s s' (fun s => stitch_with_contingency N s x y) H Hh Px Py
      (fun s s' H Hh E => contingency_fmet s s' x y H Hh Px Py E) E).
  - exact (sew_exec_fmet src pos x y s s' (fun s => needle_to N s x y) H Hh Px Py
      (fun s s' H Hh E => needle_to_fmet s s' x y H Hh Px Py E) E).
  - exact (sew_exec_fmet src pos x y s s' (fun s => sew_to N s x y) H Hh Px Py
      (fun s s' H Hh E => sew_to_fmet s s' x y H Hh Px Py E) E).
  - injection E as <-. split; [apply fmet_jumping; exact H|exact Hh].
  - apply fbind in E. destruct E as (s1 & E1 & E2). injection E2 as <-.
    destruct (trim_if_needed_fmet src pos s H Hh) as [A B].
    destruct (jump_to_fmet _ _ _ _ A B Px Py E1) as [D1 D2].
    split; [apply fmet_trimmed, fmet_add; [exact D1|exact D2]|exact D2].
  - injection E as <-. apply trim_if_needed_fmet; assumption.
  - exact (color_break_fmet _ _ _ _ _ H Hh E).
  - injection E as <-. apply tie_off_fmet; assumption.
  - injection E as <-. apply tie_on_fmet; assumption.
  - injection E as <-. apply trim_if_needed_fmet; assumption.
  - destruct (jumping N s); [injection E as <-; auto|exact (jump_to_fmet _ _ _ _ H Hh Px Py E)].
  - injection E as <-. apply toggle_home; assumption.
  - apply fbind in E. destruct E as (s1 & E1 & E2).
    assert (A : FMet s1 /\ fhome s1).
    { destruct (trimmed N s); [exact (open_section_fmet _ _ _ _ _ _ H Hh Px Py E1)|injection E1 as <-; auto]. }
    destruct A as [A B]. cbv zeta in E2. destruct (sequin_mode N s1).
    + exact (sequin_at_fmet _ _ _ _ A B Px Py E2).
    + destruct (toggle_home s1 A B) as [D1 D2]. exact (sequin_at_fmet _ _ _ _ D1 D2 Px Py E2).
  - exact (change_fmet _ _ _ _ H Hh E).
  - injection E as <-. split; [apply fmet_trimmed, fmet_add; [exact H|exact Hh]|exact Hh].
  - injection E as <-. destruct (writes_speeds c); [split; [apply fmet_add; [exact H|exact Hh]|exact Hh]|auto].
  - injection E as <-. destruct (writes_speeds c); [split; [apply fmet_add; [exact H|exact Hh]|exact Hh]|auto].
  - injection E as <-. split; [apply fmet_trimmed, fmet_add; [exact H|exact Hh]|exact Hh].
  - injection E as <-. split; [fmet H|exact Hh].
  - injection E as <-. split; [fmet H|exact Hh].
  - injection E as <-. split; [fmet H|exact Hh].
  - injection E as <-. split; [fmet H|exact Hh].
  - injection E as <-. split; [fmet H|exact Hh].
  - injection E as <-. split; [fmet H|exact Hh].
  - injection E as <-.
    assert (A : let s1 := if negb (c0 =? CONTINGENCY_SEQUIN_UTILIZE)%Z && sequin_mode N s then toggle_sequins N s else s in
      FMet s1 /\ fhome s1) by (cbv zeta; destruct (_ && _); [apply toggle_home; assumption|auto]).
    cbv zeta in A. destruct A as [A B]. split; [fmet A|exact B].
Qed.

Hypothesis (Hround : rounding c = true).

Lemma identity_point : forall x y, Rabs x <= b2 20 -> Rabs y <= b2 20 -> f64 x -> f64 y ->
  point_in_matrix_space N (get_identity N) x y = (x, y).
Proof.
  intros x y Bx By Fx Fy. unfold point_in_matrix_space, get_identity. cbn [m0 m1 m3 m4 m6 m7 f0 f1 fadd fmul FNum].
  repeat progress rewrite ?Rmult_0_r, ?Rmult_1_r, ?rnd_0, ?Rplus_0_r, ?Rplus_0_l, ?(rnd_f64 x Fx), ?(rnd_f64 y Fy). reflexivity.
Qed.
Lemma near_place : forall x, Rabs x <= b2 20 -> place (IZR (ZnearestE x)).
Proof.
  intros x B. split; [apply whole_Z|]. assert (Q : Rabs x < IZR 1048576 + / 2) by (rewrite b2_20 in B; lra).
  apply near_abs in Q. rewrite <- abs_IZR, b2_20. apply IZR_le. lia.
Qed.
Definition fcoord (a : stitch R) : Prop :=
  Rabs (fst (point_in_matrix_space N mx (sx a) (sy a))) <= b2 20 /\ Rabs (snd (point_in_matrix_space N mx (sx a) (sy a))) <= b2 20.
Lemma placed_place : forall s a x y, FMet s -> fcoord a -> placed N c s a = Ok (x, y) -> place x /\ place y.
Proof.
  intros s a x y H [Bx By] E. unfold placed in E. rewrite (f_matrix _ H) in E. change (NumModel.F N) with R in *.
  destruct (point_in_matrix_space N mx (sx a) (sy a)) as [px py]. cbn [fst snd] in *.
  rewrite Hround in E. cbn [fround FNum bindr] in E. injection E as <- <-. split; apply near_place; assumption.
Qed.

Lemma main_loop_fmet : forall src rest pos s s', FMet s -> fhome s ->
  Forall (fun a => fcoord a /\ fop_bounded a (classify (cmd_of (scmd a)))) rest ->
  main_loop N c seq src pos rest s = Ok s' -> FMet s'.
Proof.
  intros src rest. induction rest as [|a rest IH]; intros pos s s' H Hh Ho E; cbn [main_loop] in E.
  - injection E as <-. apply fmet_trimmed, fmet_add; assumption.
  - apply fbind in E. destruct E as ([x y] & E1 & E2). inversion Ho as [|? ? [Ha1 Ha2] Hr]; subst.
    destruct (placed_place _ _ _ _ H Ha1 E1) as [Wx Wy].
    apply fbind in E2. destruct E2 as (s1 & E2 & E3).
    destruct (exec_fmet _ _ _ _ _ _ _ _ _ (fmet_set_high s (scmd a) H) Hh Wx Wy Ha2 E2) as [A B].
    destruct (_ =? END)%Z; [injection E3 as <-; exact A|exact (IH _ _ _ A B Hr E3)].
Qed.
End Methods.
End FMatrix.

(** ** The whole encoder *)
Theorem transcode_fwalk : forall set p out threads,
  rounding (init_config N set) = true ->
  flimit_ok (get (s_max_stitch N set) (Inf N)) -> flimit_ok (get (s_max_jump N set) (Inf N)) ->
  long_ok (get (s_long_stitch_contingency N set) CONTINGENCY_LONG_STITCH_JUMP_NEEDLE) ->
  sequins_ok (sequin_contingency N (init_state N set)) ->
  Forall (fun a => fcoord (init_matrix N set) a /\ fop_bounded a (classify (cmd_of (scmd a)))) (p_stitches N p) ->
  transcode N set p = Ok (out, threads) -> fwalk m 0 0 out.
Proof.
  intros set p o threads Hr L1 L2 L3 L4 Ho E. unfold transcode in E. apply fbind in E.
  destruct E as (seq & _ & E). cbv zeta in E. apply fbind in E. destruct E as (s & E & E').
  injection E' as <- _.
  refine (f_walk _ _ (main_loop_fmet (init_matrix N set) _ _ Hr _ _ _ _ _ _ _ Ho E)).
  - destruct (_ =? NEEDLE_SET)%Z; constructor; cbn; try assumption; try exact I; try reflexivity; split; reflexivity.
  - destruct (_ =? NEEDLE_SET)%Z; split; apply place_0.
Qed.
End FEnc.
