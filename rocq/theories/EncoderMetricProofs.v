(** Step lengths of the encoder's output, over exact rationals. *)
From Coq Require Import ZArith List Bool Lia QArith Qabs Qround Lqa.
From Verif Require Import PyBase EmbConst FunctionsModel ThreadModel NumModel MatrixModel EncoderModel
  BitLemmas EncoderProofs NumQ MetricSpec.
Import ListNotations.
Open Scope Z_scope.

Lemma end_pos_app : forall C (a b : list (stitch C)) x y,
  end_pos x y (a ++ b) = end_pos (fst (end_pos x y a)) (snd (end_pos x y a)) b.
Proof. induction a as [|s a IH]; intros b x y; [reflexivity|]. cbn [app end_pos]. apply IH. Qed.

Lemma walk_app : forall R a b x y,
  walk R x y (a ++ b) <-> walk R x y a /\ walk R (fst (end_pos x y a)) (snd (end_pos x y a)) b.
Proof.
  induction a as [|s a IH]; intros b x y.
  - cbn [app walk end_pos fst snd]. tauto.
  - cbn [app walk end_pos]. rewrite IH. tauto.
Qed.

Lemma Qabs_le : forall x m, (Qabs x <= m <-> - m <= x /\ x <= m)%Q.
Proof. intros. apply Qabs_Qle_condition. Qed.

Lemma integral_add : forall a b, integral a -> integral b -> integral (a + b)%Q.
Proof. intros a b [x Hx] [y Hy]. exists (x + y). rewrite Hx, Hy, inject_Z_plus. reflexivity. Qed.
Lemma integral_opp : forall a, integral a -> integral (- a)%Q.
Proof. intros a [x Hx]. exists (- x). rewrite Hx, inject_Z_opp. reflexivity. Qed.
Lemma integral_eq : forall a b, (a == b)%Q -> integral a -> integral b.
Proof. intros a b E [x Hx]. exists x. rewrite <- E. exact Hx. Qed.
Lemma integral_Z : forall z, integral (inject_Z z).
Proof. intros z. exists z. reflexivity. Qed.

(** ** Allowed steps *)
Section Step.
Variables (r : bool) (M : Q).
Hypothesis (HM : (0 < M)%Q) (HMi : r = true -> integral M).

(** At most M; with rounding on, exactly M only between whole coordinates. *)
Definition good (a b : Q) : Prop :=
  (- M <= b - a /\ b - a <= M)%Q /\
  (r = true -> (b - a == M \/ b - a == - M)%Q -> integral a /\ integral b).

Lemma good_eq : forall a a' b b', (a == a')%Q -> (b == b')%Q -> good a b -> good a' b'.
Proof.
  intros a a' b b' Ea Eb [H1 H2]. split.
  - lra.
  - intros Hr H. destruct (H2 Hr ltac:(lra)) as [A B].
    split; [exact (integral_eq _ _ Ea A)|exact (integral_eq _ _ Eb B)].
Qed.

Lemma good_refl : forall a b, (a == b)%Q -> good a b.
Proof. intros a b E. split; [lra|]. intros _ H. exfalso. lra. Qed.

Lemma good_strict : forall a b, (- M < b - a /\ b - a < M)%Q -> good a b.
Proof. intros a b H. split; [lra|]. intros _ H'. exfalso. lra. Qed.

Lemma good_whole : forall a b, (- M <= b - a /\ b - a <= M)%Q -> (r = true -> integral a /\ integral b) ->
  good a b.
Proof. intros a b H1 H2. split; [exact H1|]. intros Hr _. exact (H2 Hr). Qed.

(** A step of [d] from [q], as many times as wanted. *)
Definition stride (d q : Q) : Prop :=
  (- M <= d /\ d <= M)%Q /\ (r = true -> (d == M \/ d == - M)%Q -> integral q).

Lemma stride_integral : forall d, r = true -> (d == M \/ d == - M)%Q -> integral d.
Proof.
  intros d Hr [H|H].
  - apply (integral_eq M); [symmetry; exact H|exact (HMi Hr)].
  - apply (integral_eq (- M)%Q); [symmetry; exact H|]. apply integral_opp. exact (HMi Hr).
Qed.

Lemma stride_next : forall d q q', (q' == q + d)%Q -> stride d q -> stride d q'.
Proof.
  intros d q q' E [H1 H2]. split; [exact H1|]. intros Hr H.
  apply (integral_eq (q + d)%Q); [symmetry; exact E|].
  apply integral_add; [exact (H2 Hr H)|apply stride_integral; assumption].
Qed.

Lemma stride_good : forall d q q', (q' == q + d)%Q -> stride d q -> good q q'.
Proof.
  intros d q q' E H. pose proof (stride_next d q q' E H) as H'. destruct H as [H1 H2], H' as [_ H3].
  split; [lra|]. intros Hr HH. assert (HH' : (d == M \/ d == - M)%Q) by lra.
  split; [exact (H2 Hr HH')|exact (H3 Hr HH')].
Qed.
End Step.

(** ** The number of steps *)
Lemma Qdiv_bound : forall d l n, (0 < l)%Q -> (Qabs (d / l) <= inject_Z n)%Q -> (Qabs d <= inject_Z n * l)%Q.
Proof.
  intros d l n Hl H.
  assert (E : (Qabs d == Qabs (d / l) * l)%Q).
  { assert (E1 : (d == (d / l) * l)%Q) by (field; lra).
    rewrite E1 at 1. rewrite Qabs_Qmult. rewrite (Qabs_pos l) by lra. reflexivity. }
  rewrite E. apply Qmult_le_compat_r; lra.
Qed.

Lemma abs_le_div : forall d l n, (0 < l)%Q -> (Qabs d <= inject_Z n * l)%Q -> (Qabs (d / l) <= inject_Z n)%Q.
Proof.
  intros d l n Hl H. apply Qmult_lt_0_le_reg_r with l; [exact Hl|].
  assert (E : (Qabs d == Qabs (d / l) * l)%Q).
  { assert (E1 : (d == (d / l) * l)%Q) by (field; lra).
    rewrite E1 at 1. rewrite Qabs_Qmult. rewrite (Qabs_pos l) by lra. reflexivity. }
  rewrite <- E. exact H.
Qed.

Lemma inject_pos : forall n, 0 < n -> (0 < inject_Z n)%Q.
Proof. intros n H. change 0%Q with (inject_Z 0). rewrite <- Zlt_Qlt. exact H. Qed.

Lemma step_bound : forall d l n, (0 < l)%Q -> 0 < n -> (Qabs d <= inject_Z n * l)%Q ->
  (- l <= d / inject_Z n /\ d / inject_Z n <= l)%Q.
Proof.
  intros d l n Hl Hn H. pose proof (inject_pos n Hn) as P. apply Qabs_Qle_condition.
  apply Qmult_lt_0_le_reg_r with (inject_Z n); [exact P|].
  assert (E : (Qabs (d / inject_Z n) * inject_Z n == Qabs d)%Q).
  { rewrite <- (Qabs_pos (inject_Z n)) at 2 by lra. rewrite <- Qabs_Qmult.
    assert (E1 : (d / inject_Z n * inject_Z n == d)%Q) by (field; lra). rewrite E1. reflexivity. }
  rewrite E, Qmult_comm. exact H.
Qed.

Lemma gt_spec : forall a b, if q_gt a b then (b < a)%Q else (a <= b)%Q.
Proof.
  intros a b. unfold q_gt. destruct (Qle_bool a b) eqn:E; cbn [negb].
  - apply Qle_bool_iff. exact E.
  - apply Qnot_le_lt. intros H. apply Qle_bool_iff in H. congruence.
Qed.

Lemma div_ok : forall a b, ~ (b == 0)%Q -> q_div a b = Ok (a / b)%Q.
Proof.
  intros a b H. unfold q_div. destruct (Qeq_bool b 0) eqn:E; [|reflexivity].
  apply Qeq_bool_iff in E. contradiction.
Qed.

Lemma ceil_small : forall x n, (x <= inject_Z n)%Q -> Qceiling x <= n.
Proof. intros x n H. rewrite <- (Qceiling_Z n). apply Qceiling_resp_le. exact H. Qed.

(** The step count that [interpolate_gap_stitches] computes: the least one that fits. *)
Definition gap_steps (dx dy l : Q) : Z := Z.max (Qceiling (Qabs (dx / l))) (Qceiling (Qabs (dy / l))).

Lemma gap_steps_fit : forall dx dy l, (0 < l)%Q ->
  (Qabs dx <= inject_Z (gap_steps dx dy l) * l)%Q /\ (Qabs dy <= inject_Z (gap_steps dx dy l) * l)%Q.
Proof.
  intros dx dy l Hl. unfold gap_steps. split; apply Qdiv_bound; try exact Hl.
  - apply Qle_trans with (inject_Z (Qceiling (Qabs (dx / l)))); [apply Qle_ceiling|].
    rewrite <- Zle_Qle. lia.
  - apply Qle_trans with (inject_Z (Qceiling (Qabs (dy / l)))); [apply Qle_ceiling|].
    rewrite <- Zle_Qle. lia.
Qed.

Lemma gap_steps_least : forall dx dy l n, (0 < l)%Q ->
  (Qabs dx <= inject_Z n * l)%Q -> (Qabs dy <= inject_Z n * l)%Q -> gap_steps dx dy l <= n.
Proof.
  intros dx dy l n Hl Hx Hy. unfold gap_steps. apply Z.max_lub; apply ceil_small; apply abs_le_div; assumption.
Qed.

Lemma gap_steps_pos : forall dx dy l, (0 < l)%Q -> (l < Qabs dx \/ l < Qabs dy)%Q -> 1 < gap_steps dx dy l.
Proof.
  intros dx dy l Hl H. destruct (Z_lt_le_dec 1 (gap_steps dx dy l)) as [G|G]; [exact G|].
  destruct (gap_steps_fit dx dy l Hl) as [Hx Hy].
  assert (L : (inject_Z (gap_steps dx dy l) * l <= l)%Q).
  { apply Qle_trans with (inject_Z 1 * l)%Q; [|change (inject_Z 1) with 1%Q; lra].
    apply Qmult_le_compat_r; [|lra]. rewrite <- Zle_Qle. exact G. }
  exfalso. lra.
Qed.

Section QEnc.
Variables (qcos qsin : Q -> Q) (qorient : Q -> Q -> Q -> Q -> Q -> Q * Q).
Notation N := (QNum qcos qsin qorient).
Notation st := (st N).

(** What the gap filler does, in closed form. *)
Lemma interpolate_eq : forall (s : st) (x0 y0 x1 y1 l : Q) data, (0 < l)%Q ->
  interpolate_gap_stitches N s x0 y0 x1 y1 (Fin N l) data =
  if q_gt (Qabs (x1 - x0)) l || q_gt (Qabs (y1 - y0)) l then
    let s := if (data =? JUMP) && sequin_mode N s then toggle_sequins N s else s in
    let n := gap_steps (x1 - x0) (y1 - y0) l in
    Ok (gap_loop N (Z.to_nat (n - 1)) x0 y0 ((x1 - x0) / inject_Z n)%Q ((y1 - y0) / inject_Z n)%Q
          (Z.lor data (high_flags N s)) s)
  else Ok s.
Proof.
  intros s x0 y0 x1 y1 l data Hl. unfold interpolate_gap_stitches.
  unfold exceeds. cbn [fsub fabs fgtb fdiv fdivz fceil QNum F].
  set (e := q_gt (Qabs (x1 - x0)) l || q_gt (Qabs (y1 - y0)) l).
  destruct e eqn:E; [|reflexivity].
  assert (P : 1 < gap_steps (x1 - x0) (y1 - y0) l).
  { apply gap_steps_pos; [exact Hl|]. subst e. apply orb_true_iff in E.
    pose proof (gt_spec (Qabs (x1 - x0)) l) as G1. pose proof (gt_spec (Qabs (y1 - y0)) l) as G2.
    destruct E as [E|E]; rewrite E in *; [left; exact G1|right; exact G2]. }
  rewrite !div_ok by lra. cbn [bindr].
  assert (S : (if Qceiling (Qabs ((y1 - y0) / l)) <? Qceiling (Qabs ((x1 - x0) / l))
               then Qceiling (Qabs ((x1 - x0) / l)) else Qceiling (Qabs ((y1 - y0) / l)))
              = gap_steps (x1 - x0) (y1 - y0) l).
  { unfold gap_steps. set (a := Qceiling (Qabs ((x1 - x0) / l))). set (b := Qceiling (Qabs ((y1 - y0) / l))).
    destruct (Z.ltb_spec b a); lia. }
  rewrite S. rewrite !div_ok by (pose proof (inject_pos (gap_steps (x1 - x0) (y1 - y0) l) ltac:(lia)); lra).
  reflexivity.
Qed.

Lemma interpolate_inf : forall (s : st) x0 y0 x1 y1 data,
  interpolate_gap_stitches N s x0 y0 x1 y1 (Inf N) data = Ok s.
Proof. reflexivity. Qed.

(** ** Invariant *)
Variables (r : bool) (M : Q).
Hypothesis (HM : (0 < M)%Q) (HMi : r = true -> integral M).
Hypothesis (Horient : forall x0 y0 x1 y1 l, (0 < l)%Q ->
  (- l <= fst (qorient x0 y0 x1 y1 l) - x0 /\ fst (qorient x0 y0 x1 y1 l) - x0 <= l)%Q /\
  (- l <= snd (qorient x0 y0 x1 y1 l) - y0 /\ snd (qorient x0 y0 x1 y1 l) - y0 <= l)%Q).
Notation good := (good r M).
Notation stride := (stride r M).

Definition limit_ok (l : limit N) : Prop :=
  match l with Fin _ l => (0 < l /\ l <= M)%Q | Inf _ => False end.
Definition long_ok (v : Z) : Prop :=
  v = CONTINGENCY_LONG_STITCH_SEW_TO \/ v = CONTINGENCY_LONG_STITCH_JUMP_NEEDLE.
Definition sequins_ok (v : Z) : Prop :=
  v = CONTINGENCY_SEQUIN_REMOVE \/ v = CONTINGENCY_SEQUIN_UTILIZE \/
  v = CONTINGENCY_SEQUIN_JUMP \/ v = CONTINGENCY_SEQUIN_STITCH.
Definition whole (x : Q) : Prop := r = true -> integral x.

Record Met (s : st) : Prop := mkMet {
  m_walk : walk good 0 0 (out N s);
  m_end : (fst (end_pos 0%Q 0%Q (out N s)) == nx N s /\ snd (end_pos 0%Q 0%Q (out N s)) == ny N s)%Q;
  m_ms : limit_ok (max_stitch N s);
  m_mj : limit_ok (max_jump N s);
  m_long : long_ok (long_stitch_contingency N s);
  m_seq : sequins_ok (sequin_contingency N s);
  m_high : Z.land (high_flags N s) FLAGS_MASK = high_flags N s }.
Definition home (s : st) : Prop := whole (nx N s) /\ whole (ny N s).

Ltac met H := destruct H as [? ? ? ? ? ? ?]; constructor; attrs; assumption.

(** A command at (sx a, sy a), which becomes the needle position. *)
Lemma met_go : forall s a, Met s -> good (nx N s) (sx a) -> good (ny N s) (sy a) ->
  (travels (scmd a) \/ (sx a == nx N s /\ sy a == ny N s)%Q) ->
  Met (update_needle_position N (append N s a) (sx a) (sy a)).
Proof.
  intros s a [W [Ex Ey] L1 L2 L3 L4 L5] Gx Gy T. constructor; attrs; try assumption.
  - apply walk_app. split; [exact W|]. cbn [walk]. split; [|exact I]. split; [|split].
    + apply (good_eq r M (nx N s) _ (sx a) _); [symmetry; exact Ex|reflexivity|exact Gx].
    + apply (good_eq r M (ny N s) _ (sy a) _); [symmetry; exact Ey|reflexivity|exact Gy].
    + destruct T as [T|[T1 T2]]; [left; exact T|right]. rewrite Ex, Ey. split; assumption.
  - rewrite end_pos_app. cbn [end_pos fst snd]. split; reflexivity.
Qed.

(** A command at the needle position. *)
Lemma met_stay : forall s a, Met s -> (sx a == nx N s)%Q -> (sy a == ny N s)%Q -> Met (append N s a).
Proof.
  intros s a H Ex Ey.
  pose proof (met_go s a H (good_refl r M HM _ _ (Qeq_sym _ _ Ex)) (good_refl r M HM _ _ (Qeq_sym _ _ Ey))
                (or_intror (conj Ex Ey))) as H'.
  destruct H' as [W [E1 E2] L1 L2 L3 L4 L5]. constructor; try assumption.
  revert E1 E2. attrs. intros E1 E2. rewrite E1, E2. split; assumption.
Qed.

Lemma met_needle : forall s x y, Met s -> (x == nx N s)%Q -> (y == ny N s)%Q ->
  Met (update_needle_position N s x y).
Proof.
  intros s x y [W [E1 E2] L1 L2 L3 L4 L5] Ex Ey. constructor; attrs; try assumption.
  rewrite E1, E2, Ex, Ey. split; reflexivity.
Qed.

Lemma met_trimmed : forall s b, Met s -> Met (set_trimmed N s b). Proof. intros s b H. met H. Qed.
Lemma met_mode : forall s b, Met s -> Met (set_sequin_mode N s b). Proof. intros s b H. met H. Qed.
Lemma met_order : forall s b, Met s -> Met (set_order N s b). Proof. intros s b H. met H. Qed.
Lemma met_thread : forall s b, Met s -> Met (add_thread N s b). Proof. intros s b H. met H. Qed.
Lemma met_jumping : forall s b, Met s -> Met (set_jumping N s b). Proof. intros s b H. met H. Qed.
Lemma met_matrix : forall s b, Met s -> Met (set_matrix N s b). Proof. intros s b H. met H. Qed.
Lemma met_set_high : forall s v, Met s -> Met (set_high N s (Z.land v FLAGS_MASK)).
Proof. intros s v [? ? ? ? ? ? ?]. constructor; attrs; try assumption. apply high_flags_mask. Qed.

Lemma met_add : forall s k, Met s -> Met (add N s k).
Proof. intros s k H. apply met_stay; [exact H|reflexivity|reflexivity]. Qed.

Lemma met_toggle : forall s, Met s ->
  Met (toggle_sequins N s) /\ nx N (toggle_sequins N s) = nx N s /\ ny N (toggle_sequins N s) = ny N s
  /\ max_stitch N (toggle_sequins N s) = max_stitch N s /\ max_jump N (toggle_sequins N s) = max_jump N s
  /\ high_flags N (toggle_sequins N s) = high_flags N s.
Proof.
  intros s H. unfold toggle_sequins. destruct (_ =? _); [|auto 8].
  split; [|attrs; auto 8]. apply met_mode. apply met_add. exact H.
Qed.

Lemma met_leave : forall s (b : bool), Met s -> let s' := if b then toggle_sequins N s else s in
  Met s' /\ nx N s' = nx N s /\ ny N s' = ny N s
  /\ max_stitch N s' = max_stitch N s /\ max_jump N s' = max_jump N s /\ high_flags N s' = high_flags N s.
Proof. intros s b H. destruct b; [apply met_toggle; exact H|auto 8]. Qed.

Lemma travels_lor : forall k h, Z.land h FLAGS_MASK = h -> k = STITCH \/ k = JUMP \/ k = SEQUIN_EJECT ->
  travels (Z.lor k h).
Proof.
  intros k h Hh Hk. unfold travels. change (Z.land (Z.lor k h) 255) with (cmd_of (Z.lor k h)).
  rewrite cmd_lor_high; [exact Hk| |exact Hh].
  destruct Hk as [-> | [-> | ->]]; unfold STITCH, JUMP, SEQUIN_EJECT; lia.
Qed.

Lemma gap_loop_met : forall n s qx qy ax ay cmd, Met s -> (qx == nx N s)%Q -> (qy == ny N s)%Q ->
  stride ax qx -> stride ay qy -> travels cmd ->
  let s' := gap_loop N n qx qy ax ay cmd s in
  Met s' /\ (nx N s' == qx + inject_Z (Z.of_nat n) * ax)%Q /\ (ny N s' == qy + inject_Z (Z.of_nat n) * ay)%Q
  /\ stride ax (nx N s') /\ stride ay (ny N s').
Proof.
  induction n as [|n IH]; intros s qx qy ax ay cmd H Ex Ey Sx Sy T.
  - cbn [gap_loop]. change (inject_Z (Z.of_nat 0)) with 0%Q.
    split; [exact H|]. split; [rewrite <- Ex; lra|]. split; [rewrite <- Ey; lra|].
    destruct Sx as [Sx1 Sx2], Sy as [Sy1 Sy2].
    split; (split; [assumption|]); intros Hr HH; eapply integral_eq; eauto.
  - cbn [gap_loop]. cbn [fadd QNum].
    assert (H1 : Met (update_needle_position N (append N s (mkS (qx + ax)%Q (qy + ay)%Q cmd)) (qx + ax)%Q (qy + ay)%Q)).
    { apply (met_go s (mkS (qx + ax)%Q (qy + ay)%Q cmd) H); cbn [sx sy scmd]; [| |left; exact T].
      - apply (good_eq r M qx _ (qx + ax)%Q _ Ex (Qeq_refl _)).
        apply (stride_good r M HMi ax); [reflexivity|exact Sx].
      - apply (good_eq r M qy _ (qy + ay)%Q _ Ey (Qeq_refl _)).
        apply (stride_good r M HMi ay); [reflexivity|exact Sy]. }
    destruct (IH _ (qx + ax)%Q (qy + ay)%Q ax ay cmd H1 (Qeq_refl _) (Qeq_refl _)
                (stride_next r M HMi _ _ _ (Qeq_refl _) Sx) (stride_next r M HMi _ _ _ (Qeq_refl _) Sy) T)
      as (A & B & C & D & E).
    split; [exact A|]. rewrite Nat2Z.inj_succ, <- Z.add_1_r, inject_Z_plus.
    split; [rewrite B; change (inject_Z 1) with 1%Q; lra|].
    split; [rewrite C; change (inject_Z 1) with 1%Q; lra|]. split; assumption.
Qed.

Lemma interpolate_met : forall s s' x y l data, Met s -> home s -> whole x -> whole y -> limit_ok l ->
  data = STITCH \/ data = JUMP ->
  interpolate_gap_stitches N s (nx N s) (ny N s) x y l data = Ok s' ->
  Met s' /\ good (nx N s') x /\ good (ny N s') y.
Proof.
  intros s s' x y l data H [Wx Wy] Tx Ty L HD E. destruct l as [l|]; [|contradiction].
  destruct L as [L1 L2]. rewrite (interpolate_eq s (nx N s) (ny N s) x y l data L1) in E.
  destruct (q_gt (Qabs (x - nx N s)) l || q_gt (Qabs (y - ny N s)) l) eqn:G.
  - assert (P : 1 < gap_steps (x - nx N s) (y - ny N s) l).
    { apply gap_steps_pos; [exact L1|]. apply orb_true_iff in G.
      pose proof (gt_spec (Qabs (x - nx N s)) l) as G1. pose proof (gt_spec (Qabs (y - ny N s)) l) as G2.
      destruct G as [G|G]; rewrite G in *; [left; exact G1|right; exact G2]. }
    destruct (gap_steps_fit (x - nx N s) (y - ny N s) l L1) as [F1 F2].
    set (n := gap_steps (x - nx N s) (y - ny N s) l) in *. cbv zeta in E.
    destruct (met_leave s ((data =? JUMP) && sequin_mode N s) H) as (A & B1 & B2 & B3 & B4 & B5).
    set (s1 := if (data =? JUMP) && sequin_mode N s then toggle_sequins N s else s) in *.
    assert (HD' : data = STITCH \/ data = JUMP \/ data = SEQUIN_EJECT) by tauto.
    assert (P0 : 0 < n) by lia. pose proof (inject_pos n P0) as Pn.
    assert (Q1 : forall u v, (Qabs (v - u) <= inject_Z n * l)%Q -> whole u -> whole v ->
               stride ((v - u) / inject_Z n) u).
    { intros u v Hb Hu Hv. pose proof (step_bound _ _ _ L1 P0 Hb) as Hb'.
      split; [lra|]. intros Hr _. exact (Hu Hr). }
    pose proof (gap_loop_met (Z.to_nat (n - 1)) s1 (nx N s) (ny N s) ((x - nx N s) / inject_Z n)
      ((y - ny N s) / inject_Z n) (Z.lor data (high_flags N s1)) A
      ltac:(rewrite B1; reflexivity) ltac:(rewrite B2; reflexivity)
      (Q1 _ _ F1 Wx Tx) (Q1 _ _ F2 Wy Ty)
      (travels_lor data (high_flags N s1) (m_high _ A) HD')) as Z0.
    cbv zeta in Z0. injection E as E. rewrite E in Z0. destruct Z0 as (C1 & C2 & C3 & C4 & C5).
    split; [exact C1|]. rewrite Z2Nat.id in C2, C3 by lia.
    assert (Q2 : forall u v w, (w == u + inject_Z (n - 1) * ((v - u) / inject_Z n))%Q ->
              (v == w + (v - u) / inject_Z n)%Q).
    { intros u v w Hw. rewrite Hw. unfold Z.sub. rewrite inject_Z_plus. change (inject_Z (- (1))) with (-1)%Q.
      field. lra. }
    split.
    + apply (stride_good r M HMi ((x - nx N s) / inject_Z n)%Q); [apply Q2; exact C2|exact C4].
    + apply (stride_good r M HMi ((y - ny N s) / inject_Z n)%Q); [apply Q2; exact C3|exact C5].
  - injection E as <-. apply orb_false_iff in G. destruct G as [G1 G2].
    pose proof (gt_spec (Qabs (x - nx N s)) l) as K1. pose proof (gt_spec (Qabs (y - ny N s)) l) as K2.
    rewrite G1 in K1. rewrite G2 in K2. apply Qabs_le in K1. apply Qabs_le in K2.
    split; [exact H|]. split; apply good_whole; try lra; intros Hr; split; auto.
Qed.

Lemma stitch_at_met : forall s x y, Met s -> good (nx N s) x -> good (ny N s) y -> whole x -> whole y ->
  Met (stitch_at N s x y) /\ home (stitch_at N s x y).
Proof.
  intros s x y H Gx Gy Wx Wy. unfold stitch_at, add_at. split; [|split; attrs; assumption].
  apply (met_go s (mkS x y (Z.lor STITCH (high_flags N s))) H Gx Gy). left.
  apply travels_lor; [exact (m_high _ H)|tauto].
Qed.

Lemma jump_at_met : forall s x y, Met s -> good (nx N s) x -> good (ny N s) y -> whole x -> whole y ->
  Met (jump_at N s x y) /\ home (jump_at N s x y).
Proof.
  intros s x y H Gx Gy Wx Wy. unfold jump_at.
  destruct (met_leave s (sequin_mode N s) H) as (A & B1 & B2 & _).
  set (s1 := if sequin_mode N s then toggle_sequins N s else s) in *.
  rewrite <- B1 in Gx. rewrite <- B2 in Gy. split; [|split; attrs; assumption].
  apply (met_go s1 (mkS x y (Z.lor JUMP (high_flags N s1))) A Gx Gy). left.
  apply travels_lor; [exact (m_high _ A)|tauto].
Qed.

Lemma bind_ok : forall A B (m : res A) (k : A -> res B) b, bindr m k = Ok b -> exists a, m = Ok a /\ k a = Ok b.
Proof. intros A B m k b H. destruct m as [a|e]; [|discriminate]. exists a. auto. Qed.

Section Methods.
Variables (c : config) (seq : dict change).

Lemma jump_within_met : forall s s' x y, Met s -> home s -> whole x -> whole y ->
  jump_to_within_stitchrange N c s x y = Ok s' -> Met s' /\ good (nx N s') x /\ good (ny N s') y.
Proof.
  intros s s' x y H Hh Wx Wy E. unfold jump_to_within_stitchrange in E. apply bind_ok in E.
  destruct E as (s1 & E1 & E2).
  destruct (interpolate_met s s1 x y _ JUMP H Hh Wx Wy (m_mj _ H) (or_intror eq_refl) E1) as (A & Gx & Gy).
  destruct (full_jump c); [|injection E2 as <-; auto].
  destruct (_ || _) in E2; injection E2 as <-; [|auto].
  destruct (jump_at_met s1 x y A Gx Gy Wx Wy) as [B1 B2]. split; [exact B1|].
  unfold jump_at. attrs. split; apply good_refl; try exact HM; reflexivity.
Qed.

Lemma jump_to_met : forall s s' x y, Met s -> home s -> whole x -> whole y ->
  jump_to N s x y = Ok s' -> Met s' /\ home s'.
Proof.
  intros s s' x y H Hh Wx Wy E. unfold jump_to in E. apply bind_ok in E. destruct E as (s1 & E1 & E2).
  destruct (interpolate_met s s1 x y _ JUMP H Hh Wx Wy (m_mj _ H) (or_intror eq_refl) E1) as (A & Gx & Gy).
  injection E2 as <-. apply jump_at_met; assumption.
Qed.

Lemma needle_to_met : forall s s' x y, Met s -> home s -> whole x -> whole y ->
  needle_to N s x y = Ok s' -> Met s' /\ home s'.
Proof.
  intros s s' x y H Hh Wx Wy E. unfold needle_to in E. apply bind_ok in E. destruct E as (s1 & E1 & E2).
  destruct (interpolate_met s s1 x y _ JUMP H Hh Wx Wy (m_ms _ H) (or_intror eq_refl) E1) as (A & Gx & Gy).
  injection E2 as <-. apply stitch_at_met; assumption.
Qed.

Lemma sew_to_met : forall s s' x y, Met s -> home s -> whole x -> whole y ->
  sew_to N s x y = Ok s' -> Met s' /\ home s'.
Proof.
  intros s s' x y H Hh Wx Wy E. unfold sew_to in E. apply bind_ok in E. destruct E as (s1 & E1 & E2).
  destruct (interpolate_met s s1 x y _ STITCH H Hh Wx Wy (m_ms _ H) (or_introl eq_refl) E1) as (A & Gx & Gy).
  injection E2 as <-. apply stitch_at_met; assumption.
Qed.

Lemma contingency_met : forall s s' x y, Met s -> home s -> whole x -> whole y ->
  stitch_with_contingency N s x y = Ok s' -> Met s' /\ home s'.
Proof.
  intros s s' x y H Hh Wx Wy E. unfold stitch_with_contingency in E.
  destruct (m_long _ H) as [L|L]; rewrite L in E.
  - rewrite Z.eqb_refl in E. exact (sew_to_met _ _ _ _ H Hh Wx Wy E).
  - rewrite Z.eqb_refl in E.
    change (CONTINGENCY_LONG_STITCH_JUMP_NEEDLE =? CONTINGENCY_LONG_STITCH_SEW_TO) with false in E.
    exact (needle_to_met _ _ _ _ H Hh Wx Wy E).
Qed.

Lemma sequin_at_met : forall s s' x y, Met s -> home s -> whole x -> whole y ->
  sequin_at N s x y = Ok s' -> Met s' /\ home s'.
Proof.
  intros s s' x y H Hh Wx Wy E. unfold sequin_at in E.
  destruct (Z.eqb_spec (sequin_contingency N s) CONTINGENCY_SEQUIN_REMOVE) as [E0|E0];
    [injection E as <-; auto|].
  apply bind_ok in E. destruct E as (s1 & E1 & E2).
  destruct (interpolate_met s s1 x y _ STITCH H Hh Wx Wy (m_ms _ H) (or_introl eq_refl) E1) as (A & Gx & Gy).
  injection E2 as <-.
  assert (D : forall k, k = STITCH \/ k = JUMP \/ k = SEQUIN_EJECT ->
    Met (update_needle_position N (add_at N s1 k x y) x y) /\ home (update_needle_position N (add_at N s1 k x y) x y)).
  { intros k Hk. split; [|split; attrs; assumption].
    apply (met_go s1 (mkS x y (Z.lor k (high_flags N s1))) A Gx Gy). left.
    apply travels_lor; [exact (m_high _ A)|exact Hk]. }
  destruct (m_seq _ H) as [L|[L|[L|L]]]; rewrite L in *.
  - contradiction.
  - rewrite Z.eqb_refl. apply D. auto.
  - change (CONTINGENCY_SEQUIN_JUMP =? CONTINGENCY_SEQUIN_UTILIZE) with false. rewrite Z.eqb_refl. apply D. auto.
  - change (CONTINGENCY_SEQUIN_STITCH =? CONTINGENCY_SEQUIN_UTILIZE) with false.
    change (CONTINGENCY_SEQUIN_STITCH =? CONTINGENCY_SEQUIN_JUMP) with false. rewrite Z.eqb_refl. apply D. auto.
Qed.

(** ** Lock stitches *)
Lemma square_bound : forall a b l : Q, (0 <= l)%Q -> (a * a + b * b <= l * l)%Q -> (- l <= a /\ a <= l)%Q.
Proof. intros a b l Hl H. split; nra. Qed.

Lemma lock_anchor : forall x y ax ay l, limit_ok l ->
  let p := match l with
           | Fin _ l => if fdist_gt N x y ax ay l then foriented N x y ax ay l else (ax, ay)
           | Inf _ => (ax, ay)
           end in
  (- M <= fst p - x /\ fst p - x <= M)%Q /\ (- M <= snd p - y /\ snd p - y <= M)%Q.
Proof.
  intros x y ax ay l L. destruct l as [l|]; [|contradiction]. destruct L as [L1 L2].
  cbn [fdist_gt foriented QNum]. destruct (Qle_bool 0 l) eqn:E0.
  - pose proof (gt_spec ((ax - x) * (ax - x) + (ay - y) * (ay - y)) (l * l)) as G.
    destruct (q_gt _ _); cbv zeta.
    + pose proof (Horient x y ax ay l L1) as O.
      destruct (qorient x y ax ay l) as [ox oy]. cbn [fst snd] in *. lra.
    + cbn [fst snd]. assert (L0 : (0 <= l)%Q) by lra.
      pose proof (square_bound (ax - x) (ay - y) l L0 G) as B1.
      assert (G' : ((ay - y) * (ay - y) + (ax - x) * (ax - x) <= l * l)%Q) by (rewrite Qplus_comm; exact G).
      pose proof (square_bound (ay - y) (ax - x) l L0 G') as B2. lra.
  - exfalso. assert (Qle_bool 0 l = true) by (apply Qle_bool_iff; lra). congruence.
Qed.

Lemma lock_met : forall s ax ay l, Met s -> limit_ok l -> Met (lock_stitch N s (nx N s) (ny N s) ax ay l).
Proof.
  intros s ax ay l H L. pose proof (lock_anchor (nx N s) (ny N s) ax ay l L) as B. cbv zeta in B.
  unfold lock_stitch.
  destruct (match l with Fin _ _ => _ | Inf _ => _ end) as [bx by']. cbn [fst snd] in B. destruct B as [Bx By].
  unfold towards. cbn [fadd fmul fsub f33 f66 f0 QNum].
  destruct H as [W [Ex Ey] L1 L2 L3 L4 L5]. constructor; attrs; try assumption.
  - rewrite <- !app_assoc. cbn [app]. apply walk_app. split; [exact W|]. cbn [walk sx sy scmd].
    assert (T : travels STITCH) by (left; reflexivity).
    assert (S1 : forall u v w z, (u == w)%Q -> (z == (33 # 100) * (v - w) + w)%Q -> (- M <= v - w /\ v - w <= M)%Q -> good u z).
    { intros u v w z H1 H2 H3. apply good_strict. lra. }
    assert (S2 : forall v w, (- M <= v - w /\ v - w <= M)%Q ->
              good ((33 # 100) * (v - w) + w) ((66 # 100) * (v - w) + w)).
    { intros v w H3. apply good_strict. lra. }
    assert (S3 : forall v w, (- M <= v - w /\ v - w <= M)%Q ->
              good ((66 # 100) * (v - w) + w) ((33 # 100) * (v - w) + w)).
    { intros v w H3. apply good_strict. lra. }
    assert (S4 : forall v w, (- M <= v - w /\ v - w <= M)%Q ->
              good ((33 # 100) * (v - w) + w) (0 * (v - w) + w)).
    { intros v w H3. apply good_strict. lra. }
    split; [split; [apply (S1 _ bx (nx N s)); [exact Ex|reflexivity|exact Bx]|
                    split; [apply (S1 _ by' (ny N s)); [exact Ey|reflexivity|exact By]|left; exact T]]|].
    split; [split; [apply S2; exact Bx|split; [apply S2; exact By|left; exact T]]|].
    split; [split; [apply S3; exact Bx|split; [apply S3; exact By|left; exact T]]|].
    split; [split; [apply S4; exact Bx|split; [apply S4; exact By|left; exact T]]|exact I].
  - rewrite <- !app_assoc. cbn [app]. rewrite end_pos_app. cbn [end_pos sx sy fst snd]. split; lra.
Qed.

Lemma lock_home : forall s x y ax ay l, nx N (lock_stitch N s x y ax ay l) = nx N s /\
  ny N (lock_stitch N s x y ax ay l) = ny N s.
Proof.
  intros s x y ax ay l. unfold lock_stitch.
  destruct (match l with Fin _ _ => _ | Inf _ => _ end) as [bx by']. attrs. auto.
Qed.

Lemma lock_towards_met : forall s b, Met s -> home s -> Met (lock_towards N s b) /\ home (lock_towards N s b).
Proof.
  intros s b H Hh. unfold lock_towards. destruct b as [b|]; [|auto].
  destruct (point_in_matrix_space N (matrix N s) (sx b) (sy b)) as [bx by'].
  destruct (is_anchor (scmd b)); [|auto]. split; [apply lock_met; [exact H|exact (m_ms _ H)]|].
  unfold home. destruct (lock_home s (nx N s) (ny N s) bx by' (max_stitch N s)) as [-> ->]. exact Hh.
Qed.

Lemma tie_off_met : forall src pos s, Met s -> home s -> Met (tie_off N src pos s) /\ home (tie_off N src pos s).
Proof. intros src pos s H Hh. unfold tie_off. destruct (_ =? _); [apply lock_towards_met; assumption|auto]. Qed.
Lemma tie_on_met : forall src pos s, Met s -> home s -> Met (tie_on N src pos s) /\ home (tie_on N src pos s).
Proof. intros src pos s H Hh. unfold tie_on. destruct (_ =? _); [apply lock_towards_met; assumption|auto]. Qed.

Lemma trim_here_met : forall s, Met s -> home s -> Met (trim_here N s) /\ home (trim_here N s).
Proof.
  intros s H Hh. unfold trim_here. destruct (met_leave s (sequin_mode N s) H) as (A & B1 & B2 & _).
  split; [apply met_trimmed; apply met_add; exact A|]. unfold home. attrs. rewrite B1, B2. exact Hh.
Qed.

Lemma close_met : forall src pos s, Met s -> home s ->
  Met (close_section N src pos s) /\ home (close_section N src pos s).
Proof.
  intros src pos s H Hh. unfold close_section. destruct (negb (trimmed N s)); [|auto].
  destruct (tie_off_met src pos s H Hh) as [A B].
  destruct (explicit_trim N (tie_off N src pos s)); [apply trim_here_met|]; auto.
Qed.

Lemma trim_if_needed_met : forall src pos s, Met s -> home s ->
  Met (tie_off_and_trim_if_needed N src pos s) /\ home (tie_off_and_trim_if_needed N src pos s).
Proof.
  intros src pos s H Hh. unfold tie_off_and_trim_if_needed. destruct (negb (trimmed N s)); [|auto].
  destruct (tie_off_met src pos s H Hh) as [A B]. apply trim_here_met; assumption.
Qed.

Lemma next_change_met : forall s s', Met s -> home s -> next_change_sequence N c seq s = Ok s' ->
  Met s' /\ home s'.
Proof.
  intros s s' H Hh E. unfold next_change_sequence in E.
  set (s1 := set_order N s (order_index N s + 1)) in *.
  assert (A : Met s1) by (apply met_order; exact H). assert (B : home s1) by exact Hh.
  destruct (dict_get (order_index N s1) seq) as [ch|]; [|discriminate]. injection E as <-.
  assert (G : forall s k, Met s -> Met (add_thread_change N s k (c_thread ch) (c_needle ch))).
  { intros s0 k H0. unfold add_thread_change. apply met_stay; [exact H0|reflexivity|reflexivity]. }
  destruct (thread_change_command c =? COLOR_CHANGE).
  - cbv zeta. destruct (negb (order_index N s + 1 =? 0)).
    + split; [apply met_trimmed, G, met_thread; exact A|exact B].
    + split; [apply met_trimmed, met_thread; exact A|exact B].
  - destruct (thread_change_command c =? NEEDLE_SET); [split; [apply met_trimmed, G; exact A|exact B]|].
    destruct (thread_change_command c =? STOP).
    + split; [apply met_trimmed, G, met_thread; exact A|exact B].
    + split; [apply met_trimmed; exact A|exact B].
Qed.

Lemma declare_met : forall s s', Met s -> home s -> declare_not_trimmed N c seq s = Ok s' -> Met s' /\ home s'.
Proof.
  intros s s' H Hh E. unfold declare_not_trimmed in E. apply bind_ok in E. destruct E as (s1 & E1 & E2).
  injection E2 as <-. destruct (order_index N s =? -1).
  - destruct (next_change_met _ _ H Hh E1) as [A B]. split; [apply met_trimmed; exact A|exact B].
  - injection E1 as <-. split; [apply met_trimmed; exact H|exact Hh].
Qed.

Lemma open_section_met : forall src pos x y s s', Met s -> home s -> whole x -> whole y ->
  open_section N c seq src pos x y s = Ok s' -> Met s' /\ home s'.
Proof.
  intros src pos x y s s' H Hh Wx Wy E. unfold open_section in E. apply bind_ok in E.
  destruct E as (s1 & E1 & E2). destruct (declare_met _ _ H Hh E1) as [A B].
  apply bind_ok in E2. destruct E2 as (s2 & E2 & E3).
  destruct (jump_within_met _ _ _ _ A B Wx Wy E2) as (D & Gx & Gy). injection E3 as <-.
  destruct (stitch_at_met s2 x y D Gx Gy Wx Wy) as [D1 D2]. apply tie_on_met; assumption.
Qed.

Lemma color_break_met : forall src pos rest s s', Met s -> home s ->
  color_break N c seq src pos rest s = Ok s' -> Met s' /\ home s'.
Proof.
  intros src pos rest s s' H Hh E. unfold color_break in E.
  destruct (order_index N s <? 0); [injection E as <-; auto|].
  destruct (close_met src pos s H Hh) as [A B].
  destruct (negb _) in E; [injection E as <-; auto|].
  apply bind_ok in E. destruct E as (s1 & E1 & E2). injection E2 as <-.
  destruct (next_change_met _ _ A B E1) as [D1 D2]. split; [apply met_trimmed; exact D1|exact D2].
Qed.

Lemma change_met : forall src pos s s', Met s -> home s ->
  tie_off_trim_color_change N c seq src pos s = Ok s' -> Met s' /\ home s'.
Proof.
  intros src pos s s' H Hh E. unfold tie_off_trim_color_change in E.
  apply bind_ok in E. destruct E as (s1 & E1 & E2). injection E2 as <-.
  destruct (close_met src pos s H Hh) as [A B].
  destruct (next_change_met _ _ A B E1) as [D1 D2]. split; [apply met_trimmed; exact D1|exact D2].
Qed.

(** The commands under which the bound can be kept. *)
Definition op_bounded (a : stitch Q) (o : op) : Prop :=
  match o with
  | OpMaxJump | OpMaxStitch => (0 < sx a /\ sx a <= M)%Q
  | OpLongStitch v => long_ok v
  | OpSequinContingency v => sequins_ok v
  | _ => True
  end.

Lemma sew_exec_met : forall src pos x y s s' (f : st -> res st), Met s -> home s -> whole x -> whole y ->
  (forall s s', Met s -> home s -> f s = Ok s' -> Met s' /\ home s') ->
  (if trimmed N s then open_section N c seq src pos x y s
   else if jumping N s then do s <- needle_to N s x y; Ok (set_jumping N s false)
   else f s) = Ok s' -> Met s' /\ home s'.
Proof.
  intros src pos x y s s' f H Hh Wx Wy Hf E. destruct (trimmed N s).
  - exact (open_section_met _ _ _ _ _ _ H Hh Wx Wy E).
  - destruct (jumping N s); [|exact (Hf _ _ H Hh E)].
    apply bind_ok in E. destruct E as (s1 & E1 & E2). injection E2 as <-.
    destruct (needle_to_met _ _ _ _ H Hh Wx Wy E1) as [A B]. split; [apply met_jumping; exact A|exact B].
Qed.

Lemma exec_met : forall src pos rest a x y o s s', Met s -> home s -> whole x -> whole y -> op_bounded a o ->
  exec N c seq src pos rest a x y o s = Ok s' -> Met s' /\ home s'.
Proof.
  intros src pos rest a x y o s s' H Hh Wx Wy Ho E. destruct o; cbn [exec] in E; cbn [op_bounded] in Ho.
  - injection E as <-. auto.
  - exact (sew_exec_met src pos x y s s' (fun s => stitch_with_contingency N s x y) H Hh Wx Wy
      (fun s s' H Hh E => contingency_met s s' x y H Hh Wx Wy E) E).
  - exact (sew_exec_met src pos x y s s' (fun s => needle_to N s x y) H Hh Wx Wy
      (fun s s' H Hh E => needle_to_met s s' x y H Hh Wx Wy E) E).
  - exact (sew_exec_met src pos x y s s' (fun s => sew_to N s x y) H Hh Wx Wy
      (fun s s' H Hh E => sew_to_met s s' x y H Hh Wx Wy E) E).
  - injection E as <-. split; [apply met_jumping; exact H|exact Hh].
  - apply bind_ok in E. destruct E as (s1 & E1 & E2). injection E2 as <-.
    destruct (trim_if_needed_met src pos s H Hh) as [A B].
    destruct (jump_to_met _ _ _ _ A B Wx Wy E1) as [D1 D2].
    split; [apply met_trimmed, met_add; exact D1|exact D2].
  - injection E as <-. apply trim_if_needed_met; assumption.
  - exact (color_break_met _ _ _ _ _ H Hh E).
  - injection E as <-. apply tie_off_met; assumption.
  - injection E as <-. apply tie_on_met; assumption.
  - injection E as <-. apply trim_if_needed_met; assumption.
  - destruct (jumping N s); [injection E as <-; auto|exact (jump_to_met _ _ _ _ H Hh Wx Wy E)].
  - injection E as <-. destruct (met_toggle s H) as (A & B1 & B2 & _).
    split; [exact A|]. unfold home. rewrite B1, B2. exact Hh.
  - apply bind_ok in E. destruct E as (s1 & E1 & E2).
    assert (A : Met s1 /\ home s1).
    { destruct (trimmed N s); [exact (open_section_met _ _ _ _ _ _ H Hh Wx Wy E1)|injection E1 as <-; auto]. }
    destruct A as [A B]. cbv zeta in E2. destruct (sequin_mode N s1).
    + exact (sequin_at_met _ _ _ _ A B Wx Wy E2).
    + destruct (met_toggle s1 A) as (D & B1 & B2 & _).
      refine (sequin_at_met _ _ _ _ D _ Wx Wy E2). unfold home. rewrite B1, B2. exact B.
  - exact (change_met _ _ _ _ H Hh E).
  - injection E as <-. split; [apply met_trimmed, met_add; exact H|exact Hh].
  - injection E as <-. destruct (writes_speeds c); [split; [apply met_add; exact H|exact Hh]|auto].
  - injection E as <-. destruct (writes_speeds c); [split; [apply met_add; exact H|exact Hh]|auto].
  - injection E as <-. split; [apply met_trimmed, met_add; exact H|exact Hh].
  - injection E as <-. split; [met H|exact Hh].
  - injection E as <-. split; [met H|exact Hh].
  - injection E as <-. split; [met H|exact Hh].
  - injection E as <-. split; [met H|exact Hh].
  - injection E as <-. split; [met H|exact Hh].
  - injection E as <-. split; [met H|exact Hh].
  - injection E as <-.
    destruct (met_leave s (negb (c0 =? CONTINGENCY_SEQUIN_UTILIZE) && sequin_mode N s) H) as (A & B1 & B2 & _).
    split; [met A|]. unfold home. attrs. rewrite B1, B2. exact Hh.
  - injection E as <-. split; [apply met_matrix; exact H|exact Hh].
  - injection E as <-. split; [apply met_matrix; exact H|exact Hh].
  - injection E as <-. split; [apply met_matrix; exact H|exact Hh].
  - apply bind_ok in E. destruct E as ([s1 q] & E1 & E2). injection E2 as <-.
    unfold needle_in_source in E1. apply bind_ok in E1. destruct E1 as (i1 & _ & E1).
    apply bind_ok in E1. destruct E1 as (i2 & _ & E1). injection E1 as <- _.
    split; [apply met_matrix, met_matrix; exact H|exact Hh].
  - apply bind_ok in E. destruct E as ([s1 q] & E1 & E2). injection E2 as <-.
    unfold needle_in_source in E1. apply bind_ok in E1. destruct E1 as (i1 & _ & E1).
    apply bind_ok in E1. destruct E1 as (i2 & _ & E1). injection E1 as <- _.
    split; [apply met_matrix, met_matrix; exact H|exact Hh].
  - injection E as <-. split; [apply met_matrix; exact H|exact Hh].
Qed.

Hypothesis (Hround : rounding c = r).

Lemma placed_whole : forall s a x y, placed N c s a = Ok (x, y) -> whole x /\ whole y.
Proof.
  intros s a x y E. unfold placed in E. destruct (point_in_matrix_space N (matrix N s) (sx a) (sy a)) as [u v].
  unfold whole. rewrite <- Hround. destruct (rounding c); [|split; intros; discriminate].
  cbn [fround QNum bindr] in E. injection E as <- <-. split; intros _; apply integral_Z.
Qed.

Lemma main_loop_met : forall src rest pos s s', Met s -> home s ->
  Forall (fun a => op_bounded a (classify (cmd_of (scmd a)))) rest ->
  main_loop N c seq src pos rest s = Ok s' -> Met s'.
Proof.
  intros src rest. induction rest as [|a rest IH]; intros pos s s' H Hh Ho E; cbn [main_loop] in E.
  - injection E as <-. apply met_trimmed, met_add. exact H.
  - apply bind_ok in E. destruct E as ([x y] & E1 & E2). inversion Ho as [|? ? Ha Hr]; subst.
    destruct (placed_whole _ _ _ _ E1) as [Wx Wy].
    apply bind_ok in E2. destruct E2 as (s1 & E2 & E3).
    destruct (exec_met _ _ _ _ _ _ _ _ _ (met_set_high s (scmd a) H) Hh Wx Wy Ha E2) as [A B].
    destruct (_ =? END); [injection E3 as <-; exact A|exact (IH _ _ _ A B Hr E3)].
Qed.
End Methods.

(** ** The whole encoder *)
Theorem transcode_walk : forall set p out threads,
  rounding (init_config N set) = r ->
  limit_ok (get (s_max_stitch N set) (Inf N)) -> limit_ok (get (s_max_jump N set) (Inf N)) ->
  long_ok (get (s_long_stitch_contingency N set) CONTINGENCY_LONG_STITCH_JUMP_NEEDLE) ->
  sequins_ok (sequin_contingency N (init_state N set)) ->
  Forall (fun a => op_bounded a (classify (cmd_of (scmd a)))) (p_stitches N p) ->
  transcode N set p = Ok (out, threads) -> walk good 0 0 out.
Proof.
  intros set p o threads Hr L1 L2 L3 L4 Ho E. unfold transcode in E. apply bind_ok in E.
  destruct E as (seq & _ & E). cbv zeta in E. apply bind_ok in E. destruct E as (s & E & E').
  injection E' as <- _.
  refine (m_walk _ (main_loop_met _ _ Hr _ _ _ _ _ _ _ Ho E)).
  - destruct (_ =? NEEDLE_SET); constructor; cbn; try assumption; try exact I; try reflexivity; split; reflexivity.
  - destruct (_ =? NEEDLE_SET); split; intros _; exists 0; reflexivity.
Qed.
End QEnc.
