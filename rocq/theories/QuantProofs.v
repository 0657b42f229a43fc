(** Running quantisation: no drift, and step lengths of the written data. *)
From Coq Require Import ZArith List Bool Lia QArith Qabs Qround Lqa.
From Verif Require Import PyBase EmbConst StreamModel StreamSpec StreamProofs NumQ QuantModel MetricSpec
  EncoderMetricProofs.
Import ListNotations.
Open Scope Z_scope.

Lemma floor_bounds : forall x, (inject_Z (Qfloor x) <= x /\ x < inject_Z (Qfloor x) + 1)%Q.
Proof.
  intros x. split; [apply Qfloor_le|]. pose proof (Qlt_floor x) as H. rewrite inject_Z_plus in H.
  change (inject_Z 1) with 1%Q in H. exact H.
Qed.

Lemma le_bool_spec : forall a b, if Qle_bool a b then (a <= b)%Q else (b < a)%Q.
Proof.
  intros a b. destruct (Qle_bool a b) eqn:E; [apply Qle_bool_iff; exact E|].
  apply Qnot_le_lt. intros H. apply Qle_bool_iff in H. congruence.
Qed.

Lemma q_round_half : forall x, (- (1 # 2) <= x - inject_Z (q_round x) /\ x - inject_Z (q_round x) <= 1 # 2)%Q.
Proof.
  intros x. unfold q_round. set (f := Qfloor x). pose proof (floor_bounds x) as B. fold f in B.
  pose proof (le_bool_spec 1 (2 * (x - inject_Z f))) as L. destruct (Qle_bool _ _).
  - destruct (Qeq_bool (2 * (x - inject_Z f)) 1) eqn:E.
    + apply Qeq_bool_iff in E. destruct (Z.even f).
      * split; lra.
      * rewrite inject_Z_plus. change (inject_Z 1) with 1%Q. split; lra.
    + rewrite inject_Z_plus. change (inject_Z 1) with 1%Q. split; lra.
  - split; lra.
Qed.

Lemma inject_lt : forall a b, (inject_Z a < inject_Z b + 1)%Q -> a <= b.
Proof.
  intros a b H. change 1%Q with (inject_Z 1) in H. rewrite <- inject_Z_plus, <- Zlt_Qlt in H. lia.
Qed.

Lemma q_round_le : forall x m, (x < inject_Z m + (1 # 2))%Q -> q_round x <= m.
Proof. intros x m H. pose proof (q_round_half x) as B. apply inject_lt. lra. Qed.
Lemma q_round_ge : forall x m, (inject_Z m - (1 # 2) < x)%Q -> m <= q_round x.
Proof. intros x m H. pose proof (q_round_half x) as B. apply inject_lt. lra. Qed.

Lemma q_round_int : forall x z, (x == inject_Z z)%Q -> q_round x = z.
Proof. intros x z E. apply Z.le_antisymm; [apply q_round_le|apply q_round_ge]; lra. Qed.

(** Halves go to the even integer: a half next to 0 goes to 0. *)
Lemma q_round_zero : forall x, (- (1 # 2) <= x /\ x <= 1 # 2)%Q -> q_round x = 0.
Proof.
  intros x H. unfold q_round. set (f := Qfloor x). pose proof (floor_bounds x) as B. fold f in B.
  assert (F : f = 0 \/ f = -1).
  { assert (f <= 0) by (apply inject_lt; change (inject_Z 0) with 0%Q; lra).
    assert (-1 <= f) by (apply inject_lt; change (inject_Z (-1)) with (-1)%Q; lra). lia. }
  pose proof (le_bool_spec 1 (2 * (x - inject_Z f))) as L. destruct (Qle_bool _ _).
  - destruct F as [F|F]; rewrite F in *.
    + change (inject_Z 0) with 0%Q in *.
      assert (E : Qeq_bool (2 * (x - 0)) 1 = true) by (apply Qeq_bool_iff; lra). rewrite E. reflexivity.
    + destruct (Qeq_bool _ _); reflexivity.
  - destruct F as [F|F]; [exact F|]. rewrite F in *. change (inject_Z (-1)) with (-1)%Q in *. exfalso. lra.
Qed.

(** The integer position written for an exact one. *)
Definition near (x : Q) (xx : Z) : Prop :=
  (- (1 # 2) <= x - inject_Z xx /\ x - inject_Z xx <= 1 # 2)%Q /\ (integral x -> (x == inject_Z xx)%Q).

Lemma near_0 : near 0 0.
Proof. split; [split; vm_compute; discriminate|]. intros _. reflexivity. Qed.

Lemma near_next : forall x xx, near x (xx + qz_q x xx).
Proof.
  intros x xx. unfold qz_q. pose proof (q_round_half (x - inject_Z xx)) as B. split.
  - rewrite inject_Z_plus. lra.
  - intros [z Hz].
    assert (E : q_round (x - inject_Z xx) = z - xx).
    { apply q_round_int. unfold Z.sub. rewrite inject_Z_plus, inject_Z_opp. lra. }
    rewrite E. replace (xx + (z - xx)) with z by lia. exact Hz.
Qed.

Lemma near_stay : forall x xx, near x xx -> forall x', (x' == x)%Q -> qz_q x' xx = 0.
Proof. intros x xx [H _] x' E. apply q_round_zero. lra. Qed.

Lemma near_step : forall m x xx x', near x xx -> good true (inject_Z m) x x' ->
  - m <= qz_q x' xx <= m.
Proof.
  intros m x xx x' [N1 N2] [G1 G2].
  destruct (Qeq_dec (x' - x) (inject_Z m)) as [E|E];
    [|destruct (Qeq_dec (x' - x) (- inject_Z m)) as [E'|E']].
  - destruct (G2 eq_refl (or_introl E)) as [I _]. specialize (N2 I).
    assert (X : qz_q x' xx = m) by (apply q_round_int; lra). rewrite X.
    assert (0 <= m); [|lia]. rewrite Zle_Qle. change (inject_Z 0) with 0%Q. lra.
  - destruct (G2 eq_refl (or_intror E')) as [I _]. specialize (N2 I).
    assert (X : qz_q x' xx = - m) by (apply q_round_int; rewrite inject_Z_opp; lra). rewrite X.
    assert (0 <= m); [|lia]. rewrite Zle_Qle. change (inject_Z 0) with 0%Q. lra.
  - split.
    + apply q_round_ge. rewrite inject_Z_opp.
      assert (- inject_Z m < x' - x)%Q.
      { destruct G1 as [H _]. apply Qle_lteq in H as [H|H]; [exact H|]. exfalso. apply E'. symmetry. exact H. }
      lra.
    + apply q_round_le. assert (x' - x < inject_Z m)%Q.
      { destruct G1 as [_ H]. apply Qle_lteq in H as [H|H]; [exact H|]. contradiction. }
      lra.
Qed.

(** Writing rational coordinates is writing the integer positions they are snapped to. *)
Lemma quantise_snap : forall C (qz : C -> Z -> Z) l xx yy,
  quantise qz_int xx yy (apply_rel xx yy (quantise qz xx yy l)) = quantise qz xx yy l.
Proof.
  induction l as [|s l IH]; intros xx yy; [reflexivity|]. cbn [quantise apply_rel sx sy scmd].
  rewrite !qz_int_add, IH. f_equal. f_equal; unfold qz_int; lia.
Qed.

(** ** The written walk *)
(** Positions at most [m] apart on each axis; other commands than moves stay where they are. *)
Fixpoint iwalk (m px py : Z) (l : list (stitch Z)) : Prop :=
  match l with
  | [] => True
  | s :: r => step_within m px py (sx s) (sy s) /\ (travels (scmd s) \/ sx s = px /\ sy s = py)
              /\ iwalk m (sx s) (sy s) r
  end.

Lemma walk_written : forall m l x y xx yy, walk (good true (inject_Z m)) x y l -> near x xx -> near y yy ->
  iwalk m xx yy (apply_rel xx yy (quantise qz_q xx yy l)).
Proof.
  induction l as [|s l IH]; intros x y xx yy W Nx Ny; [exact I|].
  cbn [quantise apply_rel iwalk sx sy scmd walk] in *. destruct W as [(Gx & Gy & T) W].
  pose proof (near_step _ _ _ _ Nx Gx) as Bx. pose proof (near_step _ _ _ _ Ny Gy) as By.
  split; [unfold step_within; lia|]. split.
  - destruct T as [T|[Ex Ey]]; [left; exact T|right].
    rewrite (near_stay _ _ Nx _ Ex), (near_stay _ _ Ny _ Ey). lia.
  - apply (IH (sx s) (sy s)); [exact W|apply near_next|apply near_next].
Qed.

Lemma iwalk_steps : forall m l px py, iwalk m px py (apply_rel px py l) ->
  Forall (fun d => - m <= sx d <= m /\ - m <= sy d <= m) l.
Proof.
  induction l as [|d l IH]; intros px py H; [constructor|]. cbn [apply_rel iwalk sx sy scmd] in H.
  destruct H as (S & _ & W). constructor; [unfold step_within in S; lia|]. exact (IH _ _ W).
Qed.
