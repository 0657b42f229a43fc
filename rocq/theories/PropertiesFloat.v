(** Quantisation of float coordinates. *)
From Coq Require Import ZArith Reals List Lia Lra.
From Flocq Require Import Core.
From Verif Require Import PyBase EmbConst StreamModel StreamSpec StreamProofs QuantProofs FloatModel FloatSpec FloatProofs.
Import ListNotations.
Open Scope R_scope.

(** ** C164 *)
(** The position [w] that the written displacements add up to, for a coordinate of at most 2^e. *)
Definition followed (e : Z) (x : R) (w : Z) : Prop :=
  Rabs (x - IZR w) <= / 2 + bpow radix2 (e - 52) /\ (whole x -> x = IZR w).
Lemma followed_step : forall e x x' w, (0 <= e <= 50)%Z -> Rabs x <= bpow radix2 e -> Rabs x' <= bpow radix2 e ->
  followed e x w -> followed e x' (w + qz_f x' w).
Proof.
  intros e x x' w He Hx Hx' [F1 F2].
  assert (T : bpow radix2 (e - 52) <= / 4) by (change (/ 4) with (bpow radix2 (-2)); apply bpow_le; lia).
  assert (T1 : 1 <= bpow radix2 e) by (change 1 with (bpow radix2 0); apply bpow_le; lia).
  assert (B : Rabs (x' - IZR w) <= bpow radix2 (e + 2)).
  { rewrite bpow_plus. change (bpow radix2 2) with 4. apply Rabs_le_inv in Hx, Hx', F1. apply Rabs_le. lra. }
  split.
  - replace (e - 52)%Z with (e + 2 - 54)%Z by lia. apply qz_near; [lia|exact B].
  - intros [n ->]. rewrite qz_whole; [f_equal; lia|]. apply le_IZR. rewrite abs_IZR, minus_IZR.
    eapply Rle_trans; [exact B|]. change (IZR (2 ^ 53)) with (bpow radix2 53). apply bpow_le. lia.
Qed.

(** Adding up the written displacements gives, for every command, a position within half a unit and
    2^(e-52) of its coordinates, however many came before; whole coordinates are exact. *)
Theorem C164_no_drift : forall e (l : list (stitch R)), (0 <= e <= 50)%Z -> coordinates_within e l ->
  Forall2 (fun s w => followed e (sx s) (sx w) /\ followed e (sy s) (sy w) /\ scmd w = scmd s)
    l (apply_rel 0 0 (quantise qz_f 0 0 l)).
Proof.
  intros e l He Hl.
  assert (Z0 : forall x y w z, Rabs x <= bpow radix2 e -> Rabs y <= bpow radix2 e -> followed e x w -> followed e y z ->
    Forall2 (fun s w => followed e (sx s) (sx w) /\ followed e (sy s) (sy w) /\ scmd w = scmd s)
      l (apply_rel w z (quantise qz_f w z l))).
  { induction Hl as [|s l [[_ Bx] [_ By]] Hl IH]; intros x y w z Hx Hy Fx Fy; cbn [quantise apply_rel sx sy scmd]; constructor.
    - cbn [sx sy scmd]. split; [exact (followed_step e x _ w He Hx Bx Fx)|].
      split; [exact (followed_step e y _ z He Hy By Fy)|reflexivity].
    - apply (IH (sx s) (sy s)); [exact Bx|exact By|exact (followed_step e x _ w He Hx Bx Fx)|exact (followed_step e y _ z He Hy By Fy)]. }
  apply (Z0 0 0); try (rewrite Rabs_R0; apply bpow_ge_0);
    (split; [replace (0 - 0) with 0 by ring; rewrite Rabs_R0; pose proof (bpow_ge_0 radix2 (e - 52)); lra|reflexivity]).
Qed.
Print Assumptions C164_no_drift.

(** ** C165 *)
(** A coordinate just below 1/2, the largest double there. *)
Definition just_below_half : R := IZR (2 ^ 52 - 1) * bpow radix2 (-53).
Lemma below_half : just_below_half = / 2 - bpow radix2 (-53).
Proof.
  unfold just_below_half. rewrite minus_IZR. change (IZR (2 ^ 52)) with (bpow radix2 52). rewrite Rmult_minus_distr_r, <- bpow_plus.
  change (bpow radix2 (52 + -53)) with (/ 2). ring.
Qed.
Lemma b53 : 0 < bpow radix2 (-53) <= / 8.
Proof. split; [apply bpow_gt_0|]. change (/ 8) with (bpow radix2 (-3)). apply bpow_le. lia. Qed.

Lemma first_move : qz_f just_below_half (-7) = 8%Z.
Proof.
  unfold qz_f. rewrite (rnd_scaled _ 3 (15 * 2 ^ 49)).
  - replace (IZR (15 * 2 ^ 49) * bpow radix2 (3 - 53)) with (IZR 7 + / 2).
    + unfold Znearest. assert (F : Zfloor (IZR 7 + / 2) = 7%Z) by (apply Zfloor_imp; split; [lra|]; cbn [Z.add Pos.add Pos.succ]; lra).
      assert (G : Zceil (IZR 7 + / 2) = 8%Z) by (apply Zceil_imp; cbn; split; lra).
      rewrite F, G. replace (IZR 7 + / 2 - IZR 7) with (/ 2) by ring. rewrite Rcompare_Eq by reflexivity. reflexivity.
    + rewrite mult_IZR. change (IZR (2 ^ 49)) with (bpow radix2 49). rewrite Rmult_assoc, <- bpow_plus.
      change (bpow radix2 (49 + (3 - 53))) with (/ 2). lra.
  - lia.
  - rewrite below_half. pose proof b53. rewrite Rabs_pos_eq by lra. change (bpow radix2 (3 - 1)) with 4. change (bpow radix2 3) with 8. lra.
  - rewrite below_half. rewrite mult_IZR. change (IZR (2 ^ 49)) with (bpow radix2 49). change (53 - 3)%Z with (49 + 1)%Z.
    rewrite (bpow_plus radix2 49 1). change (bpow radix2 1) with 2.
    replace ((/ 2 - bpow radix2 (-53) - -7) * (bpow radix2 49 * 2) - 15 * bpow radix2 49) with (- (2 * (bpow radix2 (-53) * bpow radix2 49))) by lra.
    rewrite <- bpow_plus. change (bpow radix2 (-53 + 49)) with (/ 16). rewrite Rabs_Ropp, Rabs_pos_eq by lra. lra.
Qed.
Lemma second_move : qz_f just_below_half 1 = (-1)%Z.
Proof.
  unfold qz_f. rewrite rnd_f64.
  - apply Znearest_imp. rewrite below_half. pose proof b53. apply Rabs_def1; lra.
  - replace (just_below_half - 1) with (IZR (- (2 ^ 52 + 1)) * bpow radix2 (-53)).
    + apply f64_digits; [cbn; lia|lia].
    + rewrite below_half. rewrite opp_IZR, plus_IZR. change (IZR (2 ^ 52)) with (bpow radix2 52).
      replace (- (bpow radix2 52 + 1) * bpow radix2 (-53)) with (- (bpow radix2 52 * bpow radix2 (-53)) - bpow radix2 (-53)) by ring.
      rewrite <- bpow_plus. change (bpow radix2 (52 + -53)) with (/ 2). lra.
Qed.

(** A trim at the coordinates of the stitch before it, written with a displacement. *)
Theorem C165_no_displacement_refuted : exists (pre : list (stitch R)) a b,
  coordinates_within 3 (pre ++ [a; b]) /\ sx b = sx a /\ sy b = sy a /\ scmd b = TRIM /\
  map (fun d => (sx d, sy d)) (quantise qz_f 0 0 (pre ++ [a; b])) = [(-7, 0); (8, 0); (-1, 0)]%Z.
Proof.
  exists [mkS (-7) 0 STITCH], (mkS just_below_half 0 STITCH), (mkS just_below_half 0 TRIM).
  assert (Q0 : qz_f 0 0 = 0%Z) by (apply (qz_whole 0 0); cbn; lia).
  assert (B3 : bpow radix2 3 = 8) by reflexivity.
  assert (J : f64 just_below_half) by (apply f64_digits; [cbn; lia|lia]).
  assert (J1 : Rabs just_below_half <= bpow radix2 3).
  { rewrite below_half, B3. pose proof b53. apply Rabs_le. lra. }
  assert (Z0 : f64 0 /\ Rabs 0 <= bpow radix2 3).
  { split; [apply (f64_Z 0); cbn; lia|rewrite Rabs_R0, B3; lra]. }
  split; [|split; [reflexivity|split; [reflexivity|split; [reflexivity|]]]].
  - constructor; [|constructor; [|constructor; [|constructor]]]; cbn [sx sy]; (split; [|exact Z0]); try (split; assumption).
    split; [apply (f64_Z (-7)); cbn; lia|]. rewrite B3. apply Rabs_le. lra.
  - cbn [app quantise map sx sy].
    assert (M1 : qz_f (-7) 0 = (-7)%Z) by (apply (qz_whole (-7) 0); cbn; lia).
    rewrite M1. change (0 + -7)%Z with (-7)%Z. rewrite first_move. change (-7 + 8)%Z with 1%Z. rewrite second_move.
    rewrite Q0. change (0 + 0)%Z with 0%Z. rewrite Q0. change (0 + 0)%Z with 0%Z. rewrite Q0. reflexivity.
Qed.
Print Assumptions C165_no_displacement_refuted.

(** On a grid of 2^-k units no difference is rounded, so a repeated position is written without displacement. *)
Definition on_grid (k : Z) (x : R) : Prop := exists m, x = IZR m * bpow radix2 (- k).
Lemma grid_exact : forall k x w, (0 <= k <= 30)%Z -> on_grid k x -> Rabs (x - IZR w) <= bpow radix2 22 -> rnd (x - IZR w) = x - IZR w.
Proof.
  intros k x w Hk [m ->] H. apply rnd_f64.
  assert (P : bpow radix2 k = IZR (2 ^ k)) by (rewrite <- IZR_Zpower by lia; reflexivity).
  assert (E : IZR m * bpow radix2 (- k) - IZR w = IZR (m - w * 2 ^ k) * bpow radix2 (- k)).
  { rewrite minus_IZR, mult_IZR, <- P. rewrite Rmult_minus_distr_r, Rmult_assoc, <- bpow_plus.
    replace (k + - k)%Z with 0%Z by lia. cbn [bpow]. ring. }
  rewrite E in *. apply f64_digits; [|lia]. apply le_IZR. rewrite abs_IZR.
  rewrite Rabs_mult, (Rabs_pos_eq (bpow radix2 (- k))) in H by apply bpow_ge_0.
  apply Rmult_le_reg_r with (bpow radix2 (- k)); [apply bpow_gt_0|]. eapply Rle_trans; [exact H|].
  change (IZR (2 ^ 53)) with (bpow radix2 53). rewrite <- bpow_plus. apply bpow_le. lia.
Qed.
Lemma near_zero : forall x, Rabs x <= / 2 -> ZnearestE x = 0%Z.
Proof.
  intros x H. destruct (Rle_lt_or_eq_dec _ _ H) as [L|L].
  - apply Znearest_imp. rewrite Rminus_0_r. exact L.
  - unfold Rabs in L. destruct (Rcase_abs x).
    + assert (x = - / 2) as -> by lra. unfold Znearest.
      assert (F : Zfloor (- / 2) = (-1)%Z) by (apply Zfloor_imp; cbn; split; lra).
      assert (G : Zceil (- / 2) = 0%Z) by (apply Zceil_imp; cbn; split; lra).
      rewrite F, G. rewrite Rcompare_Eq by lra. reflexivity.
    + rewrite L. unfold Znearest.
      assert (F : Zfloor (/ 2) = 0%Z) by (apply Zfloor_imp; cbn; split; lra).
      assert (G : Zceil (/ 2) = 1%Z) by (apply Zceil_imp; cbn; split; lra).
      rewrite F, G. rewrite Rcompare_Eq by lra. reflexivity.
Qed.
Lemma grid_again : forall k x w, (0 <= k <= 30)%Z -> on_grid k x -> Rabs (x - IZR w) <= bpow radix2 22 ->
  qz_f x (w + qz_f x w) = 0%Z.
Proof.
  intros k x w Hk G H. assert (N : Rabs (x - IZR (w + qz_f x w)) <= / 2).
  { unfold qz_f. rewrite (grid_exact k x w Hk G H), plus_IZR. replace (x - (IZR w + IZR (ZnearestE (x - IZR w)))) with (x - IZR w - IZR (ZnearestE (x - IZR w))) by ring.
    apply near_half. }
  unfold qz_f at 1. rewrite (grid_exact k x _ Hk G).
  - apply near_zero. exact N.
  - eapply Rle_trans; [exact N|]. change (/ 2) with (bpow radix2 (-1)). apply bpow_le. lia.
Qed.

Theorem C165_no_displacement_on_grid : forall k (pre : list (stitch R)) a b post, (0 <= k <= 30)%Z ->
  coordinates_within 20 (pre ++ a :: b :: post) -> on_grid k (sx a) -> on_grid k (sy a) -> sx b = sx a -> sy b = sy a ->
  exists wpre da wpost, quantise qz_f 0 0 (pre ++ a :: b :: post) = wpre ++ da :: mkS 0%Z 0%Z (scmd b) :: wpost /\
    length wpre = length pre.
Proof.
  intros k pre a b post Hk Hl Gx Gy Ex Ey.
  assert (K : forall x y w z, Rabs x <= bpow radix2 20 -> Rabs y <= bpow radix2 20 -> followed 20 x w -> followed 20 y z ->
    exists wpre da wpost, quantise qz_f w z (pre ++ a :: b :: post) = wpre ++ da :: mkS 0%Z 0%Z (scmd b) :: wpost /\
    length wpre = length pre).
  { induction pre as [|s pre IH]; intros x y w z Hx Hy Fx Fy; cbn [app quantise].
    - inversion Hl as [|? ? [[_ Bx] [_ By]] _]; subst.
      assert (Q1 : forall x w u, Rabs x <= bpow radix2 20 -> followed 20 x w -> Rabs u <= bpow radix2 20 -> Rabs (u - IZR w) <= bpow radix2 22).
      { intros x1 w1 u1 H1 [H2 _] H3. change (bpow radix2 22) with (bpow radix2 (20 + 2)). rewrite bpow_plus.
        change (bpow radix2 2) with 4. assert (1 <= bpow radix2 20) by (change 1 with (bpow radix2 0); apply bpow_le; lia).
        assert (bpow radix2 (20 - 52) <= / 4) by (change (/ 4) with (bpow radix2 (-2)); apply bpow_le; lia).
        apply Rabs_le_inv in H1, H2, H3. apply Rabs_le. lra. }
      rewrite Ex, Ey, (grid_again k (sx a) w Hk Gx (Q1 x w _ Hx Fx Bx)), (grid_again k (sy a) z Hk Gy (Q1 y z _ Hy Fy By)).
      exists [], (mkS (qz_f (sx a) w) (qz_f (sy a) z) (scmd a)). eexists. split; reflexivity.
    - inversion Hl as [|? ? [[_ Bx] [_ By]] Hr]; subst.
      destruct (IH Hr (sx s) (sy s) (w + qz_f (sx s) w)%Z (z + qz_f (sy s) z)%Z Bx By
        (followed_step 20 x _ w ltac:(lia) Hx Bx Fx) (followed_step 20 y _ z ltac:(lia) Hy By Fy)) as (wp & d & q & -> & L).
      exists (mkS (qz_f (sx s) w) (qz_f (sy s) z) (scmd s) :: wp), d, q. split; [reflexivity|]. cbn [length]. rewrite L. reflexivity. }
  apply (K 0 0); try (rewrite Rabs_R0; apply bpow_ge_0);
    (split; [replace (0 - 0) with 0 by ring; rewrite Rabs_R0; pose proof (bpow_ge_0 radix2 (20 - 52)); lra|reflexivity]).
Qed.
Print Assumptions C165_no_displacement_on_grid.

(** A design with halves, a third rounded to a double, and a repeated position on the grid of quarters. *)
Definition third : R := rnd (/ 3).
Definition c164_case : list (stitch R) :=
  [mkS (IZR 21 * bpow radix2 (-1)) third STITCH; mkS (IZR 5 * bpow radix2 (-2)) (IZR (-7) * bpow radix2 (-2)) STITCH;
   mkS (IZR 5 * bpow radix2 (-2)) (IZR (-7) * bpow radix2 (-2)) TRIM; mkS (IZR 900) third END].
Example C164_case : coordinates_within 20 c164_case /\ on_grid 2 (IZR 5 * bpow radix2 (-2)) /\ on_grid 2 (IZR (-7) * bpow radix2 (-2)) /\
  exists wpre da wpost, quantise qz_f 0 0 c164_case = wpre ++ da :: mkS 0%Z 0%Z TRIM :: wpost /\ length wpre = 1%nat.
Proof.
  assert (B : bpow radix2 20 = 1048576) by (cbn; lra). assert (H2 : bpow radix2 (-2) = / 4) by reflexivity.
  assert (H1 : bpow radix2 (-1) = / 2) by reflexivity.
  assert (T : f64 third /\ Rabs third <= bpow radix2 20).
  { split; [apply f64_rnd|]. rewrite B. apply rnd_abs_le; [cbn; lia|apply Rabs_le; lra]. }
  assert (D : forall n e, (Z.abs n <= 1000)%Z -> (-1074 <= e <= 0)%Z -> f64 (IZR n * bpow radix2 e) /\ Rabs (IZR n * bpow radix2 e) <= bpow radix2 20).
  { intros n e Hn He. split; [apply f64_digits; lia|]. rewrite Rabs_mult, (Rabs_pos_eq (bpow radix2 e)) by apply bpow_ge_0.
    rewrite <- abs_IZR, B. apply IZR_le in Hn. assert (E : bpow radix2 e <= 1) by (change 1 with (bpow radix2 0); apply bpow_le; lia).
    pose proof (bpow_ge_0 radix2 e). assert (0 <= IZR (Z.abs n)) by (apply IZR_le; lia). nra. }
  assert (W : f64 900 /\ Rabs 900 <= bpow radix2 20).
  { split; [apply (f64_Z 900); cbn; lia|]. rewrite B. apply Rabs_le. lra. }
  assert (C : coordinates_within 20 c164_case).
  { unfold coordinates_within, c164_case. repeat (apply Forall_cons || apply Forall_nil); cbn [sx sy]; split;
    first [exact T|exact W|apply D; cbn; lia]. }
  split; [exact C|]. split; [exists 5%Z; reflexivity|]. split; [exists (-7)%Z; reflexivity|].
  apply (C165_no_displacement_on_grid 2 [mkS (IZR 21 * bpow radix2 (-1)) third STITCH]
    (mkS (IZR 5 * bpow radix2 (-2)) (IZR (-7) * bpow radix2 (-2)) STITCH)
    (mkS (IZR 5 * bpow radix2 (-2)) (IZR (-7) * bpow radix2 (-2)) TRIM)).
  - lia.
  - exact C.
  - exists 5%Z. reflexivity.
  - exists (-7)%Z. reflexivity.
  - reflexivity.
  - reflexivity.
Qed.
