(** Rounded arithmetic: errors, whole numbers, and quantisation. *)
From Coq Require Import ZArith Reals List Lia Lra.
From Flocq Require Import Core.
From Verif Require Import PyBase EmbConst StreamModel StreamSpec QuantModel FloatModel.
Import ListNotations.
Open Scope R_scope.

Local Instance prec_gt : Prec_gt_0 53. Proof. reflexivity. Qed.
Local Instance valid_b64 : Valid_exp b64 := FLT_exp_valid (-1074) 53.

Lemma rnd_le : forall x y, x <= y -> rnd x <= rnd y.
Proof. intros x y H. unfold rnd. apply round_le; [apply valid_b64|apply valid_rnd_N|exact H]. Qed.
Lemma rnd_f64 : forall x, f64 x -> rnd x = x.
Proof. intros x H. unfold rnd. apply round_generic; [apply valid_rnd_N|exact H]. Qed.
Lemma f64_rnd : forall x, f64 (rnd x).
Proof. intros x. apply generic_format_round; [apply valid_b64|apply valid_rnd_N]. Qed.
Lemma rnd_0 : rnd 0 = 0. Proof. apply round_0, valid_rnd_N. Qed.
Lemma rnd_opp : forall x, rnd (- x) = - rnd x. Proof. intros x. apply round_NE_opp. Qed.

(** A number with at most 53 binary digits is a double. *)
Lemma f64_digits : forall m e, (Z.abs m <= 2 ^ 53)%Z -> (-1074 <= e)%Z -> f64 (IZR m * bpow radix2 e).
Proof.
  intros m e Hm He. destruct (Z.eq_dec (Z.abs m) (2 ^ 53)) as [E|E].
  - replace (IZR m * bpow radix2 e) with (IZR (Z.sgn m) * bpow radix2 (e + 53)).
    + apply generic_format_FLT. exists (Float radix2 (Z.sgn m) (e + 53)); [reflexivity| |].
      * cbn [Fnum]. change (Zpower radix2 53) with (2 ^ 53)%Z. destruct m; cbn; lia.
      * cbn [Fexp]. lia.
    + rewrite bpow_plus. transitivity (IZR (Z.abs m * Z.sgn m) * bpow radix2 e); [rewrite E, mult_IZR|rewrite Z.abs_sgn; reflexivity].
      change (bpow radix2 53) with (IZR (2 ^ 53)). ring.
  - apply generic_format_FLT. exists (Float radix2 m e); [reflexivity| |].
    + cbn [Fnum]. change (Zpower radix2 53) with (2 ^ 53)%Z. lia.
    + exact He.
Qed.
Lemma f64_Z : forall n, (Z.abs n <= 2 ^ 53)%Z -> f64 (IZR n).
Proof. intros n H. replace (IZR n) with (IZR n * bpow radix2 0) by (cbn; ring). apply f64_digits; [exact H|lia]. Qed.
Lemma rnd_Z : forall n, (Z.abs n <= 2 ^ 53)%Z -> rnd (IZR n) = IZR n.
Proof. intros n H. apply rnd_f64, f64_Z, H. Qed.

(** The error of one operation. *)
Lemma rnd_err : forall e x, (-1020 <= e)%Z -> Rabs x <= bpow radix2 e -> Rabs (rnd x - x) <= bpow radix2 (e - 54).
Proof.
  intros e x He Hx. destruct (Req_dec (Rabs x) (bpow radix2 e)) as [E|E].
  - assert (f64 x) as H.
    { assert (f64 (bpow radix2 e)) as H0.
      { replace (bpow radix2 e) with (IZR 1 * bpow radix2 e) by ring. apply f64_digits; [cbn; lia|lia]. }
      unfold Rabs in E. destruct (Rcase_abs x) in E; [|rewrite E; exact H0].
      replace x with (- (bpow radix2 e)) by lra. apply generic_format_opp. exact H0. }
    rewrite (rnd_f64 x H). replace (x - x) with 0 by ring. rewrite Rabs_R0. apply bpow_ge_0.
  - assert (L : Rabs x < bpow radix2 e) by lra.
    eapply Rle_trans; [unfold rnd; apply error_le_half_ulp; apply valid_b64|].
    assert (U : ulp radix2 b64 x <= bpow radix2 (e - 53)).
    { destruct (Req_dec x 0) as [-> |Nx].
      - unfold b64. rewrite ulp_FLT_small; [apply bpow_le; lia|apply prec_gt|rewrite Rabs_R0; apply bpow_gt_0].
      - rewrite ulp_neq_0 by exact Nx. apply bpow_le. unfold cexp, b64, FLT_exp.
        assert (mag radix2 x <= e)%Z by (apply mag_le_bpow; assumption). lia. }
    replace (bpow radix2 (e - 54)) with (/ 2 * bpow radix2 (e - 53)); [lra|].
    replace (e - 53)%Z with (e - 54 + 1)%Z by lia. rewrite bpow_plus. cbn [bpow]. change (Z.pow_pos radix2 1) with 2%Z. field.
Qed.
Lemma rnd_abs_le : forall x n, (Z.abs n <= 2 ^ 53)%Z -> Rabs x <= IZR n -> Rabs (rnd x) <= IZR n.
Proof.
  intros x n Hn H. apply Rabs_le_inv in H. apply Rabs_le. split.
  - rewrite <- opp_IZR, <- (rnd_Z (- n)) by lia. apply rnd_le. rewrite opp_IZR. lra.
  - rewrite <- (rnd_Z n) by lia. apply rnd_le. lra.
Qed.

(** Nearest integers. *)
Lemma near_half : forall x, Rabs (x - IZR (ZnearestE x)) <= / 2.
Proof. intros x. apply Znearest_half. Qed.
Lemma near_Z : forall n, ZnearestE (IZR n) = n.
Proof. intros n. apply Zrnd_IZR, valid_rnd_N. Qed.
Lemma near_abs : forall x m, Rabs x < IZR m + / 2 -> (- m <= ZnearestE x <= m)%Z.
Proof.
  intros x m H. pose proof (near_half x) as N. apply Rabs_le_inv in N. apply Rabs_lt_inv in H.
  split; apply Znot_gt_le; intros G.
  - assert (ZnearestE x <= - m - 1)%Z by lia. apply IZR_le in H0. rewrite minus_IZR, opp_IZR in H0. lra.
  - assert (m + 1 <= ZnearestE x)%Z by lia. apply IZR_le in H0. rewrite plus_IZR in H0. lra.
Qed.

(** ** One command *)
Lemma qz_whole : forall n xx, (Z.abs (n - xx) <= 2 ^ 53)%Z -> qz_f (IZR n) xx = (n - xx)%Z.
Proof. intros n xx H. unfold qz_f. rewrite <- minus_IZR, rnd_Z by exact H. apply near_Z. Qed.
Lemma qz_near : forall e x xx, (0 <= e <= 1000)%Z -> Rabs (x - IZR xx) <= bpow radix2 e ->
  Rabs (x - IZR (xx + qz_f x xx)) <= / 2 + bpow radix2 (e - 54).
Proof.
  intros e x xx He H. unfold qz_f. pose proof (rnd_err e _ ltac:(lia) H) as E. pose proof (near_half (rnd (x - IZR xx))) as N.
  rewrite plus_IZR. apply Rabs_le_inv in E, N. apply Rabs_le. lra.
Qed.

(** A number rounded from its scaled value: [x] lies between 2^(e-1) and 2^e, and [x] times 2^(53-e) is closer
    to [n] than 1/2. *)
Lemma rnd_scaled : forall x e n, (-1000 <= e)%Z -> bpow radix2 (e - 1) <= Rabs x < bpow radix2 e ->
  Rabs (x * bpow radix2 (53 - e) - IZR n) < / 2 -> rnd x = IZR n * bpow radix2 (e - 53).
Proof.
  intros x e n He B H. unfold rnd, round, F2R. cbn [Fnum Fexp].
  assert (C : cexp radix2 b64 x = (e - 53)%Z).
  { unfold cexp. rewrite (mag_unique radix2 x e B). unfold b64, FLT_exp. lia. }
  unfold scaled_mantissa. rewrite C. f_equal. f_equal. apply Znearest_imp.
  replace (- (e - 53))%Z with (53 - e)%Z by lia. exact H.
Qed.
