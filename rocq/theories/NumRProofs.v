(** atan2 really is the direction of a vector. *)
From Coq Require Import ZArith Reals Lra Psatz.
From Verif Require Import PyBase NumModel NumR.
Open Scope R_scope.

Lemma norm_pos : forall x y, x <> 0 \/ y <> 0 -> 0 < sqrt (x * x + y * y).
Proof.
  intros x y H. apply sqrt_lt_R0. destruct H as [H|H].
  - assert (0 < x * x) by nra. nra.
  - assert (0 < y * y) by nra. nra.
Qed.

Lemma sqrt_ratio : forall x y, x <> 0 -> sqrt (1 + (y / x) * (y / x)) = sqrt (x * x + y * y) / Rabs x.
Proof.
  intros x y Hx. rewrite <- (sqrt_Rsqr_abs x). rewrite <- sqrt_div_alt.
  - f_equal. unfold Rsqr. field. exact Hx.
  - unfold Rsqr. nra.
Qed.

Lemma direction : forall x y, x <> 0 \/ y <> 0 ->
  cos (atan2 y x) = x / sqrt (x * x + y * y) /\ sin (atan2 y x) = y / sqrt (x * x + y * y).
Proof.
  intros x y H. pose proof (norm_pos x y H) as P. unfold atan2.
  destruct (Rlt_dec 0 x) as [Hx|Hx].
  - rewrite cos_atan, sin_atan. unfold Rsqr.
    rewrite sqrt_ratio by lra. rewrite Rabs_right by lra. split; field; lra.
  - destruct (Rlt_dec x 0) as [Hx'|Hx'].
    + assert (S : cos (atan (y / x)) = - x / sqrt (x * x + y * y) /\ sin (atan (y / x)) = - y / sqrt (x * x + y * y)).
      { rewrite cos_atan, sin_atan. unfold Rsqr. rewrite sqrt_ratio by lra. rewrite Rabs_left by lra.
        split; field; lra. }
      destruct S as [S1 S2]. destruct (Rle_dec 0 y).
      * rewrite neg_cos, neg_sin, S1, S2. split; field; lra.
      * assert (E1 : cos (atan (y / x) - PI) = - cos (atan (y / x))).
        { rewrite cos_minus, cos_PI, sin_PI. ring. }
        assert (E2 : sin (atan (y / x) - PI) = - sin (atan (y / x))).
        { rewrite sin_minus, cos_PI, sin_PI. ring. }
        rewrite E1, E2, S1, S2. split; field; lra.
    + assert (x = 0) by lra. subst x. replace (0 * 0 + y * y) with (Rsqr y) in * by (unfold Rsqr; ring).
      rewrite sqrt_Rsqr_abs in *. destruct (Rlt_dec 0 y).
      * rewrite cos_PI2, sin_PI2, Rabs_right by lra. split; field; lra.
      * destruct (Rlt_dec y 0).
        -- rewrite cos_neg, sin_neg, cos_PI2, sin_PI2, Rabs_left by lra. split; field; lra.
        -- exfalso. lra.
Qed.

(** [oriented]: the point at distance r on the ray towards (x1, y1). *)
Lemma oriented_spec : forall x0 y0 x1 y1 r, 0 < r_distance x0 y0 x1 y1 ->
  r_oriented x0 y0 x1 y1 r =
  (x0 + r / r_distance x0 y0 x1 y1 * (x1 - x0), y0 + r / r_distance x0 y0 x1 y1 * (y1 - y0)).
Proof.
  intros x0 y0 x1 y1 r H. unfold r_oriented, r_distance in *.
  assert (D : x1 - x0 <> 0 \/ y1 - y0 <> 0).
  { destruct (Req_dec (x1 - x0) 0) as [E|E]; [|left; exact E]. right. intros E'. rewrite E, E' in H.
    replace (0 * 0 + 0 * 0) with 0 in H by ring. rewrite sqrt_0 in H. lra. }
  destruct (direction _ _ D) as [C S]. rewrite C, S. f_equal; field; lra.
Qed.
