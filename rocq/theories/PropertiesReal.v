(** Properties over exact real arithmetic: matrices, transform settings, lock stitches. *)
From Coq Require Import ZArith Reals Lra Psatz List Bool Lia.
From Verif Require Import PyBase EmbConst FunctionsModel ThreadModel NumModel NumR NumRProofs MatrixModel EncoderModel
  EncoderProofs.
Import ListNotations.
Open Scope R_scope.

Notation RN := RNum.
Notation rmat := (mat RNum).
Notation rst := (st RNum).
(** A point moved by a matrix. *)
Definition moved (m : rmat) (p : R * R) : R * R := point_in_matrix_space RN m (fst p) (snd p).
(** Affine: last column 0, 0, 1.  All matrices built from the methods are. *)
Definition affine (m : rmat) : Prop := @eq R (m2 m) 0 /\ @eq R (m5 m) 0 /\ @eq R (m8 m) 1.
Definition det (m : rmat) : R :=
  m0 m * (m4 m * m8 m - m7 m * m5 m) + m1 m * (m5 m * m6 m - m3 m * m8 m) + m2 m * (m3 m * m7 m - m4 m * m6 m).

(** The elementary maps, written out. *)
Definition translated (tx ty : R) (p : R * R) : R * R := (fst p + tx, snd p + ty).
Definition scaled (kx ky : R) (p : R * R) : R * R := (fst p * kx, snd p * ky).
(** Anticlockwise by [d] degrees in a frame with y upwards. *)
Definition rotated (d : R) (p : R * R) : R * R :=
  let a := d * (PI * 2 / 360) in (fst p * cos a - snd p * sin a, fst p * sin a + snd p * cos a).
(** [f] about the centre c instead of the origin. *)
Definition about (c : R * R) (f : R * R -> R * R) (p : R * R) : R * R :=
  let q := f (fst p - fst c, snd p - snd c) in (fst q + fst c, snd q + snd c).

Ltac mring := unfold moved, about, rotated, scaled, translated, post_translate, pre_translate, pre_scale, pre_rotate,
  matrix_multiply, get_translate, get_scale, get_rotate, get_identity, point_in_matrix_space in *;
  cbn [F m0 m1 m2 m3 m4 m5 m6 m7 m8 fadd fsub fmul fopp f0 f1 fcos fsin RNum fst snd] in *.

(** ** C39 *)
(** matrix_multiply(a, b): b is applied first. *)
Theorem C39_product_is_composition : forall a b p, affine b ->
  moved (matrix_multiply RN a b) p = moved a (moved b p).
Proof.
  intros a b [x y] (H2 & H5 & H8). mring. rewrite H2, H5, H8. f_equal; ring.
Qed.

Theorem C39_product_affine : forall a b, affine a -> affine b -> affine (matrix_multiply RN a b).
Proof.
  intros a b (A2 & A5 & A8) (B2 & B5 & B8). unfold affine. mring. rewrite A2, A5, A8, B2, B5, B8.
  split; [ring|]. split; ring.
Qed.

Theorem C39_associative_identity : forall a b c : rmat,
  matrix_multiply RN (matrix_multiply RN a b) c = matrix_multiply RN a (matrix_multiply RN b c) /\
  matrix_multiply RN a (get_identity RN) = a /\ matrix_multiply RN (get_identity RN) a = a.
Proof.
  intros [] [] []. mring. split; [f_equal; ring|]. split; f_equal; ring.
Qed.

(** inverse succeeds exactly on the invertible matrices and inverts them on both sides. *)
Theorem C39_inverse : forall m : rmat,
  (det m <> 0 -> exists i, inverse RN m = Ok i /\
     matrix_multiply RN m i = get_identity RN /\ matrix_multiply RN i m = get_identity RN /\
     (affine m -> affine i) /\ forall p, affine m -> moved i (moved m p) = p /\ moved m (moved i p) = p) /\
  (det m = 0 -> inverse RN m = Err ZeroDivisionError).
Proof.
  intros m. destruct m as [a b c d e f g h i]. unfold det. cbn [m0 m1 m2 m3 m4 m5 m6 m7 m8].
  unfold inverse. cbn [m0 m1 m2 m3 m4 m5 m6 m7 m8 fadd fsub fmul fdiv f1 RNum]. unfold r_div.
  set (D := a * (e * i - h * f) + b * (f * g - d * i) + c * (d * h - e * g)).
  split; intros HD.
  - destruct (Req_EM_T D 0) as [E|_]; [contradiction|]. cbn [bindr]. eexists. split; [reflexivity|].
    assert (V : D * (1 / D) = 1) by (field; exact HD). set (v := 1 / D) in *. clearbody v.
    split; [|split; [|split]].
    + mring. f_equal; first [ring|etransitivity; [|exact V]; unfold D; ring].
    + mring. f_equal; first [ring|etransitivity; [|exact V]; unfold D; ring].
    + unfold affine. cbn [m2 m5 m8]. intros (H2 & H5 & H8).
      split; [rewrite H2, H5; ring|]. split; [rewrite H2, H5; ring|].
      etransitivity; [|exact V]. unfold D. rewrite H2, H5, H8. ring.
    + intros [x y]. unfold affine. cbn [m2 m5 m8]. intros (H2 & H5 & H8). mring. unfold D in V.
      rewrite H2, H5, H8 in V. rewrite H2, H5, H8. clear D HD.
      assert (X : a * (e * 1 - h * 0) + b * (0 * g - d * 1) + 0 * (d * h - e * g) = a * e - b * d) by ring.
      rewrite X in V. split; f_equal.
      * transitivity (x * ((a * e - b * d) * v)); [|rewrite V; ring].
        transitivity (x * ((a * e - b * d) * v) + g * (1 - (a * e - b * d) * v) + g * ((a * e - b * d) * v - 1));
          [|rewrite V; ring]. ring.
      * transitivity (y * ((a * e - b * d) * v)); [|rewrite V; ring]. ring.
      * transitivity (x * ((a * e - b * d) * v) + g * (1 - (a * e - b * d) * v)); [ring|rewrite V; ring].
      * transitivity (y * ((a * e - b * d) * v) + h * (1 - (a * e - b * d) * v)); [ring|rewrite V; ring].
  - destruct (Req_EM_T D 0); [reflexivity|contradiction].
Qed.

(** The elementary matrices do what their names say. *)
Theorem C39_elementary : forall p tx ty kx ky d,
  moved (get_translate RN tx ty) p = translated tx ty p /\
  moved (get_scale RN kx ky) p = scaled kx ky p /\
  moved (get_rotate RN d) p = rotated d p.
Proof. intros [x y] tx ty kx ky d. mring. split; [f_equal; ring|]. split; f_equal; ring. Qed.

Lemma r_eq_spec : forall a b, if r_eq a b then a = b else a <> b.
Proof. intros a b. unfold r_eq. destruct (Req_EM_T a b); assumption. Qed.

Lemma translate_affine : forall u v, affine (get_translate RN u v).
Proof. intros u v. unfold affine. mring. auto. Qed.
Lemma scale_affine : forall u v, affine (get_scale RN u v).
Proof. intros u v. unfold affine. mring. auto. Qed.
Lemma rotate_affine : forall u, affine (get_rotate RN u).
Proof. intros u. unfold affine. mring. auto. Qed.

(** Post-operations act before the existing matrix, about the given centre. *)
Theorem C39_post_operations : forall (m : rmat) p tx ty kx ky d x y,
  moved (post_translate RN m tx ty) p = moved m (translated tx ty p) /\
  moved (post_scale RN m kx ky x y) p = moved m (about (x, y) (scaled kx ky) p) /\
  moved (post_rotate RN m d x y) p = moved m (about (x, y) (rotated d) p).
Proof.
  intros m p tx ty kx ky d x y.
  assert (T : forall m u v p, moved (post_translate RN m u v) p = moved m (translated u v p)).
  { intros m' u v p'. unfold post_translate. rewrite C39_product_is_composition by apply translate_affine.
    f_equal. apply (C39_elementary p' u v 0 0 0). }
  assert (S : forall m p, moved (matrix_multiply RN m (get_scale RN kx ky)) p = moved m (scaled kx ky p)).
  { intros m' p'. rewrite C39_product_is_composition by apply scale_affine.
    f_equal. apply (C39_elementary p' 0 0 kx ky 0). }
  assert (Ro : forall m p, moved (matrix_multiply RN m (get_rotate RN d)) p = moved m (rotated d p)).
  { intros m' p'. rewrite C39_product_is_composition by apply rotate_affine.
    f_equal. apply (C39_elementary p' 0 0 0 0 d). }
  split; [apply T|]. unfold post_scale, post_rotate. cbn [feqb RNum f0].
  pose proof (r_eq_spec x 0) as Ex. pose proof (r_eq_spec y 0) as Ey.
  assert (Ab : forall f, x = 0 -> y = 0 -> about (x, y) f p = f p).
  { intros f -> ->. unfold about. cbn [fst snd]. rewrite !Rminus_0_r, !Rplus_0_r.
    rewrite <- surjective_pairing. destruct p. reflexivity. }
  assert (Tr : forall f, translated x y (f (translated (- x) (- y) p)) = about (x, y) f p) by reflexivity.
  cbn [fopp RNum].
  destruct (r_eq x 0), (r_eq y 0); cbn [andb]; rewrite ?T, ?S, ?Ro, ?T, ?Tr; try (split; reflexivity).
  rewrite !Ab by assumption. split; reflexivity.
Qed.

(** Scaling or rotating about a point keeps that point where it was. *)
Theorem C39_centre_fixed : forall (m : rmat) kx ky d x y,
  moved (post_scale RN m kx ky x y) (x, y) = moved m (x, y) /\
  moved (post_rotate RN m d x y) (x, y) = moved m (x, y).
Proof.
  intros m kx ky d x y. destruct (C39_post_operations m (x, y) 0 0 kx ky d x y) as (_ & H1 & H2).
  rewrite H1, H2. unfold about, scaled, rotated. cbn [fst snd]. split; f_equal; apply f_equal2; ring.
Qed.

(** Pre-operations act after the existing matrix. *)
Theorem C39_pre_operations : forall (m : rmat) p tx ty kx ky d, affine m ->
  moved (pre_translate RN m tx ty) p = translated tx ty (moved m p) /\
  moved (pre_scale RN m kx ky) p = scaled kx ky (moved m p) /\
  moved (pre_rotate RN m d) p = rotated d (moved m p).
Proof.
  intros m [x y] tx ty kx ky d (H2 & H5 & H8). mring. rewrite H2, H5, H8.
  split; [f_equal; ring|]. split; f_equal; ring.
Qed.
Print Assumptions C39_product_is_composition.
Print Assumptions C39_inverse.
Print Assumptions C39_centre_fixed.

(** A matrix that is not the identity and has an inverse. *)
Example C39_case : let m := @mkM RN 2 1 0 0 3 0 5 7 1 in affine m /\ det m = 6 /\ moved m (1, 1) = (7, 11).
Proof. cbn. unfold affine, det, moved, point_in_matrix_space. cbn. repeat split; try lra. f_equal; ring. Qed.

(** The encoder command MATRIX_SCALE / MATRIX_ROTATE: the source point under the needle stays
    under the needle. *)
Theorem C39_needle_fixed : forall (s s' : rst) c seq src pos rest a x y o, affine (matrix RN s) ->
  o = OpScale \/ o = OpRotate ->
  exec RN c seq src pos rest a x y o s = Ok s' ->
  exists q, moved (matrix RN s) q = (nx RN s, ny RN s) /\ moved (matrix RN s') q = (nx RN s', ny RN s') /\
    nx RN s' = nx RN s /\ ny RN s' = ny RN s.
Proof.
  intros s s' c seq src pos rest a x y o Ha Ho E.
  assert (D : det (matrix RN s) <> 0).
  { intros D. destruct (C39_inverse (matrix RN s)) as [_ Z]. specialize (Z D).
    destruct Ho as [-> | ->]; cbn [exec] in E; unfold needle_in_source in E; rewrite Z in E; discriminate. }
  destruct (C39_inverse (matrix RN s)) as [Hi _]. destruct (Hi D) as (i & Ei & I1 & I2 & Ia & Ip).
  specialize (Ia Ha).
  assert (Di : det i <> 0).
  { intros D'.
    assert (Y : det (matrix RN s) * det i = 1).
    { assert (Z : det (matrix_multiply RN (matrix RN s) i) = det (matrix RN s) * det i).
      { destruct (matrix RN s) as [], i as []. unfold det. mring. ring. }
      rewrite I1 in Z. rewrite <- Z. unfold det. mring. ring. }
    rewrite D' in Y. lra. }
  destruct (C39_inverse i) as [Hj _]. destruct (Hj Di) as (j & Ej & J1 & J2 & _).
  assert (Mj : j = matrix RN s).
  { destruct (C39_associative_identity (matrix RN s) i j) as (As & L1 & _).
    rewrite J1, I1 in As. destruct (C39_associative_identity j i j) as (_ & _ & L2).
    rewrite L1, L2 in As. exact As. }
  set (q := point_in_matrix_space RN i (nx RN s) (ny RN s)).
  assert (Hq : moved (matrix RN s) q = (nx RN s, ny RN s)).
  { destruct (Ip (nx RN s, ny RN s) Ha) as [_ X]. exact X. }
  exists q. split; [exact Hq|].
  assert (EN : needle_in_source RN s = Ok (set_matrix RN s (matrix RN s), q)).
  { unfold needle_in_source. rewrite Ei. cbn [bindr]. rewrite Ej. cbn [bindr]. rewrite Mj. reflexivity. }
  destruct q as [qx qy].
  destruct Ho as [-> | ->]; cbn [exec] in E; rewrite EN in E; cbn [bindr] in E; injection E as <-; attrs;
    cbn [fst snd]; (split; [|split; reflexivity]); rewrite <- Hq.
  - apply (C39_centre_fixed (matrix RN s) (sx a) (sy a) 0 qx qy).
  - apply (C39_centre_fixed (matrix RN s) 1 1 (sx a) qx qy).
Qed.
Print Assumptions C39_needle_fixed.

(** ** C40 *)
(** The README says translate, scale and rotate occur in that order. *)
Definition transform (set : settings RN) (p : R * R) : R * R := moved (init_matrix RN set) p.
Definition tr (set : settings RN) : R * R -> R * R :=
  match s_translate RN set with Some (x, y) => translated x y | None => fun p => p end.
Definition sc (set : settings RN) : R * R -> R * R :=
  match s_scale RN set with Some (ScaleXY _ x y) => scaled x y | Some (ScaleOne _ k) => scaled k k | None => fun p => p end.
Definition ro (set : settings RN) : R * R -> R * R :=
  match s_rotate RN set with Some d => rotated d | None => fun p => p end.

Definition only_transform (t : option (R * R)) (k : option (scale_value RN)) (r : option R) : settings RN :=
  mkSettings RN None None None None None None None None None None None None None t k r.

(** What holds: one fixed affine map, the settings applied to the point in the reverse order. *)
Theorem C40_transform_settings_partial : forall set p,
  transform set p = tr set (sc set (ro set p)).
Proof.
  intros set p. unfold transform, init_matrix, tr, sc, ro.
  assert (I : forall p, moved (get_identity RN) p = p).
  { intros [x y]. mring. f_equal; ring. }
  assert (A0 : forall f q, about (0, 0) f q = f q).
  { intros f q. unfold about. cbn [fst snd]. rewrite !Rminus_0_r, !Rplus_0_r.
    rewrite <- surjective_pairing. destruct q. reflexivity. }
  assert (P : forall m q tx ty kx ky d,
    moved (post_translate RN m tx ty) q = moved m (translated tx ty q) /\
    moved (post_scale RN m kx ky 0 0) q = moved m (scaled kx ky q) /\
    moved (post_rotate RN m d 0 0) q = moved m (rotated d q)).
  { intros m q tx ty kx ky d. destruct (C39_post_operations m q tx ty kx ky d 0 0) as (H1 & H2 & H3).
    rewrite H1, H2, H3, !A0. auto. }
  cbn [f0 RNum].
  destruct (s_rotate RN set) as [r|]; [rewrite (proj2 (proj2 (P _ _ 0 0 0 0 r)))|];
  (destruct (s_scale RN set) as [[kx ky|k]|];
    [rewrite (proj1 (proj2 (P _ _ 0 0 kx ky 0)))|rewrite (proj1 (proj2 (P _ _ 0 0 k k 0)))|]);
  (destruct (s_translate RN set) as [[tx ty]|]; [rewrite (proj1 (P _ _ tx ty 0 0 0))|]); rewrite I; reflexivity.
Qed.
Print Assumptions C40_transform_settings_partial.

(** Applied in that order to a point, the settings would give something else. *)
Theorem C40_documented_order_refuted : exists set p,
  transform set p <> ro set (sc set (tr set p)).
Proof.
  exists (only_transform (Some (10, 0)) (Some (ScaleOne RN 2)) None), (1, 0).
  rewrite C40_transform_settings_partial. unfold tr, sc, ro, only_transform. cbn [s_translate s_scale s_rotate].
  mring. intros H. injection H. lra.
Qed.
Print Assumptions C40_documented_order_refuted.

(** ** C29 *)
(** The point at the fraction [t] of the way from (x, y) to (ax, ay). *)
Definition along (x y ax ay t : R) : R * R := (x + t * (ax - x), y + t * (ay - y)).
Definition dist (p q : R * R) : R := sqrt ((fst q - fst p) ^ 2 + (snd q - snd p) ^ 2).
(** The four lock stitches from (x, y) towards (ax, ay), with [k] the part of the way allowed. *)
Definition locks (x y ax ay k : R) : list (stitch R) :=
  map (fun t => let p := along x y ax ay (t * k) in mkS (fst p) (snd p) STITCH) [33 / 100; 66 / 100; 33 / 100; 0].
(** Exact source commands that give the direction. *)
Definition anchors (a : stitch R) : Prop :=
  scmd a = STITCH \/ scmd a = NEEDLE_AT \/ scmd a = SEW_TO \/ scmd a = SEQUIN_EJECT.
Definition nonneg_limit (l : limit RN) : Prop := match l with Fin _ l => 0 <= l | Inf _ => True end.

Lemma anchors_ok : forall a : stitch R, is_anchor (scmd a) = true <-> anchors a.
Proof.
  intros a. unfold is_anchor, anchors. rewrite !orb_true_iff, !Z.eqb_eq. tauto.
Qed.

Lemma dist_distance : forall x y ax ay, r_distance x y ax ay = dist (x, y) (ax, ay).
Proof. intros. unfold r_distance, dist. cbn [fst snd]. f_equal. ring. Qed.

Lemma lock_stitch_R : forall (s : rst) x y ax ay l, nonneg_limit l ->
  exists k, out RN (lock_stitch RN s x y ax ay l) = out RN s ++ locks x y ax ay k /\
    nx RN (lock_stitch RN s x y ax ay l) = nx RN s /\ ny RN (lock_stitch RN s x y ax ay l) = ny RN s /\
    0 <= k <= 1 /\
    match l with
    | Fin _ l => if Rle_dec (dist (x, y) (ax, ay)) l then k = 1 else k * dist (x, y) (ax, ay) = l
    | Inf _ => k = 1
    end.
Proof.
  intros s x y ax ay l Hl.
  assert (one : forall a b : R, a = b + 1 * (a - b)) by (intros; ring).
  assert (G : forall bx by' k, bx = x + k * (ax - x) -> by' = y + k * (ay - y) ->
    [mkS (towards RN x bx (f33 RN)) (towards RN y by' (f33 RN)) STITCH;
     mkS (towards RN x bx (f66 RN)) (towards RN y by' (f66 RN)) STITCH;
     mkS (towards RN x bx (f33 RN)) (towards RN y by' (f33 RN)) STITCH;
     mkS (towards RN x bx (f0 RN)) (towards RN y by' (f0 RN)) STITCH] = locks x y ax ay k).
  { intros bx by' k -> ->. unfold locks, towards, along. cbn [map fst snd fadd fmul fsub f33 f66 f0 RNum].
    repeat (apply f_equal2; [f_equal; field|]). reflexivity. }
  unfold lock_stitch.
  assert (W : forall bx by' k, bx = x + k * (ax - x) -> by' = y + k * (ay - y) -> 0 <= k <= 1 ->
    let put s amount := append RN s (mkS (towards RN x bx amount) (towards RN y by' amount) STITCH) in
    let s' := put (put (put (put s (f33 RN)) (f66 RN)) (f33 RN)) (f0 RN) in
    out RN s' = out RN s ++ locks x y ax ay k /\ nx RN s' = nx RN s /\ ny RN s' = ny RN s /\ 0 <= k <= 1).
  { intros bx by' k Hx Hy Hk. cbv zeta. attrs. rewrite <- (G bx by' k Hx Hy), <- !app_assoc. cbn [app].
    auto. }
  destruct l as [l|].
  - change R in l.
    assert (Q : fdist_gt RN x y ax ay l = if Rlt_dec l (dist (x, y) (ax, ay)) then true else false).
    { cbn [fdist_gt RNum]. unfold r_gt. rewrite dist_distance. reflexivity. }
    rewrite Q. clear Q.
    destruct (Rlt_dec l (dist (x, y) (ax, ay))) as [L|L].
    + cbn [foriented RNum]. cbn [nonneg_limit] in Hl. assert (D : 0 < r_distance x y ax ay) by (rewrite dist_distance; exact (Rle_lt_trans _ _ _ Hl L)).
      rewrite oriented_spec by exact D. rewrite dist_distance in *.
      exists (l / dist (x, y) (ax, ay)).
      destruct (W (x + l / dist (x, y) (ax, ay) * (ax - x)) (y + l / dist (x, y) (ax, ay) * (ay - y))
                  (l / dist (x, y) (ax, ay)) eq_refl eq_refl) as (A & B & C & E).
      { split; [apply Rmult_le_pos; [exact Hl|left; apply Rinv_0_lt_compat; exact D]|].
        apply (Rmult_le_reg_r (dist (x, y) (ax, ay))); [exact D|]. unfold Rdiv. rewrite Rmult_assoc, Rinv_l by lra. lra. }
      split; [exact A|]. split; [exact B|]. split; [exact C|]. split; [exact E|].
      destruct (Rle_dec _ _); [lra|]. field. lra.
    + exists 1. destruct (W ax ay 1 (one _ _) (one _ _) ltac:(lra)) as (A & B & C & E).
      split; [exact A|]. split; [exact B|]. split; [exact C|]. split; [exact E|].
      destruct (Rle_dec _ _); [reflexivity|]. lra.
  - exists 1. destruct (W ax ay 1 (one _ _) (one _ _) ltac:(lra)) as (A & B & C & E). auto 8.
Qed.

(** What a tie does, given the neighbouring source command [b] it is directed at: nothing unless
    the contingency asks for it and [b] is a sewing command; otherwise exactly four stitches on
    the way to the transformed position of [b], the whole way counting if it is within the
    maximum stitch length, else the part of that length.  The needle stays where it is. *)
Definition tied (enabled : Prop) (b : option (stitch R)) (s s' : rst) : Prop :=
  nx RN s' = nx RN s /\ ny RN s' = ny RN s /\
  ((enabled /\ exists a, b = Some a /\ anchors a) /\
     (exists a ax ay k, b = Some a /\ (ax, ay) = moved (matrix RN s) (sx a, sy a) /\
        out RN s' = out RN s ++ locks (nx RN s) (ny RN s) ax ay k /\
        0 <= k <= 1 /\
        match max_stitch RN s with
        | Fin _ l => if Rle_dec (dist (nx RN s, ny RN s) (ax, ay)) l then k = 1
                     else k * dist (nx RN s, ny RN s) (ax, ay) = l
        | Inf _ => k = 1
        end)
   \/ ~ (enabled /\ exists a, b = Some a /\ anchors a) /\ out RN s' = out RN s).

Lemma lock_towards_some : forall N (s : st N) a,
  is_anchor (scmd a) = true /\
  lock_towards N s (Some a) =
    lock_stitch N s (nx N s) (ny N s) (fst (point_in_matrix_space N (matrix N s) (sx a) (sy a)))
      (snd (point_in_matrix_space N (matrix N s) (sx a) (sy a))) (max_stitch N s)
  \/ is_anchor (scmd a) = false /\ lock_towards N s (Some a) = s.
Proof.
  intros N s a. unfold lock_towards. destruct (point_in_matrix_space _ _ _ _).
  destruct (is_anchor (scmd a)); [left|right]; split; reflexivity.
Qed.

Lemma lock_towards_tied : forall (s : rst) b (P : Prop), nonneg_limit (max_stitch RN s) -> P ->
  tied P b s (lock_towards RN s b).
Proof.
  intros s b P Hl HP. destruct b as [a|].
  - assert (T : forall s', lock_towards RN s (Some a) = s' -> tied P (Some a) s s' -> tied P (Some a) s (lock_towards RN s (Some a)))
      by (intros s' Q; rewrite Q; auto).
    destruct (lock_towards_some RN s a) as [[A Q]|[A Q]]; refine (T _ Q _); clear T Q.
    + destruct (lock_stitch_R s (nx RN s) (ny RN s) (fst (moved (matrix RN s) (sx a, sy a)))
        (snd (moved (matrix RN s) (sx a, sy a))) (max_stitch RN s) Hl) as (k & O & X & Y & K & L).
      split; [exact X|]. split; [exact Y|]. left.
      split; [split; [exact HP|exists a; split; [reflexivity|apply anchors_ok; exact A]]|].
      exists a, (fst (moved (matrix RN s) (sx a, sy a))), (snd (moved (matrix RN s) (sx a, sy a))), k.
      split; [reflexivity|]. split; [symmetry; apply surjective_pairing|]. auto.
    + split; [reflexivity|]. split; [reflexivity|]. right. split; [|reflexivity].
      intros (_ & a' & H1 & H2). injection H1 as <-. apply anchors_ok in H2.
      change (is_anchor (scmd a) = false) in A. congruence.
  - split; [reflexivity|]. split; [reflexivity|]. right. split; [|reflexivity].
    intros (_ & a' & H1 & _). discriminate.
Qed.

Lemma at_index_nth : forall N (src : list (stitch (F N))) i, (0 <= i)%Z ->
  at_index N src i = nth_error src (Z.to_nat i).
Proof.
  intros N src i H. unfold at_index. destruct (Z.ltb_spec i 0); [lia|].
  destruct (Z.ltb_spec i 0); [lia|]. cbn [orb].
  destruct (Z.leb_spec (Z.of_nat (length src)) i); [|reflexivity].
  symmetry. apply nth_error_None. lia.
Qed.

Lemma tied_nothing : forall P b s, ~ P -> tied P b s s.
Proof. intros P b s H. split; [reflexivity|]. split; [reflexivity|]. right. split; [tauto|reflexivity]. Qed.

Theorem C29_tie_on : forall (s : rst) src pos, nonneg_limit (max_stitch RN s) -> (0 <= pos)%Z ->
  tied (tie_on_contingency RN s = CONTINGENCY_TIE_ON_THREE_SMALL) (nth_error src (Z.to_nat (pos + 1))) s
    (tie_on RN src pos s).
Proof.
  intros s src pos Hl Hp. unfold tie_on.
  destruct (Z.eqb_spec (tie_on_contingency RN s) CONTINGENCY_TIE_ON_THREE_SMALL) as [E|E]; [|apply tied_nothing; exact E].
  rewrite at_index_nth by lia. apply lock_towards_tied; assumption.
Qed.

Theorem C29_tie_off : forall (s : rst) src pos, nonneg_limit (max_stitch RN s) -> (0 < pos)%Z ->
  tied (tie_off_contingency RN s = CONTINGENCY_TIE_OFF_THREE_SMALL) (nth_error src (Z.to_nat (pos - 1))) s
    (tie_off RN src pos s).
Proof.
  intros s src pos Hl Hp. unfold tie_off.
  destruct (Z.eqb_spec (tie_off_contingency RN s) CONTINGENCY_TIE_OFF_THREE_SMALL) as [E|E]; [|apply tied_nothing; exact E].
  rewrite at_index_nth by lia. apply lock_towards_tied; assumption.
Qed.

(** Read off the four stitches: the last is exactly on the tied point, and none is farther from it
    than 66% of the distance to the neighbour, or of the limit if that is less. *)
Theorem C29_locks_read : forall x y ax ay k, 0 <= k <= 1 ->
  length (locks x y ax ay k) = 4%nat /\
  (exists l, locks x y ax ay k = l ++ [mkS x y STITCH]) /\
  Forall (fun a => scmd a = STITCH /\
     dist (x, y) (sx a, sy a) <= 66 / 100 * (k * dist (x, y) (ax, ay)) /\
     exists t, 0 <= t <= 1 /\ (sx a, sy a) = along x y ax ay t) (locks x y ax ay k).
Proof.
  intros x y ax ay k Hk. split; [reflexivity|]. split.
  - exists (firstn 3 (locks x y ax ay k)). unfold locks, along. cbn [map firstn app fst snd].
    repeat (apply f_equal2; [reflexivity|]). f_equal. f_equal; ring.
  - unfold locks. apply Forall_map. 
    assert (D : forall t, 0 <= t -> dist (x, y) (along x y ax ay t) = t * dist (x, y) (ax, ay)).
    { intros t Ht. unfold dist, along. cbn [fst snd].
      replace ((x + t * (ax - x) - x) ^ 2 + (y + t * (ay - y) - y) ^ 2)
        with (t ^ 2 * ((ax - x) ^ 2 + (ay - y) ^ 2)) by ring.
      rewrite sqrt_mult_alt by nra. f_equal. rewrite <- Rsqr_pow2. apply sqrt_Rsqr. exact Ht. }
    assert (P : 0 <= dist (x, y) (ax, ay)) by apply sqrt_pos.
    repeat (apply Forall_cons; [cbv zeta; cbn [sx sy scmd]; rewrite <- surjective_pairing; split; [reflexivity|];
      split; [rewrite D by nra; nra|eexists; split; [|reflexivity]; nra]|]).
    apply Forall_nil.
Qed.
Print Assumptions C29_tie_on.
Print Assumptions C29_tie_off.
Print Assumptions C29_locks_read.

Definition c29_settings : settings RN :=
  mkSettings RN (Some (Fin RN 100)) None None None None None None None None None
    (Some (TieBool true)) (Some (TieCommand CONTINGENCY_TIE_OFF_THREE_SMALL)) None (Some (3, 4)) None None.
Definition c29_src : list (stitch R) := [mkS 0 0 STITCH; mkS 30 40 STITCH; mkS 30 40 TRIM].
Example C29_case :
  nonneg_limit (max_stitch RN (init_state RN c29_settings)) /\
  tie_on_contingency RN (init_state RN c29_settings) = CONTINGENCY_TIE_ON_THREE_SMALL /\
  tie_off_contingency RN (init_state RN c29_settings) = CONTINGENCY_TIE_OFF_THREE_SMALL /\
  (exists a, nth_error c29_src (Z.to_nat (0 + 1)) = Some a /\ anchors a) /\
  (exists a, nth_error c29_src (Z.to_nat (2 - 1)) = Some a /\ anchors a) /\
  (0 < 2 <= Z.of_nat (length c29_src))%Z.
Proof.
  split; [cbn; lra|]. split; [reflexivity|]. split; [reflexivity|].
  split; [eexists; split; [reflexivity|left; reflexivity]|].
  split; [eexists; split; [reflexivity|left; reflexivity]|]. cbn. lia.
Qed.
