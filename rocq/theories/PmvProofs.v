(** PMV: what was written is read back. *)
From Coq Require Import ZArith QArith Qabs List Bool Lia Lqa.
From Verif Require Import PyBase EmbConst NumQ QuantModel QuantProofs HelperModel HelperProofs PmvModel PmvSpec BitLemmas.
Import ListNotations.
Open Scope Z_scope.

Lemma q_gt_true a b : q_gt a b = true -> (b < a)%Q.
Proof. unfold q_gt. intros H. apply Qnot_le_lt. intros L. apply Qle_bool_iff in L. rewrite L in H. discriminate. Qed.
Lemma q_gt_false a b : q_gt a b = false -> (a <= b)%Q.
Proof. unfold q_gt. intros H. apply Qle_bool_iff. destruct (Qle_bool a b); [reflexivity|discriminate]. Qed.

(** The extent of y. *)
Lemma scan_rest : forall rest c lo hi, c < 100 -> Forall (fun s => point (scmd s) = false) rest -> pmv_scan c lo hi rest = (c, lo, hi).
Proof.
  induction rest as [|s rest IH]; intros c lo hi Hc H; [reflexivity|]. inversion H as [|? ? E H2]; subst. cbn [pmv_scan]. rewrite E.
  unfold max_points. destruct (Z.leb_spec 100 c); [lia|]. apply IH; assumption.
Qed.
Lemma scan_points : forall ps rest c lo hi, Forall (fun s => point (scmd s) = true) ps -> 0 <= c ->
  c + Z.of_nat (List.length ps) < 100 /\ Forall (fun s => point (scmd s) = false) rest \/ (ps <> [] /\ c + Z.of_nat (List.length ps) = 100) ->
  exists lo' hi', pmv_scan c lo hi (ps ++ rest) = (c + Z.of_nat (List.length ps), lo', hi') /\
    (lo' <= lo /\ hi <= hi')%Q /\ Forall (fun s => (lo' <= - sy s /\ - sy s <= hi')%Q) ps /\
    (lo' = lo \/ Exists (fun s => - sy s = lo') ps)%Q /\ (hi' = hi \/ Exists (fun s => - sy s = hi') ps)%Q.
Proof.
  induction ps as [|s ps IH]; intros rest c lo hi H Hc D.
  - destruct D as [[D R]|[D _]]; [|contradiction]. cbn [List.length app] in *. exists lo, hi. rewrite scan_rest by (assumption || lia).
    rewrite Z.add_0_r. split; [reflexivity|]. split; [split; apply Qle_refl|]. split; [constructor|]. auto.
  - inversion H as [|? ? P H2]; subst. cbn [app pmv_scan]. rewrite P. cbn [List.length] in *.
    set (lo1 := if q_gt lo (- sy s) then (- sy s)%Q else lo). set (hi1 := if q_gt (- sy s) hi then (- sy s)%Q else hi).
    assert (L1 : (lo1 <= lo /\ lo1 <= - sy s)%Q /\ (lo1 = lo \/ lo1 = - sy s)%Q).
    { unfold lo1. destruct (q_gt lo (- sy s)) eqn:E; [apply q_gt_true in E|apply q_gt_false in E]; (split; [split; lra|auto]). }
    assert (L2 : (hi <= hi1 /\ - sy s <= hi1)%Q /\ (hi1 = hi \/ hi1 = - sy s)%Q).
    { unfold hi1. destruct (q_gt (- sy s) hi) eqn:E; [apply q_gt_true in E|apply q_gt_false in E]; (split; [split; lra|auto]). }
    unfold max_points. destruct (Z.leb_spec 100 (c + 1)) as [M|M].
    + assert (ps = []) by (destruct ps; [reflexivity|cbn [List.length] in D; lia]). subst ps. exists lo1, hi1. cbn [List.length].
      split; [do 2 f_equal; lia|]. split; [tauto|]. split; [constructor; [tauto|constructor]|].
      destruct L1 as (_ & [->| E1]), L2 as (_ & [->|E2]); split; auto; right; constructor; symmetry; assumption.
    + destruct (IH rest (c + 1) lo1 hi1 H2 ltac:(lia)) as (lo' & hi' & E & [A B] & F & X & Y).
      { destruct D as [[D R]|[D E]]; [left; split; [lia|exact R]|right]. split; [|lia]. intros ->. cbn [List.length] in E. lia. }
      exists lo', hi'. rewrite E. split; [do 2 f_equal; lia|]. split; [split; lra|]. split; [constructor; [lra|exact F]|].
      split.
      * destruct X as [->|X]; [destruct L1 as (_ & [-> | ->]); [left; reflexivity|right; constructor; reflexivity]|right; right; exact X].
      * destruct Y as [->|Y]; [destruct L2 as (_ & [-> | ->]); [left; reflexivity|right; constructor; reflexivity]|right; right; exact Y].
Qed.

Lemma byte_small v : 0 <= v < 256 -> write_int_8 v = [v].
Proof. intros H. unfold write_int_8. rewrite land_ff, Z.mod_small by lia. reflexivity. Qed.
Lemma signed_x x r : -31 <= x <= 32 -> exists b, write_int_8 (if x <? 0 then x + 64 else x) ++ r = b :: r /\ (if b >? 32 then -(64 - b) else b) = x.
Proof.
  intros H. destruct (Z.ltb_spec x 0).
  - exists (x + 64). rewrite byte_small by lia. split; [reflexivity|]. destruct (_ >? _) eqn:E; lia.
  - exists x. rewrite byte_small by lia. split; [reflexivity|]. destruct (_ >? _) eqn:E; lia.
Qed.
Lemma signed_y y r : -15 <= y <= 16 -> exists b, write_int_8 (if y <? 0 then y + 32 else y) ++ r = b :: r /\ (if b >? 16 then -(32 - b) else b) = y.
Proof.
  intros H. destruct (Z.ltb_spec y 0).
  - exists (y + 32). rewrite byte_small by lia. split; [reflexivity|]. destruct (_ >? _) eqn:E; lia.
  - exists y. rewrite byte_small by lia. split; [reflexivity|]. destruct (_ >? _) eqn:E; lia.
Qed.
Lemma Qabs_both a b : (Qabs a <= b <-> - b <= a /\ a <= b)%Q.
Proof. apply Qabs_Qle_condition. Qed.
Lemma point_masked c : point c = true -> point (cmd_of c) = true.
Proof. unfold point. intros H. apply orb_true_iff in H. destruct H as [H|H]; apply Z.eqb_eq in H; subst c; reflexivity. Qed.
Lemma round_14 v : (Qabs v <= 14)%Q -> -15 <= q_round v <= 16.
Proof.
  intros V. apply Qabs_both in V.
  assert (-14 <= q_round v) by (apply q_round_ge; change (inject_Z (-14)) with (-14)%Q; lra).
  assert (q_round v <= 14) by (apply q_round_le; change (inject_Z 14) with 14%Q; lra). lia.
Qed.
Lemma points_read center scale : forall ps rest xx x px lo hi r,
  Forall (fun s => point (scmd s) = true) ps -> Forall (fun s => Qabs ((- sy s - center) * scale) <= 14)%Q ps ->
  steps_within x ps -> (Qabs (x * (2 # 5) - inject_Z xx) <= 1 # 2)%Q -> (px == inject_Z xx * (5 # 2))%Q ->
  exists b lo' hi' l px', pmv_points (Z.of_nat (List.length ps)) center scale xx lo hi (ps ++ rest) = (b, lo', hi') /\
    pmv_block (List.length ps) px (b ++ r) = Ok (l, px', r) /\
    Forall2 (fun s t => scmd t = STITCH /\ near (sx t) (sx s) /\ near (sy t) ((sy s + center) * (scale * (5 # 2)))%Q) ps l.
Proof.
  induction ps as [|s ps IH]; intros rest xx x px lo hi r P Y X A B.
  - cbn [List.length]. exists [], lo, hi, [], px. split; [destruct rest; reflexivity|]. split; [reflexivity|constructor].
  - inversion P as [|? ? P1 P2]; subst. inversion Y as [|? ? Y1 Y2]; subst. destruct X as [X1 X2].
    cbn [app pmv_points]. destruct (Z.leb_spec (Z.of_nat (List.length (s :: ps))) 0) as [L|L]; [cbn [List.length] in L; lia|].
    rewrite (point_masked _ P1). set (gx := q_round (sx s * (2 # 5) - inject_Z xx)). set (gy := q_round ((- sy s - center) * scale)).
    assert (Ky : -15 <= gy <= 16).
    { exact (round_14 _ Y1). }
    assert (Kx : -31 <= gx <= 32).
    { apply Qabs_both in A. apply Qabs_both in X1. split; [apply q_round_ge|assert (gx <= 31); [apply q_round_le|lia]];
       [change (inject_Z (-31)) with (-31)%Q|change (inject_Z 31) with 31%Q]; lra. }
    replace (Z.of_nat (List.length (s :: ps)) - 1) with (Z.of_nat (List.length ps)) by (cbn [List.length]; lia).
    pose proof (q_round_half (sx s * (2 # 5) - inject_Z xx)) as Hx. fold gx in Hx.
    pose proof (q_round_half ((- sy s - center) * scale)) as Hy. fold gy in Hy.
    destruct (IH rest (xx + gx) (sx s) (px + inject_Z gx * (5 # 2))%Q (Z.min lo gy) (Z.max hi gy) r P2 Y2 X2) as (b & lo' & hi' & l & px' & E & R & F).
    { apply Qabs_both. rewrite inject_Z_plus. lra. }
    { rewrite inject_Z_plus. lra. }
    rewrite E. destruct (signed_x gx (write_int_8 (if gy <? 0 then gy + 32 else gy) ++ b ++ r) Kx) as (bx & Ex & Dx).
    destruct (signed_y gy (b ++ r) Ky) as (by_ & Ey & Dy).
    do 5 eexists. split; [reflexivity|]. split.
    + rewrite <- !app_assoc, Ex, Ey. cbn [List.length pmv_block]. rewrite Dx, Dy, R. cbn [bindr]. reflexivity.
    + constructor; [|exact F]. cbn [sx sy scmd]. split; [reflexivity|]. unfold near. split; apply Qabs_both.
      * lra.
      * set (v := ((- sy s - center) * scale)%Q) in *. setoid_replace ((sy s + center) * (scale * (5 # 2)))%Q with (- v * (5 # 2))%Q by (unfold v; ring).
        lra.
Qed.
Lemma Forall2_impl' {A B} (P Q : A -> B -> Prop) : (forall a b, P a b -> Q a b) -> forall l m, Forall2 P l m -> Forall2 Q l m.
Proof. intros H l m F. induction F; constructor; auto. Qed.
Lemma near_eq a b c : near a b -> (b == c)%Q -> near a c.
Proof. unfold near. intros H E. rewrite <- E. exact H. Qed.
Lemma scale_cases lo hi : (lo <= hi)%Q -> let scale := pmv_scale lo hi in
  (scale * (5 # 2) == shrink lo hi)%Q /\ (0 < scale)%Q /\ forall y, (lo <= y <= hi)%Q -> (Qabs ((y - pmv_center lo hi) * scale) <= 14)%Q.
Proof.
  intros L scale. unfold scale, pmv_scale, shrink, pmv_center. set (c := ((lo + hi) / 2)%Q). assert (C : (c * 2 == lo + hi)%Q) by (unfold c; field).
  destruct (q_gt (hi - c) 35) eqn:E.
  - apply q_gt_true in E. destruct (Qle_bool (hi - lo) 70) eqn:E2; [apply Qle_bool_iff in E2; exfalso; lra|].
    assert (N : (0 < hi - c)%Q) by lra. split; [|split].
    + assert (D : (hi - lo == 2 * (hi - c))%Q) by lra. rewrite D. field. lra.
    + apply Qlt_shift_div_l; lra.
    + intros y Y. apply Qabs_both. setoid_replace ((y - c) * (14 / (hi - c)))%Q with ((y - c) * 14 / (hi - c))%Q by (field; lra).
      split; [apply Qle_shift_div_l|apply Qle_shift_div_r]; try exact N; lra.
  - apply q_gt_false in E. destruct (Qle_bool (hi - lo) 70) eqn:E2; [|exfalso; assert (Q : Qle_bool (hi - lo) 70 = true) by (apply Qle_bool_iff; lra); congruence].
    split; [reflexivity|]. split; [lra|]. intros y Y. apply Qabs_both. lra.
Qed.
Theorem pmv_round_trip ps rest lo hi :
  Forall (fun s => scmd s = STITCH \/ scmd s = JUMP) ps -> Forall (fun s => scmd s <> STITCH /\ scmd s <> JUMP) rest \/ List.length ps = 100%nat -> (List.length ps <= 100)%nat ->
  y_range lo hi ps -> (-200000000 < lo)%Q -> (hi < 200000000)%Q -> steps_within 0 ps ->
  exists l, pmv_read (pmv_write (ps ++ rest)) = Ok (l ++ [let '(x, y) := last_at l in mkS x y END]) /\
    Forall2 (fun s t => scmd t = STITCH /\ near (sx t) (sx s) /\ near (sy t) ((sy s - (lo + hi) / 2) * shrink lo hi)%Q) ps l.
Proof.
  intros P R N (Yr & Yl & Yh) Bl Bh X.
  assert (P1 : Forall (fun s => point (scmd s) = true) ps).
  { apply Forall_forall. intros s I. rewrite Forall_forall in P. unfold point. destruct (P s I) as [-> | ->]; reflexivity. }
  assert (NE : ps <> []) by (intros ->; inversion Yl).
  assert (D : 0 + Z.of_nat (List.length ps) < 100 /\ Forall (fun s => point (scmd s) = false) rest \/ (ps <> [] /\ 0 + Z.of_nat (List.length ps) = 100)).
  { destruct (Nat.eq_dec (List.length ps) 100) as [E|E]; [right; split; [exact NE|lia]|]. destruct R as [R|R]; [|contradiction]. left. split; [lia|].
    apply Forall_forall. intros s I. rewrite Forall_forall in R. destruct (R s I). unfold point. destruct (Z.eqb_spec (scmd s) STITCH), (Z.eqb_spec (scmd s) JUMP); tauto. }
  destruct (scan_points ps rest 0 200000000 (-200000000) P1 ltac:(lia) D) as (a & b & E & [A1 A2] & F & Xa & Xb).
  unfold pmv_write. rewrite E.
  assert (LH : (lo <= hi)%Q) by (apply Exists_exists in Yl; destruct Yl as (s & I & Q); rewrite Forall_forall in Yr; specialize (Yr s I); cbn beta in Yr; lra).
  assert (Eb : (b == - lo)%Q).
  { apply Qle_antisym.
    - destruct Xb as [->|Xb]; [lra|]. apply Exists_exists in Xb. destruct Xb as (s & I & <-). rewrite Forall_forall in Yr. specialize (Yr s I). cbn beta in Yr. lra.
    - apply Exists_exists in Yl. destruct Yl as (s & I & Q). rewrite Forall_forall in F. specialize (F s I). cbn beta in F. lra. }
  assert (Ea : (a == - hi)%Q).
  { apply Qle_antisym.
    - apply Exists_exists in Yh. destruct Yh as (s & I & Q). rewrite Forall_forall in F. specialize (F s I). cbn beta in F. lra.
    - destruct Xa as [->|Xa]; [lra|]. apply Exists_exists in Xa. destruct Xa as (s & I & <-). rewrite Forall_forall in Yr. specialize (Yr s I). cbn beta in Yr. lra. }
  destruct (scale_cases a b ltac:(lra)) as (S1 & S2 & S3).
  replace (0 + Z.of_nat (List.length ps)) with (Z.of_nat (List.length ps)) by lia. set (count := Z.of_nat (List.length ps)).
  assert (G : forall tail, exists bytes lo' hi' l px, pmv_points count (pmv_center a b) (pmv_scale a b) 0 200000000 (-200000000) (ps ++ rest) = (bytes, lo', hi') /\
    pmv_block (List.length ps) 0 (bytes ++ tail) = Ok (l, px, tail) /\
    Forall2 (fun s t => scmd t = STITCH /\ near (sx t) (sx s) /\ near (sy t) ((sy s + pmv_center a b) * (pmv_scale a b * (5 # 2)))%Q) ps l).
  { intros tail. apply (points_read _ _ ps rest 0 0%Q 0%Q); try assumption.
    - apply Forall_forall. intros s I. apply S3. rewrite Forall_forall in F. exact (F s I).
    - apply Qabs_both. unfold inject_Z. lra.
    - reflexivity. }
  destruct (pmv_points count _ _ 0 _ _ _) as [[bytes ly] hy].
  match goal with |- context [write_int_16le (count * 2) ++ bytes ++ ?t] => set (tail := t) end.
  destruct (G tail) as (bytes' & lo' & hi' & l & px & E2 & E3 & F2). injection E2 as <- <- <-. exists l. split.
  - unfold pmv_read. change (skipn 100 (pmv_header ++ ?x)) with x.
    set (file := pmv_header ++ _). assert (LF : exists k, List.length file = S k) by (eexists; reflexivity). destruct LF as (k & ->).
    cbn [pmv_stitches]. assert (Cw : 0 <= count < 65536) by (unfold count; lia).
    assert (W : forall v r, 0 <= v < 65536 -> read_int_16le (write_int_16le v ++ r) = (Some v, r)).
    { intros v r V. unfold read_int_16le, write_int_16le, sh8. cbn [app firstn skipn]. unfold b8.
      rewrite !land_ff, Z.shiftl_mul_pow2, !Z.shiftr_div_pow2 by lia. change (2 ^ 8) with 256. change (2 ^ 0) with 1. f_equal. f_equal. lia. }
    rewrite W by exact Cw. rewrite W by (unfold count; lia). destruct (Z.leb_spec 256 (count * 2)) as [K|K]; [unfold count in K; lia|].
    unfold count at 1. rewrite Nat2Z.id, E3. cbn [bindr app].
    unfold tail. rewrite W by lia. rewrite W by lia. change (256 <=? 256) with true. destruct (last_at l). reflexivity.
  - clear - F2 S1 Ea Eb LH. revert F2. apply Forall2_impl'. intros s t (A & B & C). split; [exact A|]. split; [exact B|].
    apply (near_eq _ _ _ C). rewrite S1. unfold pmv_center.
    assert (Q1 : (sy s + (a + b) / 2 == sy s - (lo + hi) / 2)%Q) by (rewrite Ea, Eb; field). rewrite Q1.
    assert (Q2 : (shrink a b == shrink lo hi)%Q).
    { unfold shrink. assert (Q3 : (b - a == hi - lo)%Q) by (rewrite Ea, Eb; ring).
      assert (Q4 : Qle_bool (b - a) 70 = Qle_bool (hi - lo) 70) by (rewrite Q3; reflexivity). rewrite Q4. clear Q4. destruct (Qle_bool (hi - lo) 70); [reflexivity|]. rewrite Q3. reflexivity. }
    rewrite Q2. reflexivity.
Qed.

(** Any file *)
Lemma block_any : forall n px f, match pmv_block n px f with Ok (l, _, r) => List.length l = n /\ (List.length r <= List.length f)%nat /\ Forall (fun s => scmd s = STITCH) l | Err e => e = TypeError end.
Proof.
  induction n as [|n IH]; intros px f; [cbn [pmv_block]; auto|]. cbn [pmv_block]. destruct f as [|x [|y f]]; [reflexivity..|].
  cbv zeta. specialize (IH (px + inject_Z (if x >? 32 then - (64 - x) else x) * (5 # 2))%Q f). destruct (pmv_block n _ f) as [[[l q] r]|e]; cbn [bindr]; [|exact IH].
  destruct IH as (A & B & C). cbn [List.length]. split; [congruence|]. split; [lia|]. constructor; [reflexivity|exact C].
Qed.
Lemma stitches_any : forall fuel px done f, (List.length f < fuel)%nat -> Forall (fun s => scmd s = STITCH) done ->
  match pmv_stitches fuel px done f with
  | Ok l => exists sewn, Forall (fun s => scmd s = STITCH) sewn /\ (l = sewn \/ l = sewn ++ [let '(x, y) := last_at sewn in mkS x y END])
  | Err e => e = TypeError end.
Proof.
  induction fuel as [|fuel IH]; intros px done f H D; [lia|]. cbn [pmv_stitches].
  destruct f as [|a [|b [|c [|d f]]]]; [exists done; auto..|]. cbn [read_int_16le firstn skipn]. cbn [List.length] in H.
  destruct (256 <=? _); [destruct (last_at done) as [x y] eqn:E; exists done; rewrite E; auto|].
  match goal with |- context [pmv_block ?n px f] => pose proof (block_any n px f) as B; destruct (pmv_block n px f) as [[[l q] r]|e] end; cbn [bindr]; [|exact B].
  destruct B as (_ & L & S). apply IH; [lia|]. apply Forall_app. auto.
Qed.
Theorem pmv_any f : match pmv_read f with
  | Ok l => exists sewn, Forall (fun s => scmd s = STITCH) sewn /\ (l = sewn \/ l = sewn ++ [let '(x, y) := last_at sewn in mkS x y END])
  | Err e => e = TypeError end.
Proof. apply stitches_any; [rewrite skipn_length; lia|constructor]. Qed.
