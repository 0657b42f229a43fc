(** Proofs about the PNG writer. *)
From Coq Require Import ZArith QArith Qround List Bool Lia.
From Verif Require Import PyBase EmbConst NumQ ThreadModel ThreadProofs TextModel TextProofs PatternModel PatternSpec PatternProofs
  BitLemmas PngModel PngSpec.
Import ListNotations.
Open Scope Z_scope.
Ltac Zify.zify_post_hook ::= idtac.

(** ** Lines *)
Lemma line_x_ok adx ady sx sy x0 y0 : 0 <= ady <= adx -> (sx = 1 \/ sx = -1) ->
  forall n k b i, Z.of_nat n = adx - k -> 0 <= k ->
  - adx <= 2 * ady * k - 2 * adx * b <= adx ->
  exists r, line_x n (x0 + sx * k) (y0 + sy * b) (x0 + sx * adx) (2 * ady * k - 2 * adx * b + 2 * ady - adx)
      (2 * adx) (2 * ady) sx sy i = Ok r
    /\ length r = n
    /\ forall j px py pi, nth_error r j = Some (px, py, pi) ->
         px = x0 + sx * (k + 1 + Z.of_nat j) /\ pi = i + Z.of_nat j
         /\ exists b', py = y0 + sy * b' /\ - adx <= 2 * ady * (k + 1 + Z.of_nat j) - 2 * adx * b' <= adx.
Proof.
  intros Ha Hs. induction n as [|n IH]; intros k b i Hn Hk He.
  - exists []. cbn [line_x]. replace k with adx by lia. rewrite Z.eqb_refl. split; [reflexivity|]. split; [reflexivity|].
    intros [|j] ? ? ? H; discriminate.
  - cbn [line_x]. destruct (Z.eqb_spec (x0 + sx * k) (x0 + sx * adx)) as [E|_]; [destruct Hs as [-> | ->]; lia|].
    set (f := 2 * ady * k - 2 * adx * b + 2 * ady - adx) in *.
    destruct (Z.leb_spec 0 f) as [L|L].
    + destruct (IH (k + 1) (b + 1) (i + 1)) as (r & E & Hl & Hr); [lia | lia | unfold f in L; lia |].
      replace (x0 + sx * k + sx) with (x0 + sx * (k + 1)) by ring.
      replace (y0 + sy * b + sy) with (y0 + sy * (b + 1)) by ring.
      replace (f - 2 * adx + 2 * ady) with (2 * ady * (k + 1) - 2 * adx * (b + 1) + 2 * ady - adx) by (unfold f; ring).
      rewrite E. cbn [bindr]. eexists. split; [reflexivity|]. split; [cbn [length]; lia|].
      intros [|j] px py pi H; cbn [nth_error] in H.
      * injection H as <- <- <-. split; [lia|]. split; [lia|]. exists (b + 1). split; [reflexivity|]. unfold f in L. lia.
      * destruct (Hr j px py pi H) as (A & B & b' & C & D). split; [rewrite A; lia|]. split; [lia|].
        exists b'. split; [exact C|]. replace (k + 1 + Z.of_nat (S j)) with (k + 1 + 1 + Z.of_nat j) by lia. exact D.
    + destruct (IH (k + 1) b (i + 1)) as (r & E & Hl & Hr); [lia | lia | unfold f in L; lia |].
      replace (x0 + sx * k + sx) with (x0 + sx * (k + 1)) by ring.
      replace (f + 2 * ady) with (2 * ady * (k + 1) - 2 * adx * b + 2 * ady - adx) by (unfold f; ring).
      rewrite E. cbn [bindr]. eexists. split; [reflexivity|]. split; [cbn [length]; lia|].
      intros [|j] px py pi H; cbn [nth_error] in H.
      * injection H as <- <- <-. split; [lia|]. split; [lia|]. exists b. split; [reflexivity|]. unfold f in L. lia.
      * destruct (Hr j px py pi H) as (A & B & b' & C & D). split; [rewrite A; lia|]. split; [lia|].
        exists b'. split; [exact C|]. replace (k + 1 + Z.of_nat (S j)) with (k + 1 + 1 + Z.of_nat j) by lia. exact D.
Qed.

Lemma line_y_swap n : forall x0 y0 y1 f dx dy sx sy i j,
  line_y n x0 y0 y1 f dx dy sx sy i
  = bindr (line_x n y0 x0 y1 f dy dx sy sx j) (fun r => Ok (map (fun p => (snd (fst p), fst (fst p), i)) r)).
Proof.
  induction n as [|n IH]; intros; cbn [line_x line_y]; destruct (y0 =? y1); try reflexivity.
  rewrite IH with (j := j + 1). destruct (line_x n _ _ _ _ _ _ _ _ _); reflexivity.
Qed.

Definition dots_of (l : line) : list (Z * Z) := map fst (l_points l).

Lemma abs_if d : (if d <? 0 then - d else d) = Z.abs d.
Proof. destruct (Z.ltb_spec d 0); lia. Qed.
Lemma step_abs d : d = (if d <? 0 then -1 else 1) * Z.abs d.
Proof. destruct (Z.ltb_spec d 0); lia. Qed.

(** The line from one point to another along the longer side, in the terms of both cases. *)
Lemma near_abs adx ady s t K b dx dy : dx = s * adx -> dy = t * ady -> (s = 1 \/ s = -1) -> (t = 1 \/ t = -1) -> 0 <= adx ->
  - adx <= 2 * ady * K - 2 * adx * b <= adx ->
  2 * Z.abs (dx * (t * b) - dy * (s * K)) <= Z.abs dx.
Proof. intros -> -> [-> | ->] [-> | ->] Ha He; lia. Qed.

Lemma in_box adx ady K b : 0 <= ady <= adx -> 0 < adx -> 0 <= K <= adx ->
  - adx <= 2 * ady * K - 2 * adx * b <= adx -> 0 <= b <= ady.
Proof.
  intros Ha Hp HK He.
  assert (0 <= ady * K) by nia. assert (ady * K <= ady * adx) by nia. nia.
Qed.

Definition between (a b v : Z) : Prop := a <= v <= b \/ b <= v <= a.

Record good_line (x0 y0 x1 y1 : Z) (l : line) : Prop := {
  gl_digital : digital x0 y0 x1 y1 (dots_of l);
  gl_vertical : l_vertical l = negb (Z.abs (y1 - y0) <? Z.abs (x1 - x0));
  gl_box : Forall (fun p => between x0 x1 (fst p) /\ between y0 y1 (snd p)) (dots_of l);
  gl_order : l_vertical l = false -> forall k p, nth_error (l_points l) k = Some p -> snd p = Z.of_nat k;
  gl_index : 0 < l_max l -> Forall (fun p => 0 <= snd p <= l_max l) (l_points l);
  gl_max : l_max l = Z.max (Z.abs (x1 - x0)) (Z.abs (y1 - y0)) }.

Lemma line_of_ok x0 y0 x1 y1 : exists l, line_of x0 y0 x1 y1 = Ok l /\ good_line x0 y0 x1 y1 l.
Proof.
  unfold line_of. rewrite !abs_if. rewrite Z.abs_involutive. rewrite !Z.shiftl_mul_pow2, !Z.shiftr_div_pow2 by lia. change (2 ^ 1) with 2.
  rewrite !Z.div_mul by lia.
  pose proof (step_abs (x1 - x0)) as Ex. pose proof (step_abs (y1 - y0)) as Ey.
  set (stx := if x1 - x0 <? 0 then -1 else 1) in *. set (sty := if y1 - y0 <? 0 then -1 else 1) in *.
  assert (Sx : stx = 1 \/ stx = -1) by (unfold stx; destruct (x1 - x0 <? 0); auto).
  assert (Sy : sty = 1 \/ sty = -1) by (unfold sty; destruct (y1 - y0 <? 0); auto).
  set (adx := Z.abs (x1 - x0)) in *. set (ady := Z.abs (y1 - y0)) in *.
  assert (Px : 0 <= adx) by (unfold adx; lia). assert (Py : 0 <= ady) by (unfold ady; lia).
  destruct (Z.gtb_spec adx ady) as [G|G].
  - destruct (line_x_ok adx ady stx sty x0 y0 ltac:(lia) Sx (Z.to_nat adx) 0 0 1) as (r & E & Hl & Hr); [lia | lia | lia |].
    replace (x0 + stx * 0) with x0 in E by ring. replace (y0 + sty * 0) with y0 in E by ring.
    replace (x0 + stx * adx) with x1 in E by lia.
    replace (2 * ady * 0 - 2 * adx * 0 + 2 * ady - adx) with (ady * 2 - adx) in E by ring.
    rewrite (Z.mul_comm 2 adx), (Z.mul_comm 2 ady) in E. rewrite E. cbn [bindr]. eexists. split; [reflexivity|].
    assert (P : forall k p, nth_error ((x0, y0, 0) :: r) k = Some p ->
      fst (fst p) = x0 + stx * Z.of_nat k /\ snd p = Z.of_nat k
      /\ exists b, snd (fst p) = y0 + sty * b /\ - adx <= 2 * ady * Z.of_nat k - 2 * adx * b <= adx).
    { intros [|k] [[px py] pi] H; cbn [nth_error fst snd] in *.
      - injection H as <- <- <-. split; [lia|]. split; [lia|]. exists 0. lia.
      - destruct (Hr k px py pi H) as (A & B & b' & C & D). split; [rewrite A; f_equal; lia|]. split; [lia|].
        exists b'. split; [exact C|]. rewrite Nat2Z.inj_succ. replace (Z.succ (Z.of_nat k)) with (0 + 1 + Z.of_nat k) by lia. exact D. }
    assert (K : forall k p, nth_error ((x0, y0, 0) :: r) k = Some p -> 0 <= Z.of_nat k <= adx).
    { intros k p H. assert (k < length ((x0, y0, 0%Z) :: r))%nat by (apply nth_error_Some; congruence). cbn [length] in *. lia. }
    constructor; unfold dots_of; cbn [l_vertical l_max l_points].
    + unfold digital. cbv zeta. fold adx ady. rewrite map_length. cbn [length]. split; [reflexivity|]. split; [lia|].
      intros k x y H. rewrite nth_error_map in H. destruct (nth_error _ k) as [p|] eqn:En; [|discriminate]. cbn in H. injection H as H.
      destruct (P k p En) as (A & _ & b & B & C). rewrite H in A, B. cbn [fst snd] in A, B. split; [|lia]. intros _.
      assert (Z.sgn (x1 - x0) = stx) as -> by (unfold stx, adx, ady in *; destruct (Z.ltb_spec (x1 - x0) 0); lia).
      split; [lia|]. subst x y. replace (y0 + sty * b - y0) with (sty * b) by ring. replace (x0 + stx * Z.of_nat k - x0) with (stx * Z.of_nat k) by ring.
      unfold adx at 1. apply (near_abs adx ady stx sty); auto.
    + fold adx ady. destruct (Z.ltb_spec ady adx); [reflexivity | lia].
    + apply Forall_forall. intros q Hq. apply in_map_iff in Hq. destruct Hq as (p & <- & Hp). apply In_nth_error in Hp. destruct Hp as (k & Hk).
      destruct (P k p Hk) as (A & _ & b & B & C). pose proof (K k p Hk) as HK. rewrite A, B.
      pose proof (in_box adx ady (Z.of_nat k) b ltac:(lia) ltac:(lia) HK C). unfold between.
      destruct Sx as [Sx|Sx], Sy as [Sy|Sy]; rewrite Sx, Sy in *; lia.
    + intros _ k p Hk. apply (P k p Hk).
    + intros _. apply Forall_forall. intros p Hp. apply In_nth_error in Hp. destruct Hp as (k & Hk).
      destruct (P k p Hk) as (_ & A & _). pose proof (K k p Hk). lia.
    + fold adx ady. lia.
  - rewrite line_y_swap with (j := 1).
    destruct (line_x_ok ady adx sty stx y0 x0 ltac:(lia) Sy (Z.to_nat ady) 0 0 1) as (r & E & Hl & Hr); [lia | lia | lia |].
    replace (x0 + stx * 0) with x0 in E by ring. replace (y0 + sty * 0) with y0 in E by ring.
    replace (y0 + sty * ady) with y1 in E by lia.
    replace (2 * adx * 0 - 2 * ady * 0 + 2 * adx - ady) with (adx * 2 - ady) in E by ring.
    rewrite (Z.mul_comm 2 adx), (Z.mul_comm 2 ady) in E. rewrite E. cbn [bindr]. eexists. split; [reflexivity|].
    set (r' := map _ r).
    assert (P : forall k p, nth_error ((x0, y0, 0) :: r') k = Some p ->
      snd (fst p) = y0 + sty * Z.of_nat k /\ (snd p = 0 \/ snd p = 1)
      /\ exists b, fst (fst p) = x0 + stx * b /\ - ady <= 2 * adx * Z.of_nat k - 2 * ady * b <= ady).
    { intros [|k] [[px py] pi] H; cbn [nth_error fst snd] in *.
      - injection H as <- <- <-. split; [lia|]. split; [lia|]. exists 0. lia.
      - unfold r' in H. rewrite nth_error_map in H. destruct (nth_error r k) as [[[qy qx] qi]|] eqn:En; [|discriminate]. cbn in H. injection H as -> -> <-.
        destruct (Hr k py px qi En) as (A & B & b' & C & D). split; [rewrite A; f_equal; lia|]. split; [lia|].
        exists b'. split; [exact C|]. rewrite Nat2Z.inj_succ. replace (Z.succ (Z.of_nat k)) with (0 + 1 + Z.of_nat k) by lia. exact D. }
    assert (K : forall k p, nth_error ((x0, y0, 0) :: r') k = Some p -> 0 <= Z.of_nat k <= ady).
    { intros k p H. assert (k < length ((x0, y0, 0%Z) :: r'))%nat by (apply nth_error_Some; congruence). unfold r' in *. cbn [length] in *. rewrite map_length in *. lia. }
    constructor; unfold dots_of; cbn [l_vertical l_max l_points].
    + unfold digital. cbv zeta. fold adx ady. rewrite map_length. cbn [length]. split; [reflexivity|]. split; [unfold r'; rewrite map_length; lia|].
      intros k x y H. rewrite nth_error_map in H. destruct (nth_error _ k) as [p|] eqn:En; [|discriminate]. cbn in H. injection H as H.
      destruct (P k p En) as (A & _ & b & B & C). pose proof (K k p En) as HK. rewrite H in A, B. cbn [fst snd] in A, B. split; [lia|]. intros _.
      assert (Es : Z.of_nat k * Z.sgn (y1 - y0) = sty * Z.of_nat k).
      { destruct (Z.lt_trichotomy (y1 - y0) 0) as [T|[T|T]].
        - rewrite (Z.sgn_neg _ T). unfold sty. destruct (Z.ltb_spec (y1 - y0) 0); lia.
        - assert (Z.of_nat k = 0) by (unfold ady in HK; lia). nia.
        - rewrite (Z.sgn_pos _ T). unfold sty. destruct (Z.ltb_spec (y1 - y0) 0); lia. }
      rewrite Es.
      split; [lia|]. subst x y. replace (y0 + sty * Z.of_nat k - y0) with (sty * Z.of_nat k) by ring. replace (x0 + stx * b - x0) with (stx * b) by ring.
      replace (2 * Z.abs ((x1 - x0) * (sty * Z.of_nat k) - (y1 - y0) * (stx * b)))
        with (2 * Z.abs ((y1 - y0) * (stx * b) - (x1 - x0) * (sty * Z.of_nat k))) by lia.
      unfold ady at 1. apply (near_abs ady adx sty stx); auto.
    + fold adx ady. destruct (Z.ltb_spec ady adx); [lia | reflexivity].
    + apply Forall_forall. intros q Hq. apply in_map_iff in Hq. destruct Hq as (p & <- & Hp). apply In_nth_error in Hp. destruct Hp as (k & Hk).
      destruct (P k p Hk) as (A & _ & b & B & C). pose proof (K k p Hk) as HK. rewrite A, B. unfold between.
      destruct (Z.eq_dec ady 0) as [Z0|NZ].
      { assert (k = 0%nat) by lia. subst k. cbn in Hk. injection Hk as <-. cbn [fst snd] in *. lia. }
      pose proof (in_box ady adx (Z.of_nat k) b ltac:(lia) ltac:(lia) HK C).
      destruct Sx as [Sx|Sx], Sy as [Sy|Sy]; rewrite Sx, Sy in *; lia.
    + discriminate.
    + intros Hp. apply Forall_forall. intros p Hp'. apply In_nth_error in Hp'. destruct Hp' as (k & Hk).
      destruct (P k p Hk) as (_ & A & _). lia.
    + fold adx ady. lia.
Qed.

(** ** Painting *)
Record sound (c : canvas) : Prop := {
  so_w : 0 < c_width c;
  so_h : 0 < c_height c;
  so_n : zlen (c_pixels c) = c_width c * c_height c }.
Definition at_ (c : canvas) (x y : Z) : option pixel := nth_error (c_pixels c) (Z.to_nat (c_width c * y + x)).
Definition inside (c : canvas) (x y : Z) : Prop := 0 <= x < c_width c /\ 0 <= y < c_height c.

Lemma cell w x y x' y' : 0 <= x < w -> 0 <= x' < w -> w * y + x = w * y' + x' -> x = x' /\ y = y'.
Proof. intros. assert (y = y') by nia. subst. lia. Qed.

Lemma plot_same p c x y v : c_width (plot p c x y v) = c_width c /\ c_height (plot p c x y v) = c_height c
  /\ zlen (c_pixels (plot p c x y v)) = zlen (c_pixels c).
Proof.
  unfold plot. destruct (py_pos _ _); cbn [c_width c_height c_pixels]; auto. unfold zlen. rewrite set_nth_length. auto.
Qed.

Lemma plot_at p c x y v X Y : sound c -> inside c (x + 1) (y + 1) -> inside c X Y ->
  at_ (plot p c x y v) X Y = if (X =? x + 1) && (Y =? y + 1) then Some (ink p v) else at_ c X Y.
Proof.
  intros S [Hx Hy] [HX HY]. destruct S as [Sw Sh Sn]. unfold plot, py_pos. rewrite Sn.
  assert (0 <= c_width c * (y + 1) + (x + 1) < c_width c * c_height c) by nia.
  assert (0 <= c_width c * Y + X < c_width c * c_height c) by nia.
  destruct (Z.leb_spec 0 (c_width c * (y + 1) + (x + 1))); [|lia].
  destruct (Z.ltb_spec (c_width c * (y + 1) + (x + 1)) (c_width c * c_height c)); [|lia]. cbn [andb].
  unfold at_. cbn [c_width c_pixels].
  destruct (Z.eqb_spec X (x + 1)) as [->|N]; [destruct (Z.eqb_spec Y (y + 1)) as [->|N]|]; cbn [andb].
  - apply set_nth_same. unfold zlen in Sn. lia.
  - apply set_nth_other. intros E. apply N. apply Z2Nat.inj in E; [|lia..]. apply cell in E; lia.
  - apply set_nth_other. intros E. apply N. apply Z2Nat.inj in E; [|lia..]. apply cell in E; lia.
Qed.

(** A list of plots of one colour. *)
Definition plots (p : pen) (v : Q) (l : list (Z * Z)) (c : canvas) : canvas :=
  fold_left (fun c q => plot p c (fst q) (snd q) v) l c.
Lemma plots_same p v l : forall c, c_width (plots p v l c) = c_width c /\ c_height (plots p v l c) = c_height c
  /\ zlen (c_pixels (plots p v l c)) = zlen (c_pixels c).
Proof.
  induction l as [|q l IH]; intros c; [auto|]. cbn [plots fold_left]. fold (plots p v l (plot p c (fst q) (snd q) v)).
  destruct (IH (plot p c (fst q) (snd q) v)) as (A & B & C). destruct (plot_same p c (fst q) (snd q) v) as (D & E & F).
  rewrite A, B, C. auto.
Qed.
Lemma same_sound c c' : sound c -> c_width c' = c_width c /\ c_height c' = c_height c /\ zlen (c_pixels c') = zlen (c_pixels c) -> sound c'.
Proof. intros [A B C] (D & E & F). constructor; congruence. Qed.

Lemma plots_at p v l : forall c X Y, sound c -> Forall (fun q => inside c (fst q + 1) (snd q + 1)) l -> inside c X Y ->
  at_ (plots p v l c) X Y = if existsb (fun q => (X =? fst q + 1) && (Y =? snd q + 1)) l then Some (ink p v) else at_ c X Y.
Proof.
  induction l as [|q l IH]; intros c X Y S F I; [reflexivity|]. cbn [plots fold_left existsb]. fold (plots p v l (plot p c (fst q) (snd q) v)).
  apply Forall_cons_iff in F. destruct F as [Fq F]. pose proof (plot_same p c (fst q) (snd q) v) as Sm. destruct Sm as (A & B & C).
  rewrite IH.
  - rewrite plot_at by assumption. destruct ((X =? fst q + 1) && (Y =? snd q + 1)); cbn [orb]; [|reflexivity].
    destruct (existsb _ l); reflexivity.
  - apply (same_sound c); auto.
  - eapply Forall_impl; [|exact F]. unfold inside. rewrite A, B. auto.
  - unfold inside in *. rewrite A, B. auto.
Qed.

(** The places the pen passes. *)
Definition brush (w : Z) (vertical : bool) (q : Z * Z) : list (Z * Z) :=
  map (fun pos => if vertical then (fst q + pos, snd q) else (fst q, snd q + pos))
    (py_range (- Z.shiftr w 1) (w - Z.shiftr w 1)).

Lemma in_range a b v : In v (py_range a b) <-> a <= v < b.
Proof.
  unfold py_range, range_from. rewrite in_map_iff. split.
  - intros (k & <- & H). apply in_seq in H. lia.
  - intros H. exists (Z.to_nat (v - a)). split; [lia|]. apply in_seq. lia.
Qed.

Lemma line_for_point_plain w p c x y dy m i :
  line_for_point false w p c x y dy m i = Ok (plots p 1 (brush w dy (x, y)) c).
Proof.
  unfold line_for_point, plots, brush. cbn [andb bindr fst snd]. f_equal. generalize (py_range (- Z.shiftr w 1) (w - Z.shiftr w 1)). intros l.
  revert c. induction l as [|a l IH]; intros c; [reflexivity|]. cbn [map fold_left]. destruct dy; cbn [fst snd]; apply IH.
Qed.
Lemma plots_app p v a b c : plots p v (a ++ b) c = plots p v b (plots p v a c).
Proof. unfold plots. apply fold_left_app. Qed.
Lemma draw_points_plain w p dy m l : forall c,
  draw_points false w p dy m l c = Ok (plots p 1 (flat_map (fun q => brush w dy (fst q)) l) c).
Proof.
  induction l as [|[[x y] i] l IH]; intros c; [reflexivity|]. cbn [draw_points]. rewrite line_for_point_plain. cbn [bindr flat_map fst].
  rewrite IH, plots_app. reflexivity.
Qed.

Lemma shiftr_half w : Z.shiftr w 1 = w / 2.
Proof. rewrite Z.shiftr_div_pow2 by lia. reflexivity. Qed.

Lemma ink_tint color : tint color (ink (mkPen (get_red color) (get_green color) (get_blue color)) 1).
Proof.
  assert (L : forall v, Z.land v 255 = v mod 256) by (intros; change 255 with (Z.ones 8); rewrite Z.land_ones by lia; reflexivity).
  assert (Ch : forall v, 0 <= v < 256 -> channel v 1 = v).
  { intros v Hv. unfold channel. unfold q_gt.
    assert (E : (inject_Z v * 1 == inject_Z v)%Q) by ring.
    assert (Qle_bool 0 (inject_Z v * 1) = true) as ->.
    { apply Qle_bool_iff. rewrite E. change 0%Q with (inject_Z 0). rewrite <- Zle_Qle. lia. }
    cbn [negb]. assert (Qle_bool (inject_Z v * 1) 255 = true) as ->.
    { apply Qle_bool_iff. rewrite E. change 255%Q with (inject_Z 255). rewrite <- Zle_Qle. lia. }
    cbn [negb]. unfold q_trunc. assert (Qle_bool 0 (inject_Z v * 1) = true) as ->.
    { apply Qle_bool_iff. rewrite E. change 0%Q with (inject_Z 0). rewrite <- Zle_Qle. lia. }
    rewrite (Qfloor_comp _ _ E). apply Qfloor_Z. }
  unfold tint, ink. cbv zeta.
  set (r := part color 16). set (g := part color 8). set (b := part color 0).
  assert (Er : get_red color = r) by (unfold get_red, r, part; rewrite Z.shiftr_div_pow2, L by lia; reflexivity).
  assert (Eg : get_green color = g) by (unfold get_green, g, part; rewrite Z.shiftr_div_pow2, L by lia; reflexivity).
  assert (Eb : get_blue color = b) by (unfold get_blue, b, part; rewrite L, Z.div_1_r by lia; reflexivity).
  rewrite Er, Eg, Eb. cbn [pen_red pen_green pen_blue].
  assert (Hr : 0 <= r < 256) by (unfold r, part; apply Z.mod_pos_bound; lia).
  assert (Hg : 0 <= g < 256) by (unfold g, part; apply Z.mod_pos_bound; lia).
  assert (Hb : 0 <= b < 256) by (unfold b, part; apply Z.mod_pos_bound; lia).
  unfold near_black. cbn [pen_red pen_green pen_blue]. rewrite !Z.shiftr_div_pow2 by lia. change (2 ^ 8) with 256.
  destruct (Z.ltb_spec ((512 + r / 2) * r * r / 256 + 4 * g * g + (767 - r / 2) * b * b / 256) 225) as [D|D].
  - left. split; [exact D|]. rewrite Ch by lia. reflexivity.
  - right. split; [unfold dark; lia|]. rewrite !Ch by lia. reflexivity.
Qed.

(** Dots that stay within the picture under a pen at most three dots wide. *)
Definition framed (c : canvas) (x y : Z) : Prop := 0 <= x <= c_width c - 3 /\ 0 <= y <= c_height c - 3.

Definition pen_of (color : Z) : pen := mkPen (get_red color) (get_green color) (get_blue color).

Lemma between_framed a b v m : between a b v -> 0 <= a <= m -> 0 <= b <= m -> 0 <= v <= m.
Proof. unfold between. lia. Qed.

Lemma draw_line_ok w color x0 y0 x1 y1 c : sound c -> 0 <= w <= 3 -> framed c x0 y0 -> framed c x1 y1 ->
  let s := mkStroke (x0, y0) (x1, y1) color in
  exists c' dots, draw_line false w (pen_of color) x0 y0 x1 y1 c = Ok c' /\ sound c'
    /\ c_width c' = c_width c /\ c_height c' = c_height c
    /\ line_of_stroke s dots
    /\ forall X Y, inside c X Y ->
         (touches w s dots (X - 1) (Y - 1) /\ (exists q, at_ c' X Y = Some q /\ tint color q))
         \/ (~ touches w s dots (X - 1) (Y - 1) /\ at_ c' X Y = at_ c X Y).
Proof.
  intros S Hw F0 F1 s. destruct (line_of_ok x0 y0 x1 y1) as (l & E & G). unfold draw_line. rewrite E. cbn [bindr].
  rewrite draw_points_plain. set (sp := flat_map _ (l_points l)). exists (plots (pen_of color) 1 sp c), (dots_of l).
  destruct (plots_same (pen_of color) 1 sp c) as (A & B & C).
  split; [reflexivity|]. split; [apply (same_sound c); auto|]. split; [exact A|]. split; [exact B|].
  split; [exact (gl_digital _ _ _ _ _ G)|]. intros X Y I.
  assert (Hsp : forall q, In q sp <-> exists px py, In (px, py) (dots_of l) /\ In q (brush w (l_vertical l) (px, py))).
  { intros q. unfold sp. rewrite in_flat_map. split.
    - intros ([[px py] i] & Hi & Hq). exists px, py. split; [|exact Hq]. unfold dots_of. apply in_map_iff. exists (px, py, i). auto.
    - intros (px & py & Hp & Hq). unfold dots_of in Hp. apply in_map_iff in Hp. destruct Hp as ([[px' py'] i] & Ep & Hi). cbn in Ep. injection Ep as -> ->.
      exists (px, py, i). auto. }
  assert (Hbr : forall q px py, In q (brush w (l_vertical l) (px, py)) <->
    ((wide s /\ fst q = px /\ under_pen w (snd q - py)) \/ (~ wide s /\ snd q = py /\ under_pen w (fst q - px)))).
  { intros [qx qy] px py. unfold brush. rewrite in_map_iff. rewrite (gl_vertical _ _ _ _ _ G). unfold wide, s, under_pen. cbn [s_from s_to fst snd].
    rewrite shiftr_half. destruct (Z.ltb_spec (Z.abs (y1 - y0)) (Z.abs (x1 - x0))) as [L|L]; cbn [negb].
    - split.
      + intros (pos & Eq & Hp). apply in_range in Hp. injection Eq as <- <-. left. lia.
      + intros [(H1 & H2 & H3)|(H1 & _)]; [|lia]. exists (qy - py). split; [f_equal; lia|]. apply in_range. lia.
    - split.
      + intros (pos & Eq & Hp). apply in_range in Hp. injection Eq as <- <-. right. lia.
      + intros [(H1 & _)|(H1 & H2 & H3)]; [lia|]. exists (qx - px). split; [f_equal; lia|]. apply in_range. lia. }
  assert (Ht : touches w s (dots_of l) (X - 1) (Y - 1) <-> In (X - 1, Y - 1) sp).
  { rewrite Hsp. unfold touches. split; intros (px & py & H1 & H2); exists px, py; (split; [exact H1|]); [apply Hbr|apply Hbr in H2]; exact H2. }
  assert (Fs : Forall (fun q => inside c (fst q + 1) (snd q + 1)) sp).
  { apply Forall_forall. intros q Hq. apply Hsp in Hq. destruct Hq as (px & py & H1 & H2). apply Hbr in H2.
    pose proof (gl_box _ _ _ _ _ G) as Bx. rewrite Forall_forall in Bx. destruct (Bx _ H1) as [B1 B2]. cbn [fst snd] in B1, B2.
    destruct F0 as [F01 F02], F1 as [F11 F12].
    pose proof (between_framed _ _ _ _ B1 F01 F11). pose proof (between_framed _ _ _ _ B2 F02 F12).
    assert (0 <= w / 2 <= 1 /\ w - w / 2 <= 2) by (assert (w = 0 \/ w = 1 \/ w = 2 \/ w = 3) as [-> | [-> | [-> | ->]]] by lia; cbn; lia).
    unfold inside, under_pen in *. lia. }
  rewrite Ht. rewrite plots_at by assumption.
  destruct (existsb _ sp) eqn:Ex.
  - left. split; [|eexists; split; [reflexivity | apply ink_tint]]. apply existsb_exists in Ex. destruct Ex as ([qx qy] & Hq & H).
    cbn [fst snd] in H. apply andb_true_iff in H. destruct H as [H1 H2]. apply Z.eqb_eq in H1, H2. subst. 
    replace (qx + 1 - 1) with qx by lia. replace (qy + 1 - 1) with qy by lia. exact Hq.
  - right. split; [|reflexivity]. intros H. assert (existsb (fun q => (X =? fst q + 1) && (Y =? snd q + 1)) sp = true); [|congruence].
    apply existsb_exists. exists (X - 1, Y - 1). split; [exact H|]. cbn [fst snd]. rewrite !andb_true_iff, !Z.eqb_eq. lia.
Qed.

Lemma shows_nil w g x y : shows w g [] x y g.
Proof. right. split; [constructor | reflexivity]. Qed.
Lemma shows_app w g l1 l2 x y p1 p2 : shows w g l1 x y p1 -> shows w p1 l2 x y p2 -> shows w g (l1 ++ l2) x y p2.
Proof.
  intros H1 [(a & s & b & -> & T & F & E)|(F & ->)].
  - left. exists (l1 ++ a), s, b. rewrite app_assoc. auto.
  - destruct H1 as [(a & s & b & -> & T & F1 & E)|(F1 & ->)].
    + left. exists a, s, (b ++ l2). rewrite <- app_assoc. split; [reflexivity|]. split; [exact T|]. split; [apply Forall_app; auto | exact E].
    + right. split; [apply Forall_app; auto | reflexivity].
Qed.

(** A picture is painted over by strokes. *)
Definition over (w : Z) (c : canvas) (l : list (stroke * list (Z * Z))) (c' : canvas) : Prop :=
  sound c' /\ c_width c' = c_width c /\ c_height c' = c_height c
  /\ Forall (fun s => line_of_stroke (fst s) (snd s)) l
  /\ forall X Y g, inside c X Y -> at_ c X Y = Some g -> exists p, at_ c' X Y = Some p /\ shows w g l (X - 1) (Y - 1) p.

Lemma over_nil w c : sound c -> over w c [] c.
Proof. intros S. split; [exact S|]. split; [reflexivity|]. split; [reflexivity|]. split; [constructor|]. intros X Y g _ H. exists g. split; [exact H | apply shows_nil]. Qed.
Lemma over_app w c l1 c1 l2 c2 : over w c l1 c1 -> over w c1 l2 c2 -> over w c (l1 ++ l2) c2.
Proof.
  intros (S1 & A1 & B1 & F1 & H1) (S2 & A2 & B2 & F2 & H2). split; [exact S2|]. split; [congruence|]. split; [congruence|].
  split; [apply Forall_app; auto|]. intros X Y g I E. destruct (H1 X Y g I E) as (p1 & E1 & Sh1).
  destruct (H2 X Y p1) as (p2 & E2 & Sh2); [unfold inside in *; rewrite A1, B1; exact I | exact E1 |].
  exists p2. split; [exact E2|]. eapply shows_app; eauto.
Qed.
Lemma over_line w color x0 y0 x1 y1 c : sound c -> 0 <= w <= 3 -> framed c x0 y0 -> framed c x1 y1 ->
  exists c' dots, draw_line false w (pen_of color) x0 y0 x1 y1 c = Ok c'
    /\ over w c [(mkStroke (x0, y0) (x1, y1) color, dots)] c'.
Proof.
  intros S Hw F0 F1. destruct (draw_line_ok w color x0 y0 x1 y1 c S Hw F0 F1) as (c' & dots & E & S' & A & B & L & H).
  exists c', dots. split; [exact E|]. split; [exact S'|]. split; [exact A|]. split; [exact B|]. split; [constructor; [exact L | constructor]|].
  intros X Y g I Eg. destruct (H X Y I) as [(T & q & Eq & Ht)|(T & Eq)].
  - exists q. split; [exact Eq|]. left. exists [], (mkStroke (x0, y0) (x1, y1) color, dots), []. cbn [fst snd s_color app].
    split; [reflexivity|]. split; [exact T|]. split; [constructor | exact Ht].
  - exists g. split; [congruence|]. right. split; [|reflexivity]. constructor; [exact T | constructor].
Qed.

Definition dotted (c : canvas) (s : stitch Q) : Prop :=
  q_trunc (sx s) = Qfloor (sx s) /\ q_trunc (sy s) = Qfloor (sy s) /\ framed c (Qfloor (sx s)) (Qfloor (sy s)).

Lemma over_block w color block : forall c s, sound c -> 0 <= w <= 3 -> dotted c s -> Forall (dotted c) block ->
  exists c' l, draw_block false w (pen_of color) (Some (dot s)) block c = Ok c' /\ over w c l c'
    /\ map fst l = map (fun p => mkStroke (dot (fst p)) (dot (snd p)) color) (neighbours (s :: block)).
Proof.
  induction block as [|t block IH]; intros c s S Hw Hs F.
  - exists c, []. split; [reflexivity|]. split; [apply over_nil, S | reflexivity].
  - apply Forall_cons_iff in F. destruct F as [Ht F]. destruct Hs as (_ & _ & Fs). destruct Ht as (T1 & T2 & Ft).
    cbn [draw_block]. unfold dot at 1. rewrite T1, T2.
    destruct (over_line w color _ _ _ _ c S Hw Fs Ft) as (c1 & dots & E1 & O1). rewrite E1. cbn [bindr].
    destruct O1 as (S1 & A1 & B1 & O1).
    assert (Fr : forall u, dotted c u -> dotted c1 u) by (intros u (U1 & U2 & U3); split; [exact U1|]; split; [exact U2|]; unfold framed in *; rewrite A1, B1; exact U3).
    destruct (IH c1 t S1 Hw) as (c2 & l & E2 & O2 & M); [apply Fr; split; auto | eapply Forall_impl; [|exact F]; exact Fr |].
    exists c2. eexists. split; [exact E2|]. split; [eapply over_app; [split; [exact S1|]; split; [exact A1|]; split; [exact B1|]; exact O1 | exact O2]|].
    cbn [app map fst]. rewrite M. reflexivity.
Qed.

Lemma over_blocks w (get : Z -> Z) (cut : list (list (stitch Q) * Z)) : forall c, sound c -> 0 <= w <= 3 ->
  Forall (fun b => Forall (dotted c) (fst b)) cut ->
  exists c' l, draw_blocks false w (map (fun b => (fst b, get (snd b))) cut) c = Ok c' /\ over w c l c'
    /\ map fst l = strokes get cut.
Proof.
  induction cut as [|[b n] cut IH]; intros c S Hw F.
  - exists c, []. split; [reflexivity|]. split; [apply over_nil, S | reflexivity].
  - apply Forall_cons_iff in F. destruct F as [Fb F]. cbn [map draw_blocks fst snd] in *.
    assert (Hb : exists c1 l1, draw_block false w (pen_of (get n)) None b c = Ok c1 /\ over w c l1 c1
      /\ map fst l1 = map (fun p => mkStroke (dot (fst p)) (dot (snd p)) (get n)) (neighbours b)).
    { destruct b as [|s b]; [exists c, []; split; [reflexivity|]; split; [apply over_nil, S | reflexivity]|].
      apply Forall_cons_iff in Fb. destruct Fb as [Hs Fb]. cbn [draw_block bindr].
      destruct (over_block w (get n) b c s S Hw Hs Fb) as (c1 & l1 & E & O & M). destruct Hs as (T1 & T2 & _). rewrite T1, T2.
      exists c1, l1. auto. }
    destruct Hb as (c1 & l1 & E1 & O1 & M1). fold (pen_of (get n)). rewrite E1. cbn [bindr].
    pose proof O1 as (S1 & A1 & B1 & _).
    assert (Fr : forall u, dotted c u -> dotted c1 u) by (intros u (U1 & U2 & U3); split; [exact U1|]; split; [exact U2|]; unfold framed in *; rewrite A1, B1; exact U3).
    destruct (IH c1 S1 Hw) as (c2 & l2 & E2 & O2 & M2); [eapply Forall_impl; [|exact F]; intros x Hx; eapply Forall_impl; [|exact Hx]; exact Fr |].
    exists c2, (l1 ++ l2). split; [exact E2|]. split; [eapply over_app; eauto|]. rewrite map_app, M1, M2. reflexivity.
Qed.

Lemma new_canvas_ok w h : 0 <= w -> 0 <= h -> exists c, new_canvas w h = Ok c /\ sound c
  /\ c_width c = w + 3 /\ c_height c = h + 3 /\ c_pixels c = repeat (0, 0, 0, 0) (Z.to_nat ((w + 3) * (h + 3))).
Proof.
  intros Hw Hh. unfold new_canvas. destruct (Z.ltb_spec ((w + 3) * (h + 3)) 0); [nia|]. eexists. split; [reflexivity|].
  cbn [c_width c_height c_pixels]. split; [|auto]. constructor; cbn [c_width c_height c_pixels]; [lia | lia |].
  unfold zlen. rewrite repeat_length. nia.
Qed.

Lemma trunc_floor q : (0 <= q)%Q -> q_trunc q = Qfloor q.
Proof. intros H. unfold q_trunc. apply Qle_bool_iff in H. rewrite H. reflexivity. Qed.
Lemma floor_nonneg q : (0 <= q)%Q -> 0 <= Qfloor q.
Proof. intros H. apply (Qfloor_resp_le 0 q H). Qed.

(** ** Every picture *)
Definition byte_pixel (p : pixel) : Prop :=
  let '(r, g, b, a) := p in 0 <= r < 256 /\ 0 <= g < 256 /\ 0 <= b < 256 /\ 0 <= a < 256.
Definition ready (c : canvas) : Prop := sound c /\ Forall byte_pixel (c_pixels c).

Lemma q_gt_false a b : q_gt a b = false <-> (a <= b)%Q.
Proof. unfold q_gt. rewrite negb_false_iff. apply Qle_bool_iff. Qed.
Lemma q_gt_true a b : q_gt a b = true -> (b <= a)%Q.
Proof.
  intros H. unfold q_gt in H. apply negb_true_iff in H. apply Qlt_le_weak, Qnot_le_lt. intros L. apply Qle_bool_iff in L. congruence.
Qed.

Lemma channel_byte c v : 0 <= channel c v < 256.
Proof.
  unfold channel. cbv zeta. set (r := (inject_Z c * v)%Q). set (r1 := if q_gt 0 r then 0%Q else r).
  assert (H1 : (0 <= r1)%Q) by (unfold r1; destruct (q_gt 0 r) eqn:E; [apply Qle_refl | apply q_gt_false, E]).
  set (r2 := if q_gt r1 255 then 255%Q else r1).
  assert (H2 : (0 <= r2 <= 255)%Q).
  { unfold r2. destruct (q_gt r1 255) eqn:E; [split; discriminate|]. split; [exact H1 | apply q_gt_false, E]. }
  rewrite trunc_floor by apply H2. destruct H2 as [A B]. apply Qfloor_resp_le in A, B. change (Qfloor 0) with 0 in A. change (Qfloor 255) with 255 in B. lia.
Qed.
Lemma ink_byte p v : byte_pixel (ink p v).
Proof.
  unfold ink, byte_pixel. destruct (near_black p); repeat match goal with |- _ /\ _ => split | |- context [channel ?a ?b] => pose proof (channel_byte a b); lia | _ => lia end.
Qed.
Lemma set_nth_forall {A} (P : A -> Prop) n x l : P x -> Forall P l -> Forall P (set_nth n x l).
Proof.
  intros Hx. revert n. induction l as [|a l IH]; intros [|n] F; cbn [set_nth]; try constructor; inversion F; auto.
Qed.
Definition keeps (c c' : canvas) : Prop :=
  ready c' /\ c_width c' = c_width c /\ c_height c' = c_height c.
Lemma keeps_refl c : ready c -> keeps c c.
Proof. intros R. split; auto. Qed.
Lemma keeps_trans a b c : keeps a b -> keeps b c -> keeps a c.
Proof. intros (_ & A & B) (R & C & D). split; [exact R|]. split; congruence. Qed.
Lemma plot_keeps p c x y v : ready c -> keeps c (plot p c x y v).
Proof.
  intros [S F]. destruct (plot_same p c x y v) as (A & B & C). split; [|auto]. split; [apply (same_sound c); auto|].
  unfold plot. destruct (py_pos _ _); [|exact F]. cbn [c_pixels]. apply set_nth_forall; [apply ink_byte | exact F].
Qed.
Lemma gradient_ok q : (q <= 1)%Q -> exists v, gradient q = Ok v.
Proof.
  intros H. unfold gradient. apply Qle_bool_iff in H.
  repeat match goal with |- context [if ?b then _ else _] => destruct b eqn:?; [eauto|] end. discriminate.
Qed.
Lemma line_for_point_keeps f w p c x y dy m i : ready c -> (0 < m -> i <= m) ->
  exists c', line_for_point f w p c x y dy m i = Ok c' /\ keeps c c'.
Proof.
  intros R Hi. unfold line_for_point.
  assert (V : exists v, (if f && (0 <? m) then gradient (inject_Z i / inject_Z m) else Ok 1%Q) = Ok v).
  { destruct (f && (0 <? m)) eqn:E; [|eauto]. apply andb_true_iff in E. destruct E as [_ E]. apply Z.ltb_lt in E.
    apply gradient_ok. apply Qle_shift_div_r; [change 0%Q with (inject_Z 0); rewrite <- Zlt_Qlt; exact E|].
    rewrite Qmult_1_l, <- Zle_Qle. auto. }
  destruct V as (v & ->). cbn [bindr]. eexists. split; [reflexivity|].
  generalize (py_range (- Z.shiftr w 1) (w - Z.shiftr w 1)). intros l. revert c R. induction l as [|a l IH]; intros c R; cbn [fold_left]; [apply keeps_refl, R|].
  set (c1 := if dy then plot p c (x + a) y v else plot p c x (y + a) v).
  assert (K : keeps c c1) by (unfold c1; destruct dy; apply plot_keeps, R).
  eapply keeps_trans; [exact K|]. apply IH. apply K.
Qed.
Lemma draw_points_keeps f w p dy m l : forall c, ready c -> (0 < m -> Forall (fun q => 0 <= snd q <= m) l) ->
  exists c', draw_points f w p dy m l c = Ok c' /\ keeps c c'.
Proof.
  induction l as [|[[x y] i] l IH]; intros c R F; cbn [draw_points]; [exists c; split; [reflexivity | apply keeps_refl, R]|].
  destruct (line_for_point_keeps f w p c x y dy m i R) as (c1 & E1 & K1).
  { intros Hm. specialize (F Hm). apply Forall_cons_iff in F. destruct F as [F _]. cbn [snd] in F. lia. }
  rewrite E1. cbn [bindr]. destruct (IH c1) as (c2 & E2 & K2); [apply K1 | intros Hm; specialize (F Hm); apply Forall_cons_iff in F; apply F |].
  exists c2. split; [exact E2 | eapply keeps_trans; eauto].
Qed.
Lemma draw_line_keeps f w p x0 y0 x1 y1 c : ready c -> exists c', draw_line f w p x0 y0 x1 y1 c = Ok c' /\ keeps c c'.
Proof.
  intros R. destruct (line_of_ok x0 y0 x1 y1) as (l & E & G). unfold draw_line. rewrite E. cbn [bindr].
  apply draw_points_keeps; [exact R | apply G].
Qed.
Lemma draw_block_keeps f w p b : forall last c, ready c -> exists c', draw_block f w p last b c = Ok c' /\ keeps c c'.
Proof.
  induction b as [|s b IH]; intros last c R; cbn [draw_block]; [exists c; split; [reflexivity | apply keeps_refl, R]|].
  destruct last as [[lx ly]|]; cbn [bindr].
  - destruct (draw_line_keeps f w p lx ly (q_trunc (sx s)) (q_trunc (sy s)) c R) as (c1 & E1 & K1). rewrite E1. cbn [bindr].
    destruct (IH (Some (q_trunc (sx s), q_trunc (sy s))) c1) as (c2 & E2 & K2); [apply K1|]. exists c2. split; [exact E2 | eapply keeps_trans; eauto].
  - apply IH, R.
Qed.
Lemma draw_blocks_keeps f w l : forall c, ready c -> exists c', draw_blocks f w l c = Ok c' /\ keeps c c'.
Proof.
  induction l as [|[b color] l IH]; intros c R; cbn [draw_blocks]; [exists c; split; [reflexivity | apply keeps_refl, R]|].
  destruct (draw_block_keeps f w (mkPen (get_red color) (get_green color) (get_blue color)) b None c R) as (c1 & E1 & K1).
  rewrite E1. cbn [bindr]. destruct (IH c1) as (c2 & E2 & K2); [apply K1|]. exists c2. split; [exact E2 | eapply keeps_trans; eauto].
Qed.

(** ** Guides *)
Lemma inside_pos c x y : sound c -> inside c x y -> exists n, py_pos (c_width c * y + x) (zlen (c_pixels c)) = Some n /\ (n < length (c_pixels c))%nat.
Proof.
  intros [Sw Sh Sn] [Hx Hy]. unfold py_pos. rewrite Sn.
  assert (0 <= c_width c * y + x < c_width c * c_height c) by nia.
  destruct (Z.leb_spec 0 (c_width c * y + x)); [|lia]. destruct (Z.ltb_spec (c_width c * y + x) (c_width c * c_height c)); [|lia].
  eexists. split; [reflexivity|]. unfold zlen in Sn. lia.
Qed.

Lemma div9 v : 0 <= v <= 9 -> (0 <= (9 - inject_Z v) / 9 <= 1)%Q.
Proof.
  intros H. assert (0 <= inject_Z v)%Q by (change 0%Q with (inject_Z 0); rewrite <- Zle_Qle; lia).
  assert (inject_Z v <= 9)%Q by (change 9%Q with (inject_Z 9); rewrite <- Zle_Qle; lia).
  split; [apply Qle_shift_div_l; [reflexivity|]; Lqa.lra | apply Qle_shift_div_r; [reflexivity|]; Lqa.lra].
Qed.
Lemma trunc_byte q : (0 <= q <= 255)%Q -> 0 <= q_trunc q < 256.
Proof.
  intros [A B]. rewrite trunc_floor by exact A. apply Qfloor_resp_le in A, B. change (Qfloor 0) with 0 in A. change (Qfloor 255) with 255 in B. lia.
Qed.

Lemma glyph_cell_keeps rows x y cx cy v (rot : bool) c : ready c -> 0 <= v <= 9 ->
  (if rot then inside c (x + (rows - cy) + 1) (y + cx + 2) else inside c (x + cx + 2) (y + cy + 2)) ->
  exists c', glyph_cell rows x y cx cy v rot c = Ok c' /\ keeps c c'.
Proof.
  intros [S F] Hv I. unfold glyph_cell. destruct (v =? 9); [exists c; split; [reflexivity | apply keeps_refl; split; assumption]|].
  cbv zeta.
  set (gx := if rot then x + (rows - cy) + 1 else x + cx + 2). set (gy := if rot then y + cx + 2 else y + cy + 2).
  assert (I' : inside c gx gy) by (unfold gx, gy; destruct rot; exact I).
  destruct (inside_pos c gx gy S I') as (n & E & L). rewrite E.
  assert (B : byte_pixel (nth n (c_pixels c) (0, 0, 0, 0))) by (rewrite Forall_forall in F; apply F, nth_In, L).
  destruct (nth n (c_pixels c) (0, 0, 0, 0)) as [[[r g] b] a]. eexists. split; [reflexivity|].
  split; [|auto]. split.
  - destruct S as [Sw Sh Sn]. constructor; cbn [c_width c_height c_pixels]; auto. unfold zlen. rewrite set_nth_length. exact Sn.
  - cbn [c_pixels]. apply set_nth_forall; [|exact F]. destruct B as (B1 & B2 & B3 & B4).
    assert (P : forall k, 0 <= k < 256 -> (0 <= (1 - (9 - inject_Z v) / 9) * inject_Z k <= 255)%Q).
    { intros k Hk. pose proof (div9 v Hv) as D. set (d := ((9 - inject_Z v) / 9)%Q) in *.
      assert (0 <= inject_Z k)%Q by (change 0%Q with (inject_Z 0); rewrite <- Zle_Qle; lia).
      assert (inject_Z k <= 255)%Q by (change 255%Q with (inject_Z 255); rewrite <- Zle_Qle; lia).
      split; [apply Qmult_le_0_compat; Lqa.lra|]. apply Qle_trans with (1 * inject_Z k)%Q; [|Lqa.lra].
      apply Qmult_le_compat_r; Lqa.lra. }
    split; [apply trunc_byte, P, B1|]. split; [apply trunc_byte, P, B2|]. split; [apply trunc_byte, P, B3|]. apply trunc_byte.
    pose proof (div9 v Hv) as D. set (d := ((9 - inject_Z v) / 9)%Q) in *.
    assert (Ha : (0 <= inject_Z a / 255 <= 1)%Q).
    { assert (0 <= inject_Z a)%Q by (change 0%Q with (inject_Z 0); rewrite <- Zle_Qle; lia).
      assert (inject_Z a <= 255)%Q by (change 255%Q with (inject_Z 255); rewrite <- Zle_Qle; lia).
      split; [apply Qle_shift_div_l; [reflexivity|]; Lqa.lra | apply Qle_shift_div_r; [reflexivity|]; Lqa.lra]. }
    set (e := (inject_Z a / 255)%Q) in *.
    assert (0 <= e * (1 - d))%Q by (apply Qmult_le_0_compat; Lqa.lra).
    assert (e * (1 - d) <= 1 * (1 - d))%Q by (apply Qmult_le_compat_r; Lqa.lra). Lqa.lra.
Qed.

Lemma fold_res_keeps {A} (f : A -> canvas -> res canvas) (l : list A) c0 :
  (forall a c, In a l -> keeps c0 c -> exists c', f a c = Ok c' /\ keeps c c') ->
  forall c, keeps c0 c -> exists c', fold_res f l c = Ok c' /\ keeps c c'.
Proof.
  induction l as [|a l IH]; intros H c K; cbn [fold_res]; [exists c; split; [reflexivity | apply keeps_refl, K]|].
  destruct (H a c (or_introl eq_refl) K) as (c1 & E1 & K1). rewrite E1. cbn [bindr].
  destruct (IH (fun a c (Ha : In a l) => H a c (or_intror Ha)) c1 (keeps_trans _ _ _ K K1)) as (c2 & E2 & K2).
  exists c2. split; [exact E2 | eapply keeps_trans; eauto].
Qed.

Definition glyph_size (m : list (list Z)) : bool :=
  (zlen m =? 13) && (zlen (hd [] m) =? 9) && forallb (forallb (fun v => (0 <=? v) && (v <=? 9))) m.
Lemma glyph_keeps m x y (rot : bool) c : glyph_size m = true -> ready c ->
  (if rot then 0 <= x /\ x + 14 < c_width c /\ 0 <= y /\ y + 10 < c_height c
   else 0 <= x /\ x + 10 < c_width c /\ 0 <= y /\ y + 14 < c_height c) ->
  exists c', glyph m x y rot c = Ok c' /\ keeps c c'.
Proof.
  intros G R I. unfold glyph_size in G. apply andb_true_iff in G. destruct G as [G G3]. apply andb_true_iff in G. destruct G as [G1 G2].
  apply Z.eqb_eq in G1, G2. unfold glyph. rewrite G1, G2.
  apply (fold_res_keeps _ _ c); [|apply keeps_refl, R]. intros cx c1 Hcx K1. apply in_range in Hcx.
  apply (fold_res_keeps _ _ c); [|exact K1]. intros cy c2 Hcy K2. apply in_range in Hcy. apply glyph_cell_keeps; [apply K2| |].
  - set (row := nth (Z.to_nat cy) m []). destruct (nth_in_or_default (Z.to_nat cx) row 9) as [Hin | ->]; [|lia].
    rewrite forallb_forall in G3. destruct (nth_in_or_default (Z.to_nat cy) m []) as [Hr|Hr]; [|unfold row in Hin; rewrite Hr in Hin; destruct Hin].
    specialize (G3 _ Hr). rewrite forallb_forall in G3. specialize (G3 _ Hin). apply andb_true_iff in G3. destruct G3 as [A B].
    apply Z.leb_le in A, B. fold row in A, B. lia.
  - destruct K2 as (_ & W & H). unfold inside. rewrite W, H. destruct rot; lia.
Qed.

Definition drawable (ch : Z) : bool :=
  match find (fun p => fst p =? ch) characters with Some (_, m) => glyph_size m | None => false end.
Lemma draw_text_keeps (rot : bool) s : forall x y c, ready c -> forallb drawable s = true -> 0 <= x -> 0 <= y ->
  (if rot then x + 14 < c_width c /\ y + 11 * zlen s <= c_height c
   else x + 11 * zlen s <= c_width c /\ y + 14 < c_height c) ->
  exists c', draw_text x y s rot c = Ok c' /\ keeps c c'.
Proof.
  induction s as [|ch s IH]; intros x y c R D Hx Hy B; cbn [draw_text]; [exists c; split; [reflexivity | apply keeps_refl, R]|].
  cbn [forallb] in D. apply andb_true_iff in D. destruct D as [D1 D2]. unfold drawable in D1.
  destruct (find _ characters) as [[k m]|]; [|discriminate]. assert (zlen (ch :: s) = 1 + zlen s /\ 0 <= zlen s) by (unfold zlen; cbn [length]; lia).
  destruct (glyph_keeps m x y rot c D1 R) as (c1 & E1 & K1); [destruct rot; lia|]. rewrite E1. cbn [bindr].
  destruct K1 as (R1 & W1 & H1).
  destruct rot.
  - destruct (IH x (y + 11) c1 R1 D2) as (c2 & E2 & K2); [lia | lia | lia |]. exists c2. split; [exact E2|]. eapply keeps_trans; [split; eauto | exact K2].
  - destruct (IH (x + 11) y c1 R1 D2) as (c2 & E2 & K2); [lia | lia | lia |]. exists c2. split; [exact E2|]. eapply keeps_trans; [split; eauto | exact K2].
Qed.

Lemma number_drawable ch : number_char ch -> drawable ch = true.
Proof.
  intros H. assert (In ch [45; 48; 49; 50; 51; 52; 53; 54; 55; 56; 57]) as I.
  { unfold number_char, digit in H. cbn [In]. lia. }
  assert (F : forallb drawable [45; 48; 49; 50; 51; 52; 53; 54; 55; 56; 57] = true) by (vm_compute; reflexivity).
  rewrite forallb_forall in F. apply F, I.
Qed.
Lemma label_drawable v : forallb drawable (str_of_int v) = true.
Proof.
  apply forallb_forall. intros ch H. apply number_drawable. pose proof (str_of_int_chars v) as F. rewrite Forall_forall in F. apply F, H.
Qed.
Lemma in_steps a b v : In v (py_steps a b 50) -> a <= v < b.
Proof.
  unfold py_steps. intros H. apply in_map_iff in H. destruct H as (k & <- & Hk). apply in_range in Hk.
  pose proof (Z.mul_div_le (b - a + 50 - 1) 50 ltac:(lia)). lia.
Qed.

(** The labels fit: eleven dots for each character. *)
Definition labels_fit (min size room : Z) : Prop :=
  forall v, 0 <= v <= size -> 11 * zlen (str_of_int (Z.quot (v + min) 10)) <= room.

Lemma draw_guides_keeps f x0 y0 x1 y1 c : ready c ->
  c_width c = q_trunc (x1 - x0) + 3 -> c_height c = q_trunc (y1 - y0) + 3 ->
  22 <= q_trunc (x1 - x0) -> 22 <= q_trunc (y1 - y0) ->
  labels_fit (q_trunc x0) (q_trunc (x1 - x0)) (q_trunc (y1 - y0)) ->
  labels_fit (q_trunc y0) (q_trunc (y1 - y0)) (q_trunc (x1 - x0)) ->
  exists c', draw_guides f x0 y0 x1 y1 c = Ok c' /\ keeps c c'.
Proof.
  intros R W H Lw Lh Fx Fy. unfold draw_guides. set (w := q_trunc (x1 - x0)) in *. set (h := q_trunc (y1 - y0)) in *.
  destruct (draw_text_keeps false [109; 109] 0 0 c R) as (c1 & E1 & K1); [vm_compute; reflexivity | lia | lia | cbn [zlen length Z.of_nat]; change (zlen [109; 109]) with 2; lia |].
  rewrite E1. cbn [bindr].
  match goal with |- context [fold_res ?f ?l c1] => destruct (fold_res_keeps f l c) with (c := c1) as (c2 & E2 & K2) end; [|exact K1|].
  { intros x c2 Hx K. apply in_steps in Hx. destruct (Z.ltb_spec x 30); [exists c2; split; [reflexivity | apply keeps_refl, K]|].
    destruct K as (R2 & W2 & H2). set (label := str_of_int (Z.quot (x + q_trunc x0) 10)).
    assert (11 * zlen label <= h) by (apply Fx; lia).
    destruct (draw_text_keeps true label x 0 c2 R2 (label_drawable _)) as (c3 & E3 & K3); [lia | lia | lia |].
    rewrite E3. cbn [bindr]. destruct (draw_line_keeps f 1 (mkPen 0 0 0) x 0 x 30 c3) as (c4 & E4 & K4); [apply K3|].
    exists c4. split; [exact E4 | eapply keeps_trans; eauto]. }
  rewrite E2. cbn [bindr].
  match goal with |- context [fold_res ?f ?l c2] => destruct (fold_res_keeps f l c) with (c := c2) as (c3 & E3 & K3) end; [| eapply keeps_trans; eauto |].
  { intros y c3 Hy K. apply in_steps in Hy. destruct (Z.ltb_spec y 30); [exists c3; split; [reflexivity | apply keeps_refl, K]|].
    destruct K as (R3 & W3 & H3). set (label := str_of_int (Z.quot (y + q_trunc y0) 10)).
    assert (11 * zlen label <= w) by (apply Fy; lia).
    destruct (draw_text_keeps false label 0 y c3 R3 (label_drawable _)) as (c4 & E4 & K4); [lia | lia | lia |].
    rewrite E4. cbn [bindr]. destruct (draw_line_keeps f 1 (mkPen 0 0 0) 0 y 30 y c4) as (c5 & E5 & K5); [apply K4|].
    exists c5. split; [exact E5 | eapply keeps_trans; eauto]. }
  exists c3. split; [exact E3 | eapply keeps_trans; [exact K1 | eapply keeps_trans; eauto]].
Qed.

(** ** Lines are connected *)
Lemma steps_close A B b b' k : 0 <= B <= A -> 0 < A ->
  - A <= 2 * B * k - 2 * A * b <= A -> - A <= 2 * B * (k + 1) - 2 * A * b' <= A -> 0 <= b' - b <= 1.
Proof.
  intros HB HA H1 H2. destruct (Z.eq_dec A B) as [->|N].
  - assert (b = k) by nia. assert (b' = k + 1) by nia. lia.
  - destruct (Z.eq_dec B 0) as [->|N0]; [assert (b = 0) by nia; assert (b' = 0) by nia; lia|].
    assert (A * (b' - b) = A * b' - A * b) by ring. assert (B * (k + 1) = B * k + B) by ring.
    assert (- A < A * (b' - b) < 2 * A) by lia. nia.
Qed.

(** ** The file *)
Lemma u32_number v : 0 <= v < 2 ^ 32 -> number32 (u32 v) = v.
Proof.
  intros H. unfold number32, u32. cbn [fold_left].
  pose proof (Z.div_mod v 256 ltac:(lia)). pose proof (Z.div_mod (v / 256) 256 ltac:(lia)).
  pose proof (Z.div_mod (v / 65536) 256 ltac:(lia)).
  assert (v / 65536 = v / 256 / 256) by (rewrite Z.div_div by lia; reflexivity).
  assert (v / 16777216 = v / 65536 / 256) by (rewrite Z.div_div by lia; reflexivity).
  assert (0 <= v / 16777216 < 256) by (split; [apply Z.div_pos; lia | apply Z.div_lt_upper_bound; lia]).
  rewrite (Z.mod_small (v / 16777216) 256) by lia. lia.
Qed.
Lemma png_rows_ok w n : forall px, length px = (n * w)%nat ->
  exists img, rows w (png_rows n w px) img /\ concat img = px /\ length img = n.
Proof.
  induction n as [|n IH]; intros px H; cbn [png_rows].
  - destruct px; [|discriminate]. exists []. split; [constructor | auto].
  - destruct (IH (skipn w px)) as (img & R & C & L); [rewrite skipn_length; lia|].
    exists (firstn w px :: img). split; [|split].
    + constructor; [apply firstn_length_le; lia | exact R].
    + cbn [concat]. rewrite C. apply firstn_skipn.
    + cbn [length]. lia.
Qed.
