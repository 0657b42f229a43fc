From Coq Require Import ZArith List Bool Lia.
From Verif Require Import PyBase BitLemmas ThreadModel.
Import ListNotations.
Open Scope Z_scope.

(** ** Distance *)
Definition same_color (a b : Z) : Prop := Z.land a 0xFFFFFF = Z.land b 0xFFFFFF.

Lemma byte_range : forall c, 0 <= Z.land c 0xFF < 256.
Proof. intros. rewrite land_ff. lia. Qed.

Lemma components : forall c, Z.land c 0xFFFFFF = get_red c * 65536 + get_green c * 256 + get_blue c.
Proof.
  intros c. unfold get_red, get_green, get_blue. rewrite land_ffffff, !land_ff.
  rewrite !Z.shiftr_div_pow2 by lia. change (2 ^ 16) with 65536. change (2 ^ 8) with 256. lia.
Qed.

Lemma components_range : forall c, 0 <= get_red c < 256 /\ 0 <= get_green c < 256 /\ 0 <= get_blue c < 256.
Proof. intros c. unfold get_red, get_green, get_blue. rewrite !land_ff. lia. Qed.

Lemma same_components : forall a b, same_color a b <->
  get_red a = get_red b /\ get_green a = get_green b /\ get_blue a = get_blue b.
Proof.
  intros a b. unfold same_color. rewrite !components.
  pose proof (components_range a). pose proof (components_range b). lia.
Qed.

Lemma round_half_range : forall n, 0 <= n <= 510 -> 0 <= round_half n <= 255.
Proof.
  intros n H. unfold round_half. cbv zeta.
  destruct (Z.eqb_spec (n mod 2) 0); [lia|]. destruct (Z.eqb_spec (n / 2 mod 2) 0); lia.
Qed.

Lemma scaled_square : forall k x, 0 <= k -> 0 <= k * x * x.
Proof. intros k x H. rewrite <- Z.mul_assoc. apply Z.mul_nonneg_nonneg; [exact H|apply Z.square_nonneg]. Qed.

Lemma scaled_square_small : forall k x, 256 <= k -> k * x * x < 256 -> x = 0.
Proof.
  intros k x H L. destruct (Z.eq_dec x 0) as [E|E]; [exact E|]. exfalso.
  assert (S : 1 <= x * x) by (pose proof (Z.square_nonneg x); assert (x * x <> 0) by (intros Z0; apply Z.mul_eq_0 in Z0; tauto); lia).
  rewrite <- Z.mul_assoc in L. pose proof (Z.mul_le_mono_nonneg 256 k 1 (x * x) ltac:(lia) H ltac:(lia) S). lia.
Qed.

Lemma distance_nonneg : forall a b, 0 <= distance a b.
Proof.
  intros a b. unfold distance, color_distance_red_mean. cbv zeta.
  pose proof (components_range a). pose proof (components_range b).
  pose proof (round_half_range (get_red a + get_red b) ltac:(lia)).
  rewrite !Z.shiftr_div_pow2 by lia.
  set (m := round_half (get_red a + get_red b)) in *.
  pose proof (scaled_square (512 + m) (get_red a - get_red b) ltac:(lia)) as G1.
  pose proof (scaled_square (767 - m) (get_blue a - get_blue b) ltac:(lia)) as G2.
  pose proof (scaled_square 4 (get_green a - get_green b) ltac:(lia)) as G3.
  pose proof (Z.div_pos _ (2 ^ 8) G1 ltac:(lia)). pose proof (Z.div_pos _ (2 ^ 8) G2 ltac:(lia)).
  apply Z.add_nonneg_nonneg; [apply Z.add_nonneg_nonneg|]; assumption.
Qed.

Lemma distance_zero : forall a b, distance a b = 0 <-> same_color a b.
Proof.
  intros a b. rewrite same_components. unfold distance, color_distance_red_mean. cbv zeta.
  pose proof (components_range a). pose proof (components_range b).
  pose proof (round_half_range (get_red a + get_red b) ltac:(lia)).
  rewrite !Z.shiftr_div_pow2 by lia. change (2 ^ 8) with 256.
  set (m := round_half (get_red a + get_red b)) in *.
  split.
  - intros E.
    pose proof (scaled_square (512 + m) (get_red a - get_red b) ltac:(lia)) as G1.
    pose proof (scaled_square (767 - m) (get_blue a - get_blue b) ltac:(lia)) as G2.
    pose proof (scaled_square 4 (get_green a - get_green b) ltac:(lia)) as G3.
    set (u := (512 + m) * (get_red a - get_red b) * (get_red a - get_red b)) in *.
    set (v := (767 - m) * (get_blue a - get_blue b) * (get_blue a - get_blue b)) in *.
    set (w := 4 * (get_green a - get_green b) * (get_green a - get_green b)) in *.
    assert (U : u < 256) by lia. assert (V : v < 256) by lia. assert (W : w = 0) by lia.
    apply scaled_square_small in U; [|lia]. apply scaled_square_small in V; [|lia].
    unfold w in W. rewrite <- Z.mul_assoc in W. apply Z.mul_eq_0 in W. destruct W as [W|W]; [discriminate|].
    apply Z.mul_eq_0 in W. lia.
  - intros (-> & -> & ->). rewrite !Z.sub_diag, !Z.mul_0_r. reflexivity.
Qed.

Lemma distance_same : forall a b c, same_color a b -> distance a c = distance b c.
Proof.
  intros a b c H. apply same_components in H. destruct H as (E1 & E2 & E3).
  unfold distance. rewrite E1, E2, E3. reflexivity.
Qed.

(** ** Nearest *)
(** [best] is right for the entries before index [i]: in terms of the whole list [all]. *)
Definition is_best (c : Z) (all : list (option thread)) (upto : nat) (best : option (Z * nat)) : Prop :=
  match best with
  | None => forall j t, (j < upto)%nat -> nth_error all j = Some (Some t) -> False
  | Some (d, i) => (i < upto)%nat /\ (exists t, nth_error all i = Some (Some t) /\ d = distance c (t_color t)) /\
      forall j t, (j < upto)%nat -> nth_error all j = Some (Some t) -> d <= distance c (t_color t)
  end.

Lemma nearest_loop_spec : forall c all values i best,
  skipn i all = values -> (i <= length all)%nat -> is_best c all i best ->
  is_best c all (length all) (nearest_loop c i best values).
Proof.
  intros c all. induction values as [|v values IH]; intros i best Hs Hi Hb.
  - cbn [nearest_loop]. assert (length all <= i)%nat.
    { pose proof (f_equal (@length _) Hs) as L. rewrite skipn_length in L. cbn in L. lia. }
    replace (length all) with i by lia. exact Hb.
  - assert (Hlt : (i < length all)%nat).
    { pose proof (f_equal (@length _) Hs) as L. rewrite skipn_length in L. cbn in L. lia. }
    assert (Hv : nth_error all i = Some v).
    { rewrite <- (firstn_skipn i all), nth_error_app2; rewrite firstn_length_le by lia; [|lia].
      rewrite Nat.sub_diag, Hs. reflexivity. }
    assert (Hn : skipn (S i) all = values).
    { rewrite <- (firstn_skipn i all), Hs.
      replace (S i) with (length (firstn i all ++ [v])) by (rewrite app_length, firstn_length_le by lia; cbn; lia).
      change (v :: values) with ([v] ++ values). rewrite app_assoc.
      rewrite skipn_app, skipn_all, Nat.sub_diag. reflexivity. }
    assert (Hcase : forall j, (j < S i)%nat -> (j < i)%nat \/ j = i) by lia.
    destruct v as [t|]; cbn [nearest_loop].
    + destruct best as [[d k]|]; cbn [is_best] in Hb.
      * destruct Hb as (Hk & (t0 & Ht0 & Hd) & Hall).
        destruct (Z.leb_spec (distance c (t_color t)) d).
        -- apply IH; [assumption|lia|]. cbn [is_best]. split; [lia|]. split; [exists t; split; [exact Hv|reflexivity]|].
           intros j t1 Hj Hjt. destruct (Hcase j Hj) as [Hj'|Hj'].
           ++ specialize (Hall j t1 Hj' Hjt). lia.
           ++ subst j. rewrite Hv in Hjt. injection Hjt as <-. lia.
        -- apply IH; [assumption|lia|]. cbn [is_best]. split; [lia|]. split; [exists t0; split; assumption|].
           intros j t1 Hj Hjt. destruct (Hcase j Hj) as [Hj'|Hj']; [apply (Hall j t1 Hj' Hjt)|].
           subst j. rewrite Hv in Hjt. injection Hjt as <-. lia.
      * apply IH; [assumption|lia|]. cbn [is_best]. split; [lia|]. split; [exists t; split; [exact Hv|reflexivity]|].
        intros j t1 Hj Hjt. destruct (Hcase j Hj) as [Hj'|Hj']; [exfalso; apply (Hb j t1 Hj' Hjt)|].
        subst j. rewrite Hv in Hjt. injection Hjt as <-. lia.
    + apply IH; [assumption|lia|]. destruct best as [[d k]|]; cbn [is_best] in *.
      * destruct Hb as (Hk & Hd & Hall). split; [lia|]. split; [exact Hd|].
        intros j t1 Hj Hjt. destruct (Hcase j Hj) as [Hj'|Hj']; [apply (Hall j t1 Hj' Hjt)|].
        subst j. rewrite Hv in Hjt. discriminate.
      * intros j t1 Hj Hjt. destruct (Hcase j Hj) as [Hj'|Hj']; [apply (Hb j t1 Hj' Hjt)|].
        subst j. rewrite Hv in Hjt. discriminate.
Qed.

Lemma nearest_some : forall c values i, find_nearest_color_index c values = Some i ->
  exists t, nth_error values i = Some (Some t) /\
    forall j t', nth_error values j = Some (Some t') -> distance c (t_color t) <= distance c (t_color t').
Proof.
  intros c values i H. unfold find_nearest_color_index in H.
  pose proof (nearest_loop_spec c values values 0 None eq_refl ltac:(lia)) as S.
  destruct (nearest_loop c 0 None values) as [[d k]|]; [|discriminate]. injection H as ->.
  destruct S as (Hk & (t & Ht & ->) & Hall); [intros j t Hj; lia|].
  exists t. split; [exact Ht|]. intros j t' Hj. apply (Hall j t'); [|exact Hj].
  apply nth_error_Some. rewrite Hj. discriminate.
Qed.

Lemma nearest_none : forall c values, find_nearest_color_index c values = None <->
  Forall (fun v => v = None) values.
Proof.
  intros c values. unfold find_nearest_color_index.
  pose proof (nearest_loop_spec c values values 0 None eq_refl ltac:(lia)) as S.
  destruct (nearest_loop c 0 None values) as [[d k]|]; split; intros H; try discriminate; try reflexivity.
  - destruct S as (Hk & (t & Ht & _) & _); [intros j t Hj; lia|].
    apply nth_error_In in Ht. rewrite Forall_forall in H. specialize (H _ Ht). discriminate.
  - apply Forall_forall. intros v Hv. destruct v as [t|]; [|reflexivity]. exfalso.
    apply In_nth_error in Hv. destruct Hv as [n Hn]. cbn [is_best] in S.
    apply (S ltac:(intros j t0 Hj; lia) n t); [|exact Hn]. apply nth_error_Some. rewrite Hn. discriminate.
Qed.

Lemma nearest_same : forall a b values, same_color a b ->
  find_nearest_color_index a values = find_nearest_color_index b values.
Proof.
  intros a b values H. unfold find_nearest_color_index. f_equal.
  generalize 0%nat. generalize (@None (Z * nat)).
  induction values as [|[t|] values IH]; intros best i; cbn [nearest_loop]; [reflexivity| |apply IH].
  rewrite (distance_same a b _ H). destruct best as [[d k]|]; [|apply IH].
  destruct (distance b (t_color t) <=? d); apply IH.
Qed.

(** ** set_nth *)
Lemma set_nth_length : forall A i (x : A) l, length (set_nth i x l) = length l.
Proof. intros A i x. induction i as [|i IH]; intros [|a l]; cbn [set_nth length]; try reflexivity. rewrite IH. reflexivity. Qed.

Lemma set_nth_same : forall A i (x : A) l, (i < length l)%nat -> nth_error (set_nth i x l) i = Some x.
Proof. intros A i x. induction i as [|i IH]; intros [|a l] H; cbn [set_nth length nth_error] in *; try lia; [reflexivity|]. apply IH. lia. Qed.

Lemma set_nth_other : forall A i j (x : A) l, i <> j -> nth_error (set_nth i x l) j = nth_error l j.
Proof.
  intros A i. induction i as [|i IH]; intros [|j] x [|a l] H; cbn [set_nth nth_error]; try reflexivity; try lia.
  apply IH. lia.
Qed.

Definition usable (l : list (option thread)) : nat :=
  length (filter (fun v => match v with Some _ => true | None => false end) l).

Lemma usable_set_none : forall l i t, nth_error l i = Some (Some t) -> S (usable (set_nth i None l)) = usable l.
Proof.
  unfold usable. induction l as [|v l IH]; intros [|i] t H; cbn [nth_error set_nth] in *; try discriminate.
  - injection H as ->. cbn [filter length]. reflexivity.
  - cbn [filter]. destruct v; cbn [length]; rewrite <- (IH i t H); reflexivity.
Qed.

Lemma usable_some : forall l c, (0 < usable l)%nat -> exists i, find_nearest_color_index c l = Some i.
Proof.
  intros l c H. destruct (find_nearest_color_index c l) as [i|] eqn:E; [exists i; reflexivity|].
  apply nearest_none in E. exfalso. unfold usable in H.
  replace (filter _ l) with (@nil (option thread)) in H; [cbn in H; lia|].
  induction E as [|v l Hv E IH]; [reflexivity|]. subst v. cbn [filter]. apply IH.
  cbn [filter] in H. exact H.
Qed.

(** ** Unique palette *)
(** Each enumerated thread has a chart cell of its own. *)
Lemma fill_chart_spec : forall order palette chart,
  (length order <= usable palette)%nat -> length chart = length palette ->
  (forall i t, nth_error chart i = Some (Some t) -> nth_error palette i = Some None) ->
  let result := fill_chart order palette chart in
  length result = length palette /\
  (forall i t, nth_error chart i = Some (Some t) -> nth_error result i = Some (Some t)) /\
  (forall t, In t order -> exists i, nth_error result i = Some (Some t)).
Proof.
  induction order as [|t order IH]; intros palette chart Hu Hl Hinv; cbn [fill_chart].
  { split; [exact Hl|]. split; [auto|]. intros t []. }
  cbn [length] in Hu.
  destruct (usable_some palette (t_color t) ltac:(lia)) as [i Ei]. rewrite Ei.
  destruct (nearest_some _ _ _ Ei) as (pt & Hpt & _).
  assert (Hi : (i < length palette)%nat) by (apply nth_error_Some; rewrite Hpt; discriminate).
  pose proof (usable_set_none _ _ _ Hpt) as Hus.
  destruct (IH (set_nth i None palette) (set_nth i (Some t) chart)) as (L & K & E).
  - lia.
  - rewrite !set_nth_length. exact Hl.
  - intros j t' Hj. destruct (Nat.eq_dec i j) as [<-|Hne].
    + apply set_nth_same. exact Hi.
    + rewrite set_nth_other in Hj by assumption. rewrite set_nth_other by assumption. apply (Hinv j t' Hj).
  - rewrite set_nth_length in L. split; [exact L|]. split.
    + intros j t' Hj. apply K. destruct (Nat.eq_dec i j) as [<-|Hne].
      * exfalso. pose proof (Hinv _ _ Hj) as Hn. rewrite Hpt in Hn. discriminate.
      * rewrite set_nth_other by assumption. exact Hj.
    + intros t' [<-|Hin]; [|apply E; exact Hin]. exists i. apply K. apply set_nth_same. lia.
Qed.

Lemma unique_palette : forall order palette threads,
  (length order <= usable palette)%nat ->
  (forall t, In t threads -> exists t', In t' order /\ same_color (t_color t') (t_color t)) ->
  let result := build_unique_palette order palette threads in
  length result = length threads /\
  forall i j ti tj, nth_error threads i = Some ti -> nth_error threads j = Some tj ->
    exists pi pj, nth_error result i = Some (Some pi) /\ nth_error result j = Some (Some pj) /\
      (pi < length palette)%nat /\ (pi = pj <-> same_color (t_color ti) (t_color tj)).
Proof.
  intros order palette threads Hu Hcov result. unfold result, build_unique_palette.
  destruct (fill_chart_spec order palette (repeat None (length palette)) Hu (repeat_length _ _)) as (L & _ & E).
  { intros i t H. apply nth_error_In in H. apply repeat_spec in H. discriminate. }
  set (chart := fill_chart order palette (repeat None (length palette))) in *.
  split; [apply map_length|].
  assert (A : forall t, In t threads -> exists p tc, find_nearest_color_index (t_color t) chart = Some p /\
     nth_error chart p = Some (Some tc) /\ same_color (t_color t) (t_color tc)).
  { intros t Ht. destruct (Hcov t Ht) as (t' & Hin & Hsame). destruct (E t' Hin) as [k Hk].
    destruct (find_nearest_color_index (t_color t) chart) as [p|] eqn:Ep.
    - destruct (nearest_some _ _ _ Ep) as (tc & Hc & Hmin). exists p, tc. split; [reflexivity|]. split; [exact Hc|].
      apply distance_zero. specialize (Hmin k t' Hk).
      assert (Z0 : distance (t_color t) (t_color t') = 0) by (apply distance_zero; unfold same_color in *; congruence).
      pose proof (distance_nonneg (t_color t) (t_color tc)). lia.
    - exfalso. apply nearest_none in Ep. rewrite Forall_forall in Ep. apply nth_error_In in Hk.
      specialize (Ep _ Hk). discriminate. }
  intros i j ti tj Hi Hj.
  destruct (A ti (nth_error_In _ _ Hi)) as (pi & ci & Ei & Ci & Si).
  destruct (A tj (nth_error_In _ _ Hj)) as (pj & cj & Ej & Cj & Sj).
  exists pi, pj. split; [rewrite nth_error_map, Hi; cbn; rewrite Ei; reflexivity|].
  split; [rewrite nth_error_map, Hj; cbn; rewrite Ej; reflexivity|].
  split; [rewrite <- L; apply nth_error_Some; rewrite Ci; discriminate|].
  split.
  - intros <-. rewrite Ci in Cj. injection Cj as <-. unfold same_color in *. congruence.
  - intros H. rewrite (nearest_same _ _ chart H), Ej in Ei. congruence.
Qed.

(** ** Non-repeating palette *)
Fixpoint no_repeat (threads : list thread) (idx : list (option nat)) : Prop :=
  match threads, idx with
  | t1 :: ((t2 :: _) as tr), i1 :: ((i2 :: _) as ir) =>
      (thread_eqb t1 t2 = false -> i1 <> i2) /\ no_repeat tr ir
  | _, _ => True
  end.

Lemma nonrepeat_step : forall palette threads last lt, (2 <= usable palette)%nat ->
  exists idx, nonrepeat_loop palette (Some last) (Some lt) threads = Ok idx /\
    length idx = length threads /\ Forall (fun i => i <> None) idx /\
    no_repeat (lt :: threads) (Some last :: idx).
Proof.
  intros palette. induction threads as [|t threads IH]; intros last lt Hu.
  { exists []. repeat split. apply Forall_nil. }
  cbn [nonrepeat_loop].
  destruct (usable_some palette (t_color t) ltac:(lia)) as [i Ei]. rewrite Ei.
  cbn [oidx_eqb]. destruct (Nat.eqb_spec last i) as [El|El].
  - destruct (thread_eqb lt t) eqn:Et; cbn [negb andb].
    + destruct (IH i t Hu) as (idx & E & L & F & N). rewrite E. cbn [bindr].
      exists (Some i :: idx). split; [reflexivity|]. split; [cbn [length]; rewrite L; reflexivity|].
      split; [apply Forall_cons; [discriminate|exact F]|]. cbn [no_repeat]. split; [congruence|exact N].
    + destruct (nearest_some _ _ _ Ei) as (pt & Hpt & _).
      pose proof (usable_set_none _ _ _ Hpt) as Hus.
      destruct (usable_some (set_nth i None palette) (t_color t) ltac:(lia)) as [k Ek]. rewrite Ek.
      destruct (IH k t Hu) as (idx & E & L & F & N). rewrite E. cbn [bindr].
      exists (Some k :: idx). split; [reflexivity|]. split; [cbn [length]; rewrite L; reflexivity|].
      split; [apply Forall_cons; [discriminate|exact F]|]. cbn [no_repeat]. split; [|exact N].
      intros _ Heq. injection Heq as Heq. subst k last.
      destruct (nearest_some _ _ _ Ek) as (x & Hx & _).
      rewrite set_nth_same in Hx; [discriminate|]. apply nth_error_Some. rewrite Hpt. discriminate.
  - cbn [andb]. destruct (IH i t Hu) as (idx & E & L & F & N). rewrite E. cbn [bindr].
    exists (Some i :: idx). split; [reflexivity|]. split; [cbn [length]; rewrite L; reflexivity|].
    split; [apply Forall_cons; [discriminate|exact F]|]. cbn [no_repeat]. split; [congruence|exact N].
Qed.

Lemma nonrepeat_palette : forall palette threads, (2 <= usable palette)%nat ->
  exists idx, build_nonrepeat_palette palette threads = Ok idx /\
    length idx = length threads /\ Forall (fun i => i <> None) idx /\ no_repeat threads idx.
Proof.
  intros palette [|t threads] Hu; unfold build_nonrepeat_palette.
  { exists []. repeat split. apply Forall_nil. }
  cbn [nonrepeat_loop].
  destruct (usable_some palette (t_color t) ltac:(lia)) as [i Ei]. rewrite Ei. cbn [oidx_eqb andb].
  destruct (nonrepeat_step palette threads i t Hu) as (idx & E & L & F & N). rewrite E. cbn [bindr].
  exists (Some i :: idx). split; [reflexivity|]. split; [cbn [length]; rewrite L; reflexivity|].
  split; [apply Forall_cons; [discriminate|exact F]|exact N].
Qed.

(** ** Colour texts *)
Lemma hex2_digits : forall b acc r, 0 <= b < 256 ->
  int16_acc acc (hex2 b ++ r) = int16_acc (acc * 256 + b) r.
Proof.
  intros b acc r H.
  assert (D : forall n, 0 <= n < 16 -> digit_value (hex_digit n) = Some n).
  { intros n Hn. unfold hex_digit, digit_value. destruct (Z.ltb_spec n 10).
    - replace ((48 <=? 48 + n) && (48 + n <=? 57)) with true by lia. f_equal. lia.
    - replace ((48 <=? 87 + n) && (87 + n <=? 57)) with false by lia.
      replace ((97 <=? 87 + n) && (87 + n <=? 102)) with true by lia. f_equal. lia. }
  unfold hex2. cbn [app int16_acc]. rewrite !D by lia. f_equal. lia.
Qed.

Lemma hex2_ne : forall b, 0 <= b < 256 -> Forall (fun ch => ch <> 35) (hex2 b).
Proof.
  intros b H. unfold hex2, hex_digit.
  apply Forall_cons; [|apply Forall_cons; [|apply Forall_nil]];
    [destruct (Z.ltb_spec (b / 16) 10)|destruct (Z.ltb_spec (b mod 16) 10)]; lia.
Qed.

Lemma hex_round_trip : forall c, color_hex (hex_color c) = Ok (Some (Z.land c 0xFFFFFF)).
Proof.
  intros c. rewrite components. pose proof (components_range c) as (Hr & Hg & Hb).
  unfold color_hex, hex_color. cbn [app lstrip]. change (35 =? 35) with true. cbn iota.
  assert (L : lstrip 35 (hex2 (get_red c) ++ hex2 (get_green c) ++ hex2 (get_blue c))
     = hex2 (get_red c) ++ hex2 (get_green c) ++ hex2 (get_blue c)).
  { pose proof (hex2_ne _ Hr) as H. unfold hex2 in *. cbn [app lstrip]. inversion H; subst.
    destruct (Z.eqb_spec (hex_digit (get_red c / 16)) 35); [contradiction|reflexivity]. }
  rewrite L. change (length (hex2 (get_red c) ++ hex2 (get_green c) ++ hex2 (get_blue c))) with 6%nat.
  cbn [Nat.eqb orb].
  change (firstn 6 (hex2 (get_red c) ++ hex2 (get_green c) ++ hex2 (get_blue c)))
    with (hex2 (get_red c) ++ hex2 (get_green c) ++ hex2 (get_blue c) ++ []).
  change (int16 (hex2 (get_red c) ++ hex2 (get_green c) ++ hex2 (get_blue c) ++ []))
    with (int16_acc 0 (hex2 (get_red c) ++ hex2 (get_green c) ++ hex2 (get_blue c) ++ [])).
  rewrite !hex2_digits by assumption. cbn [int16_acc bindr]. f_equal. f_equal. lia.
Qed.
