(** Proofs about preview pictures. *)
From Coq Require Import Ascii String ZArith Bool List Lia.
From Verif Require Import PyBase BitLemmas PatternModel TextModel ThreadModel PecFileModel PecGraphicsProofs CsvModel GraphicModel GraphicSpec.
Import ListNotations.
Open Scope Z_scope.

(** ** The text of a picture *)
Section Text.
Context (one zero : text).
Let bits (byte : Z) : list text := map (fun i => if Z.land (Z.shiftr byte i) 1 =? 0 then zero else one) [0; 1; 2; 3; 4; 5; 6; 7].

Lemma bits_length b : List.length (bits b) = 8%nat.
Proof. reflexivity. Qed.
Lemma bits_skip n : forall g, skipn (8 * n) (flat_map bits g) = flat_map bits (skipn n g).
Proof.
  induction n as [|n IH]; intros g; [reflexivity|]. destruct g as [|b g]; [rewrite skipn_nil; reflexivity|].
  cbn [skipn flat_map]. rewrite <- IH. replace (8 * S n)%nat with (8 + 8 * n)%nat by lia. reflexivity.
Qed.
Lemma bits_first n : forall g, firstn (8 * n) (flat_map bits g) = flat_map bits (firstn n g).
Proof.
  induction n as [|n IH]; intros g; [reflexivity|]. destruct g as [|b g]; [rewrite firstn_nil; reflexivity|].
  cbn [firstn flat_map]. rewrite <- IH. replace (8 * S n)%nat with (8 + 8 * n)%nat by lia. reflexivity.
Qed.
Lemma bit_char b i : 0 <= i -> (if Z.land (Z.shiftr b i) 1 =? 0 then zero else one) = if Z.testbit b i then one else zero.
Proof.
  intros Hi. change 1 with (Z.ones 1). rewrite Z.land_ones by lia. rewrite (Z.testbit_eqb b i Hi), Z.shiftr_div_pow2 by lia. change (2 ^ 1) with 2.
  destruct (Z.eqb_spec (b / 2 ^ i mod 2) 0), (Z.eqb_spec (b / 2 ^ i mod 2) 1); try reflexivity; lia.
Qed.
Lemma bits_concat : forall g,
  List.concat (flat_map bits g) =
  flat_map (fun x => if Z.testbit (nth (x / 8)%nat g 0) (Z.of_nat x mod 8) then one else zero) (seq 0 (8 * List.length g)).
Proof.
  induction g as [|b g IH]; [reflexivity|]. cbn [flat_map List.length]. rewrite concat_app, IH.
  replace (8 * S (List.length g))%nat with (8 + 8 * List.length g)%nat by lia. rewrite seq_app, flat_map_app. f_equal.
  - unfold bits. cbn [map List.concat]. rewrite !bit_char by lia. reflexivity.
  - change (0 + 8)%nat with 8%nat.
    assert (Sh : forall n k, seq (8 + k) n = map (fun x => 8 + x)%nat (seq k n)).
    { induction n as [|n IHn]; intros k; [reflexivity|]. cbn [seq map]. f_equal. rewrite <- IHn. f_equal. }
    rewrite (Sh _ 0%nat). rewrite !flat_map_concat_map, map_map. f_equal.
    apply map_ext. intros x. replace ((8 + x) / 8)%nat with (S (x / 8)).
    + cbn [nth]. replace (Z.of_nat (8 + x) mod 8) with (Z.of_nat x mod 8) by lia. reflexivity.
    + replace (8 + x)%nat with (x + 1 * 8)%nat by lia. rewrite Nat.div_add by lia. lia.
Qed.

Lemma row_of g stride y : 0 < stride -> 0 <= y -> stride * y <= zlen g ->
  List.concat (cut (y * (8 * stride)) (8 * stride) (flat_map bits g)) = row_text g stride one zero y.
Proof.
  intros Hs Hy Hl. unfold cut, row_text.
  replace (Z.to_nat (y * (8 * stride))) with (8 * Z.to_nat (stride * y))%nat by lia.
  replace (Z.to_nat (8 * stride)) with (8 * Z.to_nat stride)%nat by lia.
  rewrite bits_skip, bits_first, bits_concat. unfold upto. rewrite !flat_map_concat_map, map_map. f_equal.
  unfold columns_of, zlen in *. rewrite firstn_length, skipn_length.
  replace (Z.to_nat (8 * Z.min stride (Z.of_nat (List.length g) - stride * y)))
    with (8 * Nat.min (Z.to_nat stride) (List.length g - Z.to_nat (stride * y)))%nat by lia.
  apply map_ext_in. intros x Hx. apply in_seq in Hx. unfold pixel_at.
  assert (X : (x / 8 < Nat.min (Z.to_nat stride) (List.length g - Z.to_nat (stride * y)))%nat)
    by (apply Nat.div_lt_upper_bound; lia).
  replace (nth (x / 8)%nat (firstn (Z.to_nat stride) (skipn (Z.to_nat (stride * y)) g)) 0)
    with (nth (Z.to_nat (stride * y + Z.of_nat x / 8)) g 0); [reflexivity|].
  replace (Z.to_nat (stride * y + Z.of_nat x / 8)) with (Z.to_nat (stride * y) + x / 8)%nat.
  - rewrite <- (firstn_skipn (Z.to_nat (stride * y)) g) at 1.
    assert (L1 : List.length (firstn (Z.to_nat (stride * y)) g) = Z.to_nat (stride * y)) by (rewrite firstn_length; lia).
    rewrite app_nth2 by lia. rewrite L1. replace (Z.to_nat (stride * y) + x / 8 - Z.to_nat (stride * y))%nat with (x / 8)%nat by lia.
    rewrite <- (firstn_skipn (Z.to_nat stride) (skipn (Z.to_nat (stride * y)) g)) at 1.
    rewrite app_nth1; [reflexivity|]. rewrite firstn_length, skipn_length. lia.
  - rewrite Z2Nat.inj_add; [|lia|apply Z.div_pos; lia]. f_equal.
    apply Nat2Z.inj. rewrite Z2Nat.id by (apply Z.div_pos; lia). apply (Nat2Z.inj_div x 8).
Qed.

Lemma join_lines : forall parts, lines_are parts (join [10] parts).
Proof.
  induction parts as [|p [|q r] IH]; [constructor|constructor|].
  change (join [10] (p :: q :: r)) with (p ++ 10 :: join [10] (q :: r)). constructor; [exact IH|discriminate].
Qed.

Lemma graphic_text g stride : 0 < stride ->
  exists t, get_graphic_as_string g stride one zero = Ok t /\
    lines_are (map (row_text g stride one zero) (upto (rows_of g stride))) t.
Proof.
  intros Hs. unfold get_graphic_as_string, range_step.
  destruct (Z.eqb_spec (8 * stride) 0); [lia|]. destruct (Z.ltb_spec (8 * stride) 0); [lia|]. cbn [bindr].
  eexists. split; [reflexivity|].
  assert (E : (8 * zlen g + 8 * stride - 1) / (8 * stride) = rows_of g stride).
  { unfold rows_of. pose proof (Z.div_mod (zlen g + stride - 1) stride ltac:(lia)) as D.
    pose proof (Z.mod_pos_bound (zlen g + stride - 1) stride Hs) as B.
    set (k := (zlen g + stride - 1) / stride) in *. set (m := (zlen g + stride - 1) mod stride) in *.
    symmetry. apply Z.div_unique with (r := 8 * m + 7); [left; lia|]. clearbody k m. nia. }
  rewrite E. rewrite map_map.
  match goal with |- lines_are ?a (join _ ?b) => replace b with a; [apply join_lines|] end.
  unfold upto. rewrite map_map. apply map_ext_in. intros k Hk. apply in_seq in Hk. symmetry. fold bits.
  apply row_of; [exact Hs|lia|].
  unfold rows_of in Hk. pose proof (Z.div_mod (zlen g + stride - 1) stride ltac:(lia)) as D.
  pose proof (Z.mod_pos_bound (zlen g + stride - 1) stride Hs) as B.
  set (q := (zlen g + stride - 1) / stride) in *. assert (Z.of_nat k <= q - 1) by lia.
  assert (stride * Z.of_nat k <= stride * (q - 1)) by (apply Z.mul_le_mono_nonneg_l; lia). lia.
Qed.
End Text.

(** The characters of the text. *)
Lemma lines_size parts t : lines_are parts t -> parts <> [] ->
  zlen t = fold_right Z.add 0 (map zlen parts) + zlen parts - 1.
Proof.
  intros H. induction H as [|t|t r s H IH N]; intros Ne; [congruence|unfold zlen; cbn [map fold_right List.length]; lia|].
  specialize (IH N). unfold zlen in *. rewrite app_length. cbn [map fold_right List.length]. lia.
Qed.
Lemma lines_chars (P : Z -> Prop) parts t : P 10 -> lines_are parts t -> Forall (Forall P) parts -> Forall P t.
Proof.
  intros H10 H. induction H as [|t|t r s H IH N]; intros F; [constructor|inversion F; assumption|].
  inversion F; subst. apply Forall_app. split; [assumption|]. constructor; [exact H10|]. apply IH. assumption.
Qed.

(** ** Marking and unmarking *)
Lemma and_at_some i m g : 0 <= i < zlen g -> exists b, nth_error g (Z.to_nat i) = Some b /\
  and_at i m g = Some (firstn (Z.to_nat i) g ++ Z.land b m :: skipn (Z.to_nat i + 1) g).
Proof.
  intros H. unfold and_at, zlen in *. destruct (Z.ltb_spec i 0); [lia|]. destruct (Z.ltb_spec i 0); [lia|].
  destruct (nth_error g (Z.to_nat i)) as [b|] eqn:E; [eauto|]. apply nth_error_None in E. lia.
Qed.
Definition stroke_on (g : list Z) (stride : Z) (s : stroke) : option (list Z) :=
  match s with Mark x y => graphic_mark_bit g x y stride | Unmark x y => graphic_unmark_bit g x y stride end.
Definition within (stride height : Z) (s : stroke) : Prop :=
  0 <= fst (place s) < 8 * stride /\ 0 <= snd (place s) < height.

Lemma place_index stride height x y : 0 <= x < 8 * stride -> 0 <= y < height ->
  0 <= stride * y + x / 8 < stride * height.
Proof.
  intros Hx Hy. assert (0 <= x / 8 < stride) by lia. clear Hx. generalize dependent (x / 8). intros q Hq. nia.
Qed.
Lemma same_place stride x y px py : 0 <= x < 8 * stride -> 0 <= px < 8 * stride -> 0 <= y -> 0 <= py ->
  stride * y + x / 8 = stride * py + px / 8 -> y = py /\ x / 8 = px / 8.
Proof.
  intros Hx Hp Hy Hpy E. assert (A : 0 <= x / 8 < stride) by lia. assert (B : 0 <= px / 8 < stride) by lia.
  revert E A B. generalize (x / 8) (px / 8). intros q r E A B.
  assert (y = py) by nia. subst. split; [reflexivity|lia].
Qed.
Lemma stroke_ok g stride height s : 0 < stride -> zlen g = stride * height -> Forall (fun b => 0 <= b < 256) g ->
  within stride height s ->
  exists g', stroke_on g stride s = Some g' /\ zlen g' = zlen g /\ Forall (fun b => 0 <= b < 256) g' /\
  forall x y, 0 <= x < 8 * stride -> 0 <= y < height ->
    pixel_at g' stride x y = if (x =? fst (place s)) && (y =? snd (place s)) then marks s else pixel_at g stride x y.
Proof.
  intros Hs L Fb [Wx Wy].
  assert (U : forall (f : Z -> Z) px py, 0 <= px < 8 * stride -> 0 <= py < height ->
    (forall b, 0 <= b < 256 -> 0 <= f b < 256) -> forall v,
    (forall b k, 0 <= k < 8 -> Z.testbit (f b) k = if k =? px mod 8 then v else Z.testbit b k) ->
    forall b, nth_error g (Z.to_nat (py * stride + px / 8)) = Some b ->
    let i := Z.to_nat (py * stride + px / 8) in let g' := firstn i g ++ f b :: skipn (i + 1) g in
    zlen g' = zlen g /\ Forall (fun b => 0 <= b < 256) g' /\
    forall x y, 0 <= x < 8 * stride -> 0 <= y < height ->
      pixel_at g' stride x y = if (x =? px) && (y =? py) then v else pixel_at g stride x y).
  { intros f px py Hx Hy Hf v Hv b Eb i g'. pose proof (place_index stride height px py Hx Hy) as R.
    assert (B : (i < List.length g)%nat) by (unfold i; unfold zlen in L; lia).
    split; [unfold g', zlen; rewrite update_length by exact B; reflexivity|]. split.
    - unfold g'. apply Forall_app. split; [apply Forall_firstn, Fb|]. constructor; [|apply Forall_skipn, Fb].
      apply Hf. rewrite Forall_forall in Fb. apply Fb. eapply nth_error_In. exact Eb.
    - intros x y Bx By. unfold pixel_at, g'. rewrite update_nth by exact B. unfold i.
      pose proof (place_index stride height x y Bx By) as R2.
      destruct (Nat.eqb_spec (Z.to_nat (stride * y + x / 8)) (Z.to_nat (py * stride + px / 8))) as [E|E].
      + assert (E' : stride * y + x / 8 = stride * py + px / 8) by lia.
        apply same_place in E' as [-> Eq]; [|lia|lia|lia|lia]. rewrite Hv by lia. rewrite Z.eqb_refl, andb_true_r.
        rewrite E, (nth_error_nth _ _ 0 Eb).
        destruct (Z.eqb_spec (x mod 8) (px mod 8)), (Z.eqb_spec x px); try reflexivity; exfalso; lia.
      + destruct (Z.eqb_spec x px), (Z.eqb_spec y py); try reflexivity. subst. exfalso. apply E. f_equal. lia. }
  destruct s as [px py|px py]; cbn [place fst snd marks stroke_on] in *.
  - unfold graphic_mark_bit. rewrite Z.quot_div_nonneg by lia. pose proof (place_index stride height px py Wx Wy) as R.
    destruct (or_at_some (py * stride + px / 8) (Z.shiftl 1 (px mod 8)) g) as (b & Eb & ->); [lia|].
    eexists. split; [reflexivity|].
    apply (U (fun b => Z.lor b (Z.shiftl 1 (px mod 8))) px py Wx Wy); [| |exact Eb].
    + intros c Hc. assert (K : 0 <= px mod 8 < 8) by lia. clear -Hc K. split; [apply Z.lor_nonneg; split; [lia|apply Z.shiftl_nonneg; lia]|].
      destruct (Z.eq_dec (Z.lor c (Z.shiftl 1 (px mod 8))) 0) as [->|N]; [lia|].
      assert (0 <= Z.lor c (Z.shiftl 1 (px mod 8))) by (apply Z.lor_nonneg; split; [lia|apply Z.shiftl_nonneg; lia]).
      change 256 with (2 ^ 8). apply Z.log2_lt_pow2; [lia|]. rewrite Z.log2_lor; [|lia|apply Z.shiftl_nonneg; lia].
      apply Z.max_lub_lt.
      * destruct (Z.eq_dec c 0) as [->|]; [reflexivity|]. apply Z.log2_lt_pow2; lia.
      * rewrite Z.shiftl_mul_pow2, Z.mul_1_l by lia. rewrite Z.log2_pow2; lia.
    + intros c k Hk. rewrite Z.lor_spec, Z.shiftl_mul_pow2, Z.mul_1_l by lia. rewrite Z.pow2_bits_eqb by lia.
      destruct (Z.eqb_spec (px mod 8) k), (Z.eqb_spec k (px mod 8)); try (exfalso; lia); rewrite ?orb_true_r, ?orb_false_r; reflexivity.
  - unfold graphic_unmark_bit. rewrite Z.quot_div_nonneg by lia. pose proof (place_index stride height px py Wx Wy) as R.
    destruct (and_at_some (py * stride + px / 8) (Z.lnot (Z.shiftl 1 (px mod 8))) g) as (b & Eb & ->); [lia|].
    eexists. split; [reflexivity|].
    apply (U (fun b => Z.land b (Z.lnot (Z.shiftl 1 (px mod 8)))) px py Wx Wy); [| |exact Eb].
    + intros c Hc. split; [apply Z.land_nonneg; left; lia|]. apply Z.le_lt_trans with c; [|lia].
      rewrite <- Z.ldiff_land. apply Z.ldiff_le; [lia|]. apply Z.bits_inj'. intros n Hn. rewrite !Z.ldiff_spec, Z.bits_0.
      destruct (Z.testbit c n), (Z.testbit (Z.shiftl 1 (px mod 8)) n); reflexivity.
    + intros c k Hk. rewrite Z.land_spec, Z.lnot_spec, Z.shiftl_mul_pow2, Z.mul_1_l by lia. rewrite Z.pow2_bits_eqb by lia.
      destruct (Z.eqb_spec (px mod 8) k), (Z.eqb_spec k (px mod 8)); try (exfalso; lia); cbn [negb]; rewrite ?andb_true_r, ?andb_false_r; reflexivity.
Qed.

Fixpoint strokes_on (g : list Z) (stride : Z) (l : list stroke) : option (list Z) :=
  match l with
  | [] => Some g
  | s :: r => match stroke_on g stride s with Some g' => strokes_on g' stride r | None => None end
  end.
Lemma last_cons s l x y t : last_at l x y t -> last_at (s :: l) x y t.
Proof. intros (b & a & -> & P & F). exists (s :: b), a. auto. Qed.
Lemma last_of l x y : (exists s, last_at l x y s) \/ Forall (fun t => place t <> (x, y)) l.
Proof.
  induction l as [|s l [[t H]|H]]; [right; constructor|left; exists t; apply last_cons, H|].
  destruct (Z.eq_dec (fst (place s)) x), (Z.eq_dec (snd (place s)) y).
  - left. exists s, [], l. split; [reflexivity|]. split; [|exact H]. destruct (place s); cbn in *; congruence.
  - right. constructor; [|exact H]. intros E. rewrite E in *. cbn in *. congruence.
  - right. constructor; [|exact H]. intros E. rewrite E in *. cbn in *. congruence.
  - right. constructor; [|exact H]. intros E. rewrite E in *. cbn in *. congruence.
Qed.
Lemma strokes_ok stride height : 0 < stride -> forall l g, zlen g = stride * height -> Forall (fun b => 0 <= b < 256) g ->
  Forall (within stride height) l ->
  exists g', strokes_on g stride l = Some g' /\ zlen g' = zlen g /\ Forall (fun b => 0 <= b < 256) g' /\
  forall x y, 0 <= x < 8 * stride -> 0 <= y < height ->
    (forall s, last_at l x y s -> pixel_at g' stride x y = marks s) /\
    (Forall (fun t => place t <> (x, y)) l -> pixel_at g' stride x y = pixel_at g stride x y).
Proof.
  intros Hs. induction l as [|s l IH]; intros g L Fb W; cbn [strokes_on].
  - exists g. repeat split; try assumption. intros s (b & a & E & _). destruct b; discriminate.
  - inversion W as [|s' l' W1 W2]; subst. destruct (stroke_ok g stride height s Hs L Fb W1) as (g1 & -> & L1 & F1 & P1).
    destruct (IH g1 ltac:(congruence) F1 W2) as (g' & E & L2 & F2 & P2). exists g'.
    split; [exact E|]. split; [congruence|]. split; [exact F2|]. intros x y Hx Hy. destruct (P2 x y Hx Hy) as [A B]. split.
    + intros t (b & a & Eq & Pt & Fa). destruct b as [|s0 b]; cbn [app] in Eq; injection Eq as -> ->.
      * rewrite B by exact Fa. rewrite P1 by assumption. rewrite Pt. cbn [fst snd]. rewrite !Z.eqb_refl. reflexivity.
      * apply A. exists b, a. auto.
    + intros F. inversion F as [|? ? N F']; subst. rewrite B by exact F'. rewrite P1 by assumption.
      destruct (Z.eqb_spec x (fst (place s))), (Z.eqb_spec y (snd (place s))); try reflexivity. subst. exfalso. apply N.
      destruct (place s); reflexivity.
Qed.
