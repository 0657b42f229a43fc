From Coq Require Import ZArith List Bool Lia.
From Verif Require Import PyBase BitLemmas PatternModel CompressModel.
Import ListNotations.
Open Scope Z_scope.

(** ** Every read is non-negative and moves forward *)
Lemma get_bits_nonneg data p n : 0 <= n -> 0 <= get_bits data p n.
Proof.
  intros Hn. unfold get_bits. apply Z.land_nonneg. right. rewrite Z.shiftl_1_l. pose proof (Z.pow_pos_nonneg 2 n). lia.
Qed.
Lemma get_bits_bound data p n : 0 <= n -> get_bits data p n < 2 ^ n.
Proof.
  intros Hn. unfold get_bits. rewrite Z.shiftl_1_l. replace (2 ^ n - 1) with (Z.ones n) by (rewrite Z.ones_equiv; lia).
  rewrite Z.land_ones by exact Hn. apply Z.mod_pos_bound. apply Z.pow_pos_nonneg; lia.
Qed.

Lemma more_ones_forward data n : forall m p, let '(m', p') := more_ones data n m p in m <= m' /\ p <= p'.
Proof.
  induction n as [|n IH]; intros m p; cbn [more_ones]; [lia|]. unfold pop.
  destruct (get_bits data p 1 =? 1); [|lia]. specialize (IH (m + 1) (p + 1)).
  destruct (more_ones data n (m + 1) (p + 1)). lia.
Qed.
Lemma variable_forward data p : let '(m, p') := read_variable_length data p in 0 <= m /\ p <= p'.
Proof.
  unfold read_variable_length, pop. pose proof (get_bits_nonneg data p 3 ltac:(lia)).
  destruct (negb (get_bits data p 3 =? 7)); [lia|].
  pose proof (more_ones_forward data 13 (get_bits data p 3) (p + 3)). destruct (more_ones _ _ _ _). lia.
Qed.

(** A table whose entries and lengths are non-negative. *)
Record good (h : huffman) : Prop := {
  good_default : 0 <= h_default h;
  good_lengths : Forall (fun l => 0 <= l) (h_lengths h);
  good_table : match h_table h with Some t => Forall (fun v => 0 <= v) t | None => True end }.
Lemma constant_good v : 0 <= v -> good (constant_huffman v).
Proof. intros H. split; cbn; [exact H|constructor|exact I]. Qed.
Lemma table_pass_good b size lengths : forall index, 0 <= index -> Forall (fun v => 0 <= v) (table_pass b size index lengths).
Proof.
  induction lengths as [|l r IH]; intros index Hi; cbn [table_pass]; [constructor|].
  apply Forall_app; split; [|apply IH; lia]. destruct (l =? b); [|constructor].
  apply Forall_forall. intros x Hx. apply repeat_spec in Hx. lia.
Qed.
Lemma build_good d lengths : 0 <= d -> Forall (fun l => 0 <= l) lengths -> good (build_table d lengths).
Proof.
  intros Hd H. split; cbn [h_default h_lengths h_table build_table]; [exact Hd|exact H|].
  apply Forall_forall. intros x Hx. apply in_flat_map in Hx as (k & _ & Hx).
  pose proof (table_pass_good (Z.of_nat k) (2 ^ (fold_left Z.max lengths 0 - Z.of_nat k)) lengths 0 ltac:(lia)) as F.
  rewrite Forall_forall in F. apply F. exact Hx.
Qed.

Lemma py_get_in {A} i (l : list A) a : py_get i l = Ok a -> In a l.
Proof.
  unfold py_get. destruct (0 <=? i).
  - destruct (nth_error l (Z.to_nat i)) eqn:E; [|discriminate]. intros [= ->]. eapply nth_error_In; exact E.
  - destruct (0 <=? i + zlen l); [|discriminate]. destruct (nth_error l (Z.to_nat (i + zlen l))) eqn:E; [|discriminate].
    intros [= ->]. eapply nth_error_In; exact E.
Qed.
Lemma lookup_good h b v l : good h -> lookup h b = Ok (v, l) -> 0 <= v /\ 0 <= l.
Proof.
  intros [Gd Gl Gt]. unfold lookup. destruct (h_table h) as [t|].
  - destruct (16 - h_width h <? 0); [discriminate|].
    destruct (py_get _ t) as [w|] eqn:E; [|discriminate]. cbn [bindr].
    destruct (py_get w (h_lengths h)) as [k|] eqn:K; [|discriminate]. cbn [bindr]. intros [= <- <-].
    apply py_get_in in E. apply py_get_in in K. rewrite Forall_forall in Gl, Gt. split; [apply Gt|apply Gl]; assumption.
  - intros [= <- <-]. split; [exact Gd|lia].
Qed.

Lemma py_get_no_fuel {A} i (l : list A) : py_get i l <> Err OutOfFuel.
Proof.
  unfold py_get. destruct (0 <=? i); [destruct (nth_error _ _); discriminate|].
  destruct (0 <=? i + zlen l); [destruct (nth_error _ _); discriminate|discriminate].
Qed.
Lemma lookup_no_fuel h b : lookup h b <> Err OutOfFuel.
Proof.
  unfold lookup. destruct (h_table h) as [t|]; [|discriminate]. destruct (16 - h_width h <? 0); [discriminate|].
  pose proof (py_get_no_fuel (Z.shiftr b (16 - h_width h)) t). destruct (py_get _ t) as [w|e]; cbn [bindr]; [|congruence].
  pose proof (py_get_no_fuel w (h_lengths h)). destruct (py_get w _); cbn [bindr]; congruence.
Qed.

Lemma py_set_spec {A} i (v : A) l l' : py_set i v l = Ok l' -> zlen l' = zlen l /\ forall P : A -> Prop, P v -> Forall P l -> Forall P l'.
Proof.
  unfold py_set. destruct (Z.leb_spec 0 i); [|discriminate]. destruct (Z.ltb_spec i (zlen l)); [|discriminate]. cbn [andb].
  intros [= <-]. split.
  - unfold zlen in *. rewrite app_length, firstn_length. cbn [List.length]. rewrite skipn_length. lia.
  - intros P Pv Pl. apply Forall_app. rewrite <- (firstn_skipn (Z.to_nat i) l) in Pl. apply Forall_app in Pl as [P1 P2].
    split; [exact P1|]. constructor; [exact Pv|].
    replace (Z.to_nat i + 1)%nat with (S (Z.to_nat i)) by lia.
    clear -P2. revert l P2. generalize (Z.to_nat i). induction n as [|n IH]; intros l P2.
    + destruct l; cbn [skipn] in *; [constructor|inversion P2; assumption].
    + destruct l; cbn [skipn] in *; [constructor|]. apply IH. exact P2.
Qed.
Lemma py_set_no_fuel {A} i (v : A) l : py_set i v l <> Err OutOfFuel.
Proof. unfold py_set. destruct ((0 <=? i) && (i <? zlen l)); discriminate. Qed.

(** Results of the loaders: never out of fuel, and on success [Q]. *)
Definition fine {A} (r : res A) (Q : A -> Prop) : Prop :=
  match r with Ok a => Q a | Err e => e <> OutOfFuel end.
Lemma fine_bind {A B} (r : res A) (k : A -> res B) Q R : fine r Q -> (forall a, Q a -> fine (k a) R) -> fine (bindr r k) R.
Proof. destruct r as [a|e]; cbn [fine bindr]; auto. Qed.
Lemma fine_of {A} (r : res A) : r <> Err OutOfFuel -> fine r (fun a => r = Ok a).
Proof. destruct r; cbn [fine]; congruence. Qed.

Lemma character_lengths_fine data n : forall index lengths p, 0 <= index -> zlen lengths - index <= Z.of_nat n ->
  Forall (fun l => 0 <= l) lengths ->
  fine (character_lengths data n index lengths p) (fun '(ls, p') => Forall (fun l => 0 <= l) ls /\ p <= p').
Proof.
  induction n as [|n IH]; intros index lengths p Hi Hn Hl; cbn [character_lengths];
    destruct (Z.ltb_spec index (zlen lengths)) as [K|K]; try (cbn [fine]; split; [exact Hl|lia]); [lia|].
  set (q := if index =? 3 then pop data 2 p else (0, p)).
  assert (Hq : 0 <= fst q /\ p <= snd q).
  { unfold q, pop. destruct (index =? 3); cbn [fst snd]; [pose proof (get_bits_nonneg data p 2)|]; lia. }
  destruct q as [skip p1]. cbn [fst snd] in Hq.
  pose proof (variable_forward data p1) as V. destruct (read_variable_length data p1) as [m p2].
  eapply fine_bind; [apply fine_of, py_set_no_fuel|]. intros l' E. apply py_set_spec in E as [E1 E2].
  specialize (IH (index + skip + 1) l' p2). assert (H : Forall (fun l => 0 <= l) l') by (apply E2; [lia|exact Hl]).
  specialize (IH ltac:(lia) ltac:(lia) H). destruct (character_lengths data n _ l' p2) as [[ls p3]|e]; cbn [fine] in *; [|exact IH].
  split; [tauto|lia].
Qed.
Lemma repeat_zero n : Forall (fun l => 0 <= l) (repeat 0 n).
Proof. apply Forall_forall. intros x H. apply repeat_spec in H. lia. Qed.
Lemma zlen_repeat {A} (a : A) c : 0 <= c -> zlen (repeat a (Z.to_nat c)) = c.
Proof. intros H. unfold zlen. rewrite repeat_length. lia. Qed.
Lemma load_lengths_fine data p : fine (load_character_length_huffman data p) (fun '(h, p') => good h /\ p <= p').
Proof.
  unfold load_character_length_huffman, pop. pose proof (get_bits_nonneg data p 5 ltac:(lia)) as H.
  destruct (get_bits data p 5 =? 0).
  - cbn [fine]. split; [apply constant_good, get_bits_nonneg; lia|lia].
  - eapply fine_bind.
    + apply character_lengths_fine; [lia|rewrite zlen_repeat by exact H; lia|apply repeat_zero].
    + intros [ls p'] [F G]. cbn [fine]. split; [apply build_good; [lia|exact F]|lia].
Qed.
Lemma code_lengths_fine data h n : good h -> forall index lengths p, 0 <= index -> zlen lengths - index <= Z.of_nat n ->
  Forall (fun l => 0 <= l) lengths ->
  fine (code_lengths data h n index lengths p) (fun '(ls, p') => Forall (fun l => 0 <= l) ls /\ p <= p').
Proof.
  intros Gh. induction n as [|n IH]; intros index lengths p Hi Hn Hl; cbn [code_lengths];
    destruct (Z.ltb_spec index (zlen lengths)) as [K|K]; try (cbn [fine]; split; [exact Hl|lia]); [lia|].
  assert (Imp : forall r q, p <= q -> fine r (fun '(ls, p') => Forall (fun l => 0 <= l) ls /\ q <= p') ->
    fine r (fun '(ls, p') => Forall (fun l : Z => 0 <= l) ls /\ p <= p')).
  { intros [[ls p']|e] q Hq; cbn [fine]; [|tauto]. intros [A B]. split; [exact A|lia]. }
  eapply fine_bind; [apply fine_of, lookup_no_fuel|]. intros [c l] E. apply lookup_good in E as [Hc Hl2]; [|exact Gh].
  destruct (Z.eqb_spec c 0); [eapply Imp; [|apply IH; try assumption]; lia|].
  destruct (Z.eqb_spec c 1).
  { unfold pop. pose proof (get_bits_nonneg data (p + l) 4 ltac:(lia)). eapply Imp; [|apply IH; try assumption]; lia. }
  destruct (Z.eqb_spec c 2).
  { unfold pop. pose proof (get_bits_nonneg data (p + l) 9 ltac:(lia)). eapply Imp; [|apply IH; try assumption]; lia. }
  eapply fine_bind; [apply fine_of, py_set_no_fuel|]. intros l' E. apply py_set_spec in E as [E1 E2].
  eapply Imp; [|apply IH]; [|lia|lia|apply E2; [lia|exact Hl]]. lia.
Qed.
Lemma load_characters_fine data h p : good h -> fine (load_character_huffman data h p) (fun '(h, p') => good h /\ p <= p').
Proof.
  intros Gh. unfold load_character_huffman, pop. pose proof (get_bits_nonneg data p 9 ltac:(lia)) as H.
  destruct (get_bits data p 9 =? 0).
  - cbn [fine]. split; [apply constant_good, get_bits_nonneg; lia|lia].
  - eapply fine_bind.
    + apply code_lengths_fine; [exact Gh|lia|rewrite zlen_repeat by exact H; lia|apply repeat_zero].
    + intros [ls p'] [F G]. cbn [fine]. split; [apply build_good; [lia|exact F]|lia].
Qed.
Lemma distance_lengths_fine data n : forall p, let '(ls, p') := distance_lengths data n p in Forall (fun l => 0 <= l) ls /\ p <= p'.
Proof.
  induction n as [|n IH]; intros p; cbn [distance_lengths]; [split; [constructor|lia]|].
  pose proof (variable_forward data p). destruct (read_variable_length data p) as [m p1].
  specialize (IH p1). destruct (distance_lengths data n p1) as [r p2]. destruct IH. split; [constructor; [lia|assumption]|lia].
Qed.
Lemma load_distance_fine data p : let '(h, p') := load_distance_huffman data p in good h /\ p <= p'.
Proof.
  unfold load_distance_huffman, pop. destruct (get_bits data p 5 =? 0).
  - split; [apply constant_good, get_bits_nonneg; lia|lia].
  - pose proof (distance_lengths_fine data (Z.to_nat (get_bits data p 5)) (p + 5)).
    destruct (distance_lengths _ _ _) as [ls p']. destruct H. split; [apply build_good; [lia|assumption]|lia].
Qed.

Definition sound (e : expander) : Prop := good (e_character e) /\ good (e_distance e).
Lemma load_block_fine data p : fine (load_block data p)
  (fun e => sound e /\ p + 16 <= e_position e /\ e_elements e < 65536).
Proof.
  unfold load_block, pop. pose proof (get_bits_bound data p 16 ltac:(lia)) as B.
  eapply fine_bind; [apply load_lengths_fine|]. intros [h p1] [G1 P1].
  eapply fine_bind; [apply load_characters_fine; exact G1|]. intros [c p2] [G2 P2].
  pose proof (load_distance_fine data p2) as D. destruct (load_distance_huffman data p2) as [d p3]. destruct D as [G3 P3].
  cbn [fine]. unfold sound. cbn [e_character e_distance e_position e_elements]. change (2 ^ 16) with 65536 in B. split; [tauto|lia].
Qed.

Definition weight (total : Z) (e : expander) : Z := Z.max 0 (total - e_position e) * 65536 + Z.max 0 (e_elements e).
Lemma get_token_fine data e total : sound e -> e_position e < total ->
  fine (get_token data e) (fun '(v, e') => sound e' /\ weight total e' < weight total e).
Proof.
  intros Se Hp. unfold get_token.
  eapply (fine_bind _ _ (fun e1 => sound e1 /\ Z.max 0 (total - e_position e1) * 65536 + Z.max 0 (e_elements e1 - 1) < weight total e)).
  - destruct (Z.leb_spec (e_elements e) 0).
    + pose proof (load_block_fine data (e_position e)) as L. destruct (load_block data (e_position e)) as [e1|x]; cbn [fine] in *; [|exact L].
      destruct L as (S1 & P1 & B1). split; [exact S1|]. unfold weight. lia.
    + cbn [fine]. split; [exact Se|]. unfold weight. lia.
  - intros e1 [[S1 S2] W1]. eapply fine_bind; [apply fine_of, lookup_no_fuel|]. intros [v l] E.
    apply lookup_good in E as [Hv Hl]; [|exact S1]. cbn [fine]. split; [split; assumption|].
    unfold weight at 1. cbn [e_position e_elements]. lia.
Qed.
Lemma get_position_fine data e total : sound e ->
  fine (get_position data e) (fun '(v, e') => sound e' /\ 0 <= v /\ weight total e' <= weight total e).
Proof.
  intros [S1 S2]. unfold get_position. eapply fine_bind; [apply fine_of, lookup_no_fuel|]. intros [v l] E.
  apply lookup_good in E as [Hv Hl]; [|exact S2]. destruct (Z.eqb_spec v 0).
  - cbn [fine]. split; [split; assumption|]. split; [lia|]. unfold weight. cbn [e_position e_elements]. lia.
  - unfold pop. pose proof (get_bits_nonneg data (e_position e + l) (v - 1) ltac:(lia)).
    cbn [fine]. split; [split; assumption|]. rewrite Z.shiftl_1_l. pose proof (Z.pow_pos_nonneg 2 (v - 1)).
    split; [lia|]. unfold weight. cbn [e_position e_elements]. lia.
Qed.
Lemma copy_each_fine n : forall i output, copy_each n i output <> Err OutOfFuel.
Proof.
  induction n as [|n IH]; intros i output; cbn [copy_each]; [discriminate|].
  pose proof (py_get_no_fuel i output). destruct (py_get i output); cbn [bindr]; [apply IH|congruence].
Qed.
Lemma copy_back_fine l b output : copy_back l b output <> Err OutOfFuel.
Proof. unfold copy_back. destruct (l <? b); [discriminate|apply copy_each_fine]. Qed.

Lemma expand_loop_total data size fuel : forall e output, sound e -> weight (zlen data * 8) e <= Z.of_nat fuel ->
  expand_loop data size fuel e output <> Err OutOfFuel.
Proof.
  assert (F : forall (r : res (list Z)), fine r (fun _ => True) -> r <> Err OutOfFuel).
  { intros [a|x]; cbn [fine]; congruence. }
  induction fuel as [|fuel IH]; intros e output Se Hw; cbn [expand_loop].
  - destruct (Z.ltb_spec (e_position e) (zlen data * 8)); [|discriminate].
    unfold weight in Hw. lia.
  - destruct (Z.ltb_spec (e_position e) (zlen data * 8)) as [Hp|]; [|discriminate].
    destruct (wants_more size output); [|discriminate]. cbn [andb]. apply F.
    eapply fine_bind; [apply (get_token_fine data e (zlen data * 8)); assumption|]. intros [c e1] [S1 W1].
    assert (G : forall e' o, sound e' -> weight (zlen data * 8) e' <= Z.of_nat fuel -> fine (expand_loop data size fuel e' o) (fun _ => True)).
    { intros e' o A B. specialize (IH e' o A B). destruct (expand_loop data size fuel e' o); cbn [fine]; [exact I|congruence]. }
    destruct (c <=? 255); [apply G; [exact S1|lia]|]. destruct (c =? 510); [exact I|].
    eapply fine_bind; [apply (get_position_fine data e1 (zlen data * 8)); exact S1|]. intros [b e2] (S2 & _ & W2).
    eapply fine_bind; [apply fine_of, copy_back_fine|]. intros o _. apply G; [exact S2|lia].
Qed.
Lemma expand_total data size fuel : 524288 * zlen data <= Z.of_nat fuel -> expand fuel data size <> Err OutOfFuel.
Proof.
  intros H. unfold expand. apply expand_loop_total.
  - split; apply constant_good; lia.
  - unfold weight. cbn [e_position e_elements]. unfold zlen in *. lia.
Qed.
Lemma expand_loop_more data size fuel k : forall e output, expand_loop data size fuel e output <> Err OutOfFuel ->
  expand_loop data size (fuel + k) e output = expand_loop data size fuel e output.
Proof.
  induction fuel as [|fuel IH]; intros e output; cbn [expand_loop Nat.add].
  - destruct ((e_position e <? zlen data * 8) && wants_more size output) eqn:E; [congruence|].
    intros _. destruct k; cbn [expand_loop]; rewrite E; reflexivity.
  - destruct ((e_position e <? zlen data * 8) && wants_more size output); [|reflexivity].
    destruct (get_token data e) as [[c e1]|x]; cbn [bindr]; [|reflexivity].
    destruct (c <=? 255); [apply IH|]. destruct (c =? 510); [reflexivity|].
    destruct (get_position data e1) as [[b e2]|x]; cbn [bindr]; [|reflexivity].
    destruct (copy_back (c - 253) (b + 1) output); cbn [bindr]; [apply IH|reflexivity].
Qed.
