(** The stored form reads back; back-references; canonical codes. *)
From Coq Require Import ZArith List Bool Lia.
From Verif Require Import PyBase BitLemmas PatternModel CompressModel CompressProofs.
Import ListNotations.
Open Scope Z_scope.

(** ** Back-references *)
Lemma py_get_pos {A} i (l : list A) : 0 <= i -> py_get i l = match nth_error l (Z.to_nat i) with Some a => Ok a | None => Err IndexError end.
Proof. intros H. unfold py_get. destruct (Z.leb_spec 0 i); [reflexivity|lia]. Qed.
Lemma copy_each_spec back n : forall out, 1 <= back <= zlen out ->
  exists out', copy_each n (zlen out - back) out = Ok out' /\ zlen out' = zlen out + Z.of_nat n /\
    firstn (length out) out' = out /\
    forall k, (length out <= k < length out')%nat -> nth_error out' k = nth_error out' (k - Z.to_nat back)%nat.
Proof.
  induction n as [|n IH]; intros out Hb; cbn [copy_each].
  - exists out. split; [reflexivity|]. split; [lia|]. split; [apply firstn_all|]. lia.
  - rewrite py_get_pos by (unfold zlen in *; lia).
    destruct (nth_error out (Z.to_nat (zlen out - back))) as [b|] eqn:E.
    2:{ apply nth_error_None in E. unfold zlen in *. lia. }
    cbn [bindr].
    assert (Z1 : zlen (out ++ [b]) = zlen out + 1) by (unfold zlen; rewrite app_length; cbn [length]; lia).
    destruct (IH (out ++ [b])) as (out' & C & L & F & N); [lia|].
    exists out'. replace (zlen out - back + 1) with (zlen (out ++ [b]) - back) by lia.
    split; [exact C|]. split; [lia|].
    assert (F1 : firstn (length out) out' = out).
    { transitivity (firstn (length out) (firstn (length (out ++ [b])) out')).
      - rewrite firstn_firstn. f_equal. rewrite app_length. lia.
      - rewrite F, firstn_app, firstn_all, Nat.sub_diag. cbn [firstn]. apply app_nil_r. }
    split; [exact F1|]. intros k Hk. destruct (Nat.eq_dec k (length out)) as [->|Hne].
    + assert (G : forall j, (j < length (out ++ [b]))%nat -> nth_error out' j = nth_error (out ++ [b]) j).
      { intros j Hj. rewrite <- F. rewrite <- (firstn_skipn (length (out ++ [b])) out') at 1. rewrite nth_error_app1; [reflexivity|rewrite F; exact Hj]. }
      rewrite !G by (rewrite app_length; cbn [length]; unfold zlen in *; lia).
      rewrite nth_error_app2, Nat.sub_diag by lia. rewrite nth_error_app1 by (unfold zlen in *; lia).
      cbn [nth_error]. rewrite <- E. f_equal. unfold zlen. lia.
    + apply N. rewrite app_length. cbn [length]. lia.
Qed.

Lemma nth_skipn {A} n : forall (l : list A) j, nth_error (skipn n l) j = nth_error l (n + j)%nat.
Proof. induction n as [|n IH]; intros [|a l] j; cbn [skipn Nat.add nth_error]; [reflexivity|reflexivity|destruct j; reflexivity|apply IH]. Qed.
Lemma copy_back_spec len back out : 0 <= len -> 1 <= back <= zlen out ->
  exists out', copy_back len back out = Ok out' /\ zlen out' = zlen out + len /\
    firstn (length out) out' = out /\
    forall k, (length out <= k < length out')%nat -> nth_error out' k = nth_error out' (k - Z.to_nat back)%nat.
Proof.
  intros Hl Hb. unfold copy_back. destruct (Z.ltb_spec len back).
  - eexists. split; [reflexivity|].
    assert (P : py_range (zlen out - back) (zlen out - back + len) out
      = firstn (Z.to_nat len) (skipn (Z.to_nat (zlen out - back)) out)).
    { unfold py_range, clamp. destruct (Z.ltb_spec (zlen out - back) 0); [lia|].
      destruct (Z.ltb_spec (zlen out - back + len) 0); [lia|]. rewrite !Z.min_r by lia. f_equal. lia. }
    rewrite P. set (c := firstn _ _).
    assert (Lc : length c = Z.to_nat len).
    { unfold c. rewrite firstn_length, skipn_length. unfold zlen in *. lia. }
    split; [unfold zlen in *; rewrite app_length; lia|].
    split; [rewrite firstn_app, firstn_all, Nat.sub_diag; cbn [firstn]; apply app_nil_r|].
    intros k Hk. rewrite app_length in Hk. rewrite nth_error_app2 by lia. rewrite nth_error_app1 by (unfold zlen in *; lia).
    unfold c. assert (Q : forall (a b : list Z) i, (i < length a)%nat -> nth_error (a ++ b) i = nth_error a i) by (intros; apply nth_error_app1; assumption).
    set (q := skipn (Z.to_nat (zlen out - back)) out).
    assert (Lq : length q = Z.to_nat back) by (unfold q; rewrite skipn_length; unfold zlen in *; lia).
    rewrite <- (Q _ (skipn (Z.to_nat len) q)) by (rewrite firstn_length; lia).
    rewrite firstn_skipn. unfold q. rewrite nth_skipn. f_equal. unfold zlen in *. lia.
  - destruct (copy_each_spec back (Z.to_nat len) out Hb) as (o & A & B & C & D). exists o.
    split; [exact A|]. split; [lia|]. split; assumption.
Qed.

(** ** Canonical codes *)
Fixpoint cost (P : Z -> bool) (k : Z) (ls : list Z) : Z :=
  match ls with [] => 0 | l :: r => (if P l then 2 ^ (k - l) else 0) + cost P k r end.
Lemma cost_nonneg P k ls : 0 <= cost P k ls.
Proof. induction ls as [|l r IH]; cbn [cost]; [lia|]. pose proof (Z.pow_nonneg 2 (k - l)). destruct (P l); lia. Qed.
Lemma cost_scale P k w ls : (forall l, P l = true -> l <= k) -> k <= w -> cost P w ls = cost P k ls * 2 ^ (w - k).
Proof.
  intros H Hw. induction ls as [|l r IH]; cbn [cost]; [reflexivity|]. rewrite IH. destruct (P l) eqn:E; [|lia].
  specialize (H l E). replace (w - l) with (k - l + (w - k)) by lia. rewrite Z.pow_add_r by lia. lia.
Qed.
Lemma pass_length b w ls : forall i, b <= w -> zlen (table_pass b (2 ^ (w - b)) i ls) = cost (Z.eqb b) w ls.
Proof.
  induction ls as [|l r IH]; intros i Hb; cbn [table_pass cost]; [reflexivity|].
  unfold zlen in *. rewrite app_length, Nat2Z.inj_add, IH by exact Hb. rewrite (Z.eqb_sym b l).
  destruct (Z.eqb_spec l b) as [->|_]; [|reflexivity]. rewrite repeat_length, Z2Nat.id by (apply Z.pow_nonneg; lia). reflexivity.
Qed.
Definition upto (m l : Z) : bool := (0 <? l) && (l <=? m).
Lemma cost_upto_step m w ls : 0 <= m -> cost (upto (m + 1)) w ls = cost (upto m) w ls + cost (Z.eqb (m + 1)) w ls.
Proof.
  intros Hm. induction ls as [|l r IH]; cbn [cost]; [reflexivity|]. rewrite IH. unfold upto.
  destruct (Z.ltb_spec 0 l), (Z.leb_spec l (m + 1)), (Z.leb_spec l m), (Z.eqb_spec (m + 1) l); cbn [andb]; lia.
Qed.
Lemma passes_length w ls : forall m, Z.of_nat m <= w ->
  zlen (flat_map (fun k => let b := Z.of_nat k in table_pass b (2 ^ (w - b)) 0 ls) (seq 1 m)) = cost (upto (Z.of_nat m)) w ls.
Proof.
  induction m as [|m IH]; intros Hm.
  - cbn [seq flat_map]. unfold zlen. cbn. induction ls as [|l r IHl]; cbn [cost]; [reflexivity|]. rewrite <- IHl.
    unfold upto. cbn [Z.of_nat]. destruct (Z.ltb_spec 0 l), (Z.leb_spec l 0); cbn [andb]; lia.
  - rewrite seq_S, flat_map_app. unfold zlen in *. rewrite app_length, Nat2Z.inj_add, IH by lia.
    cbn [flat_map]. rewrite app_nil_r. replace (Z.of_nat (S m)) with (Z.of_nat m + 1) by lia. rewrite cost_upto_step by lia.
    replace (Z.of_nat (1 + m)) with (Z.of_nat m + 1) by lia. cbn zeta.
    pose proof (pass_length (Z.of_nat m + 1) w ls 0 ltac:(lia)) as P. unfold zlen in P. rewrite P. reflexivity.
Qed.
Lemma fold_max_ge ls : forall m, m <= fold_left Z.max ls m /\ Forall (fun l => l <= fold_left Z.max ls m) ls.
Proof.
  induction ls as [|l r IH]; intros m; cbn [fold_left]; [split; [lia|constructor]|].
  destruct (IH (Z.max m l)) as [A B]. split; [lia|]. constructor; [lia|exact B].
Qed.
Lemma table_pass_app b size l1 l2 : forall i, table_pass b size i (l1 ++ l2) = table_pass b size i l1 ++ table_pass b size (i + zlen l1) l2.
Proof.
  induction l1 as [|l r IH]; intros i; cbn [app table_pass].
  - unfold zlen. cbn. rewrite Z.add_0_r. reflexivity.
  - rewrite IH, <- app_assoc. unfold zlen. cbn [length]. do 3 f_equal. lia.
Qed.

Lemma nth_block {A} (a b c : list A) (x : A) n i : b = repeat x n -> (length a <= i < length a + n)%nat ->
  nth_error (a ++ b ++ c) i = Some x.
Proof.
  intros -> H. rewrite nth_error_app2 by lia. rewrite nth_error_app1 by (rewrite repeat_length; lia).
  apply nth_error_repeat. lia.
Qed.

Lemma lookup_code d l1 L l2 v : let ls := l1 ++ L :: l2 in
  0 < L -> fold_left Z.max ls 0 <= 16 -> 0 <= v < 2 ^ 16 ->
  v / 2 ^ (16 - L) = cost (upto (L - 1)) L ls + cost (Z.eqb L) L l1 ->
  lookup (build_table d ls) v = Ok (zlen l1, L).
Proof.
  intros ls HL HW Hv Hc. set (w := fold_left Z.max ls 0) in *.
  assert (Lw : L <= w).
  { destruct (fold_max_ge ls 0) as [_ F]. rewrite Forall_forall in F. apply F. unfold ls. apply in_or_app. right. left. reflexivity. }
  unfold lookup. cbn [h_table build_table h_width h_lengths]. fold w.
  destruct (Z.ltb_spec (16 - w) 0); [lia|]. rewrite Z.shiftr_div_pow2 by lia.
  set (idx := v / 2 ^ (16 - w)).
  assert (Pw : 0 < 2 ^ (16 - w)) by (apply Z.pow_pos_nonneg; lia).
  assert (Pl : 0 < 2 ^ (w - L)) by (apply Z.pow_pos_nonneg; lia).
  assert (Hidx : idx / 2 ^ (w - L) = v / 2 ^ (16 - L)).
  { unfold idx. rewrite Z.div_div by lia. rewrite <- Z.pow_add_r by lia. do 2 f_equal. lia. }
  assert (Hi0 : 0 <= idx) by (apply Z.div_pos; lia).
  rewrite py_get_pos by exact Hi0.
  assert (E : nth_error (flat_map (fun k => let b := Z.of_nat k in table_pass b (2 ^ (w - b)) 0 ls) (seq 1 (Z.to_nat w)))
                (Z.to_nat idx) = Some (zlen l1)).
  { replace (Z.to_nat w) with (Z.to_nat (L - 1) + (1 + Z.to_nat (w - L)))%nat by lia.
    rewrite !seq_app. cbn [seq]. rewrite !flat_map_app. cbn [flat_map]. rewrite app_nil_r.
    replace (Z.of_nat (1 + Z.to_nat (L - 1))) with L by lia. cbn zeta.
    assert (Tp : table_pass L (2 ^ (w - L)) 0 ls = table_pass L (2 ^ (w - L)) 0 l1 ++ repeat (zlen l1) (Z.to_nat (2 ^ (w - L)))
      ++ table_pass L (2 ^ (w - L)) (zlen l1 + 1) l2).
    { unfold ls. rewrite table_pass_app. cbn [table_pass]. rewrite Z.eqb_refl, Z.add_0_l. reflexivity. }
    rewrite Tp.
    set (first := flat_map _ (seq 1 (Z.to_nat (L - 1)))). rewrite <- !app_assoc, app_assoc.
    apply nth_block with (n := Z.to_nat (2 ^ (w - L))); [reflexivity|].
    assert (L1 : zlen first = cost (upto (L - 1)) w ls).
    { unfold first. rewrite passes_length by lia. f_equal. f_equal. lia. }
    assert (L2 : zlen (table_pass L (2 ^ (w - L)) 0 l1) = cost (Z.eqb L) w l1) by (apply pass_length; exact Lw).
    assert (S1 : cost (upto (L - 1)) w ls = cost (upto (L - 1)) L ls * 2 ^ (w - L)).
    { apply cost_scale; [|exact Lw]. intros l. unfold upto. destruct (Z.leb_spec l (L - 1)); [lia|]. rewrite andb_false_r. discriminate. }
    assert (S2 : cost (Z.eqb L) w l1 = cost (Z.eqb L) L l1 * 2 ^ (w - L)).
    { apply cost_scale; [|exact Lw]. intros l Hl. apply Z.eqb_eq in Hl. lia. }
    rewrite app_length. unfold zlen in L1, L2.
    assert (B : (cost (upto (L - 1)) L ls + cost (Z.eqb L) L l1) * 2 ^ (w - L) <= idx
      < (cost (upto (L - 1)) L ls + cost (Z.eqb L) L l1) * 2 ^ (w - L) + 2 ^ (w - L)).
    { rewrite <- Hc, <- Hidx. pose proof (Z.div_mod idx (2 ^ (w - L)) ltac:(lia)). pose proof (Z.mod_pos_bound idx (2 ^ (w - L)) Pl). lia. }
    pose proof (cost_nonneg (upto (L - 1)) w ls). pose proof (cost_nonneg (Z.eqb L) w l1). lia. }
  cbn zeta in E. rewrite E. cbn [bindr]. rewrite py_get_pos by (unfold zlen; lia). unfold zlen. rewrite Nat2Z.id.
  unfold ls. rewrite nth_error_app2, Nat.sub_diag by lia. reflexivity.
Qed.

(** ** The stored form *)
Lemma get_16 data k : 0 <= k ->
  get_bits data (8 * k) 16 =
  match nth_error data (Z.to_nat k) with Some b => b mod 256 | None => 0 end * 256
  + match nth_error data (Z.to_nat (k + 1)) with Some b => b mod 256 | None => 0 end.
Proof.
  intros Hk. unfold get_bits.
  replace (Z.quot (8 * k) 8) with k by (rewrite Z.mul_comm, Z.quot_mul by lia; reflexivity).
  replace (Z.quot (8 * k + 16 - 1) 8) with (k + 1) by (rewrite Z.quot_div_nonneg by lia; lia).
  replace (Z.to_nat (k + 1 + 1 - k)) with 2%nat by lia.
  replace ((8 - (8 * k + 16 - 1 + 1) mod 8) mod 8) with 0 by lia.
  cbn [gather]. rewrite Z.shiftl_0_l, Z.shiftr_0_r.
  change (Z.shiftl 1 16 - 1) with 0xFFFF. rewrite land_ffff.
  set (a := nth_error data (Z.to_nat k)). set (b := nth_error data (Z.to_nat (k + 1))).
  assert (L : forall u v, 0 <= u < 256 -> 0 <= v < 256 -> Z.lor (Z.shiftl u 8) v = u * 256 + v).
  { intros u v Hu Hv. rewrite Z.lor_comm, lor_shiftl_add by (change (2 ^ 8) with 256; lia). change (2 ^ 8) with 256. lia. }
  destruct a as [a|], b as [b|]; rewrite ?land_ff, ?Z.lor_0_l, ?Z.shiftl_0_l.
  - rewrite L by (apply Z.mod_pos_bound; lia). lia.
  - rewrite Z.shiftl_mul_pow2 by lia. lia.
  - lia.
  - reflexivity.
Qed.

Lemma code_lengths_constant data v n : 2 < v -> forall done p,
  code_lengths data (constant_huffman v) n (zlen done) (done ++ repeat 0 n) p = Ok (done ++ repeat (v - 2) n, p).
Proof.
  intros Hv. induction n as [|n IH]; intros done p; cbn [code_lengths repeat].
  - rewrite app_nil_r. destruct (Z.ltb_spec (zlen done) (zlen done)); [lia|]. reflexivity.
  - destruct (Z.ltb_spec (zlen done) (zlen (done ++ 0 :: repeat 0 n))) as [_|K].
    2:{ unfold zlen in K. rewrite app_length in K. cbn [length] in K. lia. }
    unfold lookup. cbn [constant_huffman h_table h_default bindr].
    destruct (Z.eqb_spec v 0); [lia|]. destruct (Z.eqb_spec v 1); [lia|]. destruct (Z.eqb_spec v 2); [lia|].
    unfold py_set. destruct (Z.leb_spec 0 (zlen done)); [|unfold zlen in *; lia].
    destruct (Z.ltb_spec (zlen done) (zlen (done ++ 0 :: repeat 0 n))) as [_|K].
    2:{ unfold zlen in K. rewrite app_length in K. cbn [length] in K. lia. }
    cbn [andb bindr]. unfold zlen at 2 3. rewrite Nat2Z.id, firstn_app, firstn_all, Nat.sub_diag. cbn [firstn]. rewrite app_nil_r.
    rewrite skipn_app. rewrite skipn_all2 by lia. replace (length done + 1 - length done)%nat with 1%nat by lia. cbn [skipn app].
    rewrite Z.add_0_r. specialize (IH (done ++ [v - 2]) p).
    assert (Z1 : zlen (done ++ [v - 2]) = zlen done + 1) by (unfold zlen; rewrite app_length; cbn [length]; lia).
    rewrite Z1, <- !app_assoc in IH. exact IH.
Qed.

Definition plain_table : huffman := build_table 0 (repeat 8 256).
Lemma plain_entries : h_table plain_table = Some (map Z.of_nat (seq 0 256)).
Proof. vm_compute. reflexivity. Qed.
Lemma plain_lookup u v : 0 <= u < 256 -> 0 <= v < 256 -> lookup plain_table (u * 256 + v) = Ok (u, 8).
Proof.
  intros Hu Hv. unfold lookup. rewrite plain_entries. change (h_width plain_table) with 8.
  change (16 - 8 <? 0) with false. cbn iota. change (16 - 8) with 8. rewrite Z.shiftr_div_pow2 by lia. change (2 ^ 8) with 256.
  replace ((u * 256 + v) / 256) with u by lia. rewrite py_get_pos by lia.
  rewrite nth_error_map, nth_error_nth' with (d := 0%nat) by (rewrite seq_length; lia).
  rewrite seq_nth by lia. cbn [option_map bindr]. rewrite Nat.add_0_l, Z2Nat.id by lia.
  rewrite py_get_pos by lia. change (h_lengths plain_table) with (repeat 8 256).
  rewrite nth_error_repeat by lia. reflexivity.
Qed.
Definition one_distance : huffman := build_table 0 [11].

Lemma stored_block a b data : load_block (a :: b :: 0x02 :: 0xA0 :: 0x01 :: 0xFE :: data) 0
  = Ok (mkE 48 (a mod 256 * 256 + b mod 256) plain_table one_distance).
Proof.
  set (inp := a :: b :: 0x02 :: 0xA0 :: 0x01 :: 0xFE :: data). unfold load_block, pop.
  pose proof (get_16 inp 0 ltac:(lia)) as E0. change (8 * 0) with 0 in E0. rewrite E0.
  change (nth_error inp (Z.to_nat 0)) with (Some a). change (nth_error inp (Z.to_nat (0 + 1))) with (Some b).
  unfold load_character_length_huffman, pop.
  assert (E1 : get_bits inp (0 + 16) 5 = 0) by reflexivity. rewrite E1.
  assert (E2 : get_bits inp (0 + 16 + 5) 5 = 10) by reflexivity. rewrite E2. cbn [Z.eqb bindr].
  unfold load_character_huffman, pop.
  assert (E3 : get_bits inp (0 + 16 + 5 + 5) 9 = 256) by reflexivity. rewrite E3. cbn [Z.eqb].
  pose proof (code_lengths_constant inp 10 (Z.to_nat 256) ltac:(lia) [] (0 + 16 + 5 + 5 + 9)) as C. cbn [app] in C.
  change (zlen (@nil Z)) with 0 in C. rewrite C. cbn [bindr].
  unfold load_distance_huffman, pop.
  assert (E4 : get_bits inp (0 + 16 + 5 + 5 + 9) 5 = 1) by reflexivity. rewrite E4. cbn [Z.eqb].
  assert (E5 : distance_lengths inp (Z.to_nat 1) (0 + 16 + 5 + 5 + 9 + 5) = ([11], 48)) by reflexivity.
  rewrite E5. reflexivity.
Qed.

(** What is left of [l] under a size limit. *)
Definition limited (size : option Z) (l : list Z) : list Z :=
  match size with None => l | Some n => firstn (Z.to_nat (n + 1)) l end.
Lemma stored_loop head size elements rest : length head = 6%nat -> Forall byte_ok rest -> forall out fuel,
  zlen out + zlen rest <= elements -> (length rest <= fuel)%nat ->
  Forall byte_ok out ->
  expand_loop (head ++ out ++ rest) size fuel (mkE (48 + 8 * zlen out) (elements - zlen out) plain_table one_distance) out
  = Ok (match size with None => out ++ rest | Some n => firstn (Z.to_nat (Z.max (zlen out) (n + 1))) (out ++ rest) end).
Proof.
  intros Hh. induction rest as [|b rest IH]; intros Hr out fuel He Hf Ho.
  - rewrite !app_nil_r.
    assert (P : (48 + 8 * zlen out <? zlen (head ++ out) * 8) = false).
    { apply Z.ltb_ge. unfold zlen. rewrite app_length, Hh. lia. }
    destruct fuel; cbn [expand_loop e_position]; rewrite P; cbn [andb];
      (destruct size as [n|]; [rewrite firstn_all2 by (unfold zlen; lia)|]; reflexivity).
  - inversion Hr as [|? ? Hb Hr']; subst. destruct fuel as [|fuel]; [cbn [length] in Hf; lia|].
    cbn [expand_loop e_position].
    destruct (Z.ltb_spec (48 + 8 * zlen out) (zlen (head ++ out ++ b :: rest) * 8)) as [_|K].
    2:{ unfold zlen in K. rewrite !app_length, Hh in K. cbn [length] in K. lia. }
    cbn [andb]. destruct (wants_more size out) eqn:W.
    + unfold get_token. cbn [e_elements e_position e_character e_distance].
      destruct (Z.leb_spec (elements - zlen out) 0) as [K|_]; [unfold zlen in *; cbn [length] in He; lia|].
      cbn [bindr e_elements e_position e_character e_distance].
      replace (48 + 8 * zlen out) with (8 * (6 + zlen out)) by lia.
      rewrite get_16 by (unfold zlen; lia).
      assert (N : nth_error (head ++ out ++ b :: rest) (Z.to_nat (6 + zlen out)) = Some b).
      { rewrite app_assoc. replace (Z.to_nat (6 + zlen out)) with (length (head ++ out)) by (rewrite app_length; unfold zlen; lia).
        rewrite nth_error_app2, Nat.sub_diag by lia. reflexivity. }
      rewrite N. unfold byte_ok in Hb. rewrite (Z.mod_small b) by exact Hb.
      rewrite plain_lookup; [|exact Hb|destruct (nth_error _ (Z.to_nat (6 + zlen out + 1))); [apply Z.mod_pos_bound; lia|lia]].
      cbn [bindr e_elements e_position e_character e_distance]. destruct (Z.leb_spec b 255); [|lia].
      specialize (IH Hr' (out ++ [b]) fuel).
      assert (Z1 : zlen (out ++ [b]) = zlen out + 1) by (unfold zlen; rewrite app_length; cbn [length]; lia).
      rewrite Z1 in IH. rewrite <- !app_assoc in IH. cbn [app] in IH.
      replace (8 * (6 + zlen out) + 8) with (48 + 8 * (zlen out + 1)) by lia.
      replace (elements - zlen out - 1) with (elements - (zlen out + 1)) by lia.
      rewrite IH.
      * destruct size as [n|]; [|reflexivity]. cbn [wants_more] in W. apply Z.leb_le in W. do 2 f_equal. lia.
      * unfold zlen in *. cbn [length] in He. lia.
      * cbn [length] in Hf. lia.
      * apply Forall_app. split; [exact Ho|]. constructor; [exact Hb|constructor].
    + destruct size as [n|]; [|discriminate]. cbn [wants_more] in W. apply Z.leb_gt in W. f_equal.
      rewrite Z.max_l by lia. unfold zlen. rewrite Nat2Z.id, firstn_app, firstn_all, Nat.sub_diag. cbn [firstn]. rewrite app_nil_r. reflexivity.
Qed.

(** The number of elements the stored header announces: the two size bytes swapped. *)
Definition announced (n : Z) : Z := n mod 256 * 256 + n / 256 mod 256.
Lemma stored_round_trip data size fuel : Forall byte_ok data -> data <> [] -> zlen data <= announced (zlen data) ->
  (length data <= fuel)%nat -> expand fuel (compress data) size = Ok (limited size data).
Proof.
  intros Hd Hne Ha Hf. unfold expand, compress. cbn [app]. rewrite Z.shiftr_0_r, !land_ff, Z.shiftr_div_pow2 by lia.
  change (2 ^ 8) with 256. set (a := zlen data mod 256). set (b := (zlen data / 256) mod 256).
  set (head := [a; b; 0x02; 0xA0; 0x01; 0xFE]).
  change (a :: b :: 0x02 :: 0xA0 :: 0x01 :: 0xFE :: data) with (head ++ [] ++ data).
  assert (Em : a mod 256 * 256 + b mod 256 = announced (zlen data)).
  { unfold announced. fold a b. unfold a, b. rewrite !Z.mod_mod by lia. reflexivity. }
  pose proof (stored_loop head size (announced (zlen data)) data eq_refl Hd [] fuel) as S.
  change (zlen (@nil Z)) with 0 in S. cbn [app] in S |- *.
  assert (L : 0 < zlen data) by (destruct data; [congruence|unfold zlen; cbn [length]; lia]).
  specialize (S ltac:(lia) Hf ltac:(constructor)).
  assert (R : match size with None => data | Some n => firstn (Z.to_nat (Z.max 0 (n + 1))) data end = limited size data).
  { unfold limited. destruct size as [n|]; [|reflexivity]. f_equal. lia. }
  rewrite R in S. rewrite <- S. clear S R.
  destruct fuel as [|fuel]; [destruct data; [congruence|cbn [length] in Hf; lia]|].
  cbn [expand_loop e_position].
  assert (T : zlen (head ++ data) = 6 + zlen data) by (unfold zlen; rewrite app_length; cbn [head length]; lia).
  rewrite T. destruct (Z.ltb_spec 0 ((6 + zlen data) * 8)); [|lia]. destruct (Z.ltb_spec (48 + 8 * 0) ((6 + zlen data) * 8)); [|lia].
  destruct (wants_more size []); [|reflexivity]. cbn [andb].
  assert (G : get_token (head ++ data) (mkE 0 (-1) (constant_huffman 0) (constant_huffman 0))
    = get_token (head ++ data) (mkE (48 + 8 * 0) (announced (zlen data) - 0) plain_table one_distance)).
  { unfold get_token. cbn [e_elements e_position]. change (-1 <=? 0) with true. cbn iota.
    change (head ++ data) with (a :: b :: 0x02 :: 0xA0 :: 0x01 :: 0xFE :: data) at 1. rewrite stored_block, Em.
    destruct (Z.leb_spec (announced (zlen data) - 0) 0); [lia|]. rewrite Z.sub_0_r. reflexivity. }
  rewrite G. reflexivity.
Qed.
