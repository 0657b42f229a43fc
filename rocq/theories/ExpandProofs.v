(** Reading the grammar of ExpandSpec.v with the expander of CompressModel.v. *)
From Coq Require Import ZArith List Bool Lia Arith.
From Verif Require Import PyBase BitLemmas PatternModel CompressModel CompressProofs CompressRoundProofs PropertiesCompress ExpandSpec.
Import ListNotations.
Open Scope Z_scope.

(** ** Bits *)
(** The number in the first [n] bits of [l], zeros after its end. *)
Fixpoint val (n : nat) (l : bits) : Z :=
  match n with O => 0 | S n => Z.b2z (hd false l) * 2 ^ Z.of_nat n + val n (tl l) end.
Lemma tl_skipn {A} n : forall l : list A, tl (skipn n l) = skipn n (tl l).
Proof. induction n as [|n IH]; intros [|a l]; try reflexivity. cbn [tl]. destruct l as [|b l]; [rewrite skipn_nil; cbn; rewrite skipn_nil; reflexivity|]. change (tl (skipn n (b :: l)) = skipn n (tl (b :: l))). apply IH. Qed.
Lemma skip_more {A} a b : forall l : list A, skipn b (skipn a l) = skipn (a + b) l.
Proof. induction a as [|a IH]; intros [|x l]; try reflexivity; [rewrite !skipn_nil; reflexivity|]. apply IH. Qed.
Lemma val_bound n : forall l, 0 <= val n l < 2 ^ Z.of_nat n.
Proof.
  induction n as [|n IH]; intros l; [cbn; lia|]. cbn [val]. specialize (IH (tl l)). rewrite Nat2Z.inj_succ, Z.pow_succ_r by lia.
  pose proof (Z.pow_pos_nonneg 2 (Z.of_nat n) ltac:(lia) ltac:(lia)). destruct (hd false l); cbn [Z.b2z]; lia.
Qed.
Lemma val_add a b : forall l, val (a + b) l = val a l * 2 ^ Z.of_nat b + val b (skipn a l).
Proof.
  induction a as [|a IH]; intros l; [cbn [Nat.add val skipn]; lia|]. cbn [Nat.add val]. rewrite IH.
  replace (skipn (S a) l) with (skipn a (tl l)) by (destruct l; [rewrite !skipn_nil|]; reflexivity).
  rewrite Nat2Z.inj_add, Z.pow_add_r by lia. lia.
Qed.
Lemma val_bits n v : forall r, val n (bits_of n v ++ r) = v mod 2 ^ Z.of_nat n.
Proof.
  induction n as [|n IH]; intros r; [cbn; rewrite Z.mod_1_r; reflexivity|]. cbn [val bits_of app hd tl]. rewrite IH.
  rewrite Z.testbit_spec' by lia. rewrite Nat2Z.inj_succ, Z.pow_succ_r by lia.
  set (m := 2 ^ Z.of_nat n). assert (0 < m) by (unfold m; apply Z.pow_pos_nonneg; lia).
  rewrite (Z.mul_comm 2 m), Z.rem_mul_r by lia. lia.
Qed.
Lemma bits_length n v : length (bits_of n v) = n.
Proof. induction n as [|n IH]; [reflexivity|]. cbn [bits_of length]. rewrite IH. reflexivity. Qed.
Lemma data_skip data : forall k, skipn (8 * k) (data_bits data) = data_bits (skipn k data).
Proof.
  induction data as [|b data IH]; intros k; [cbn; rewrite !skipn_nil; reflexivity|]. destruct k as [|k]; [reflexivity|].
  cbn [data_bits flat_map]. fold (data_bits data). replace (8 * S k)%nat with (8 + 8 * k)%nat by lia.
  rewrite skipn_app, bits_length. replace (8 + 8 * k - 8)%nat with (8 * k)%nat by lia. rewrite skipn_all2 by (rewrite bits_length; lia). apply IH.
Qed.
Lemma data_length data : length (data_bits data) = (8 * length data)%nat.
Proof. induction data as [|b data IH]; [reflexivity|]. cbn [data_bits flat_map]. rewrite app_length, bits_length. fold (data_bits data). rewrite IH. cbn [length]. lia. Qed.
Lemma gather_val data n : forall i v, 0 <= i -> 0 <= v ->
  gather data i n v = v * 2 ^ Z.of_nat (8 * n) + val (8 * n) (skipn (8 * Z.to_nat i) (data_bits data)).
Proof.
  induction n as [|n IH]; intros i v Hi Hv; [cbn; lia|]. cbn [gather].
  assert (N : forall b, 0 <= b < 256 -> Z.lor (Z.shiftl v 8) b = v * 256 + b).
  { intros b Hb. rewrite Z.lor_comm, lor_shiftl_add by (change (2 ^ 8) with 256; lia). change (2 ^ 8) with 256. lia. }
  replace (8 * S n)%nat with (8 + 8 * n)%nat by lia. rewrite val_add, data_skip.
  assert (W : val 8 (data_bits (skipn (Z.to_nat i) data)) = match nth_error data (Z.to_nat i) with Some b => b mod 256 | None => 0 end).
  { rewrite <- (Nat.add_0_r (Z.to_nat i)) at 2. rewrite <- nth_skipn. destruct (skipn (Z.to_nat i) data) as [|b r]; [reflexivity|].
    cbn [nth_error data_bits flat_map]. apply (val_bits 8). }
  rewrite W. change (8 + 8 * n)%nat with (8 + (8 * n))%nat. rewrite (Nat2Z.inj_add 8), Z.pow_add_r by lia. change (2 ^ Z.of_nat 8) with 256.
  assert (T : skipn 8 (data_bits (skipn (Z.to_nat i) data)) = skipn (8 * Z.to_nat (i + 1)) (data_bits data)).
  { change 8%nat with (8 * 1)%nat at 1. rewrite !data_skip. f_equal. rewrite Z2Nat.inj_add by lia. change (Z.to_nat 1) with 1%nat.
    generalize (Z.to_nat i). clear. intros k. rewrite Nat.add_1_r. revert data. induction k as [|k IH]; intros [|b data]; try reflexivity. apply IH. }
  destruct (nth_error data (Z.to_nat i)) as [b|].
  - rewrite land_ff, N by (apply Z.mod_pos_bound; lia). rewrite IH by (try lia; pose proof (Z.mod_pos_bound b 256); lia). rewrite T. lia.
  - rewrite Z.shiftl_mul_pow2 by lia. change (2 ^ 8) with 256. rewrite IH by lia. rewrite T. lia.
Qed.
Lemma get_bits_val data p n : 0 <= p -> get_bits data p (Z.of_nat n) = val n (skipn (Z.to_nat p) (data_bits data)).
Proof.
  intros Hp. destruct n as [|n0]; [unfold get_bits; change (Z.shiftl 1 (Z.of_nat 0) - 1) with 0; rewrite Z.land_0_r; reflexivity|].
  set (n := S n0). unfold get_bits. rewrite !Z.quot_div_nonneg by lia. rewrite gather_val by lia. rewrite Z.mul_0_l, Z.add_0_l.
  set (m := Z.to_nat ((p + Z.of_nat n - 1) / 8 + 1 - p / 8)). set (u := (8 - (p + Z.of_nat n - 1 + 1) mod 8) mod 8).
  assert (E : (8 * m = Z.to_nat (p mod 8) + (n + Z.to_nat u))%nat) by (subst m u n; lia).
  rewrite E, val_add, val_add.
  replace (Z.shiftl 1 (Z.of_nat n) - 1) with (Z.ones (Z.of_nat n)) by (unfold Z.ones; lia).
  rewrite Z.land_ones, Z.shiftr_div_pow2 by (subst u; lia).
  set (l := skipn (8 * Z.to_nat (p / 8)) (data_bits data)).
  assert (Sk : skipn (Z.to_nat p) (data_bits data) = skipn (Z.to_nat (p mod 8)) l).
  { unfold l. replace (Z.to_nat p) with (8 * Z.to_nat (p / 8) + Z.to_nat (p mod 8))%nat by lia. rewrite <- skip_more. reflexivity. }
  rewrite Sk. set (a := val (Z.to_nat (p mod 8)) l). set (r := skipn (Z.to_nat (p mod 8)) l).
  pose proof (val_bound n r) as B1. pose proof (val_bound (Z.to_nat u) (skipn n r)) as B2.
  rewrite Nat2Z.inj_add, Z.pow_add_r by lia. rewrite (Z2Nat.id u) in * by (subst u; lia).
  set (x := val n r) in *. set (y := val (Z.to_nat u) (skipn n r)) in *.
  assert (P2 : 0 < 2 ^ u) by (apply Z.pow_pos_nonneg; subst u; lia).
  replace (a * (2 ^ Z.of_nat n * 2 ^ u) + (x * 2 ^ u + y)) with ((a * 2 ^ Z.of_nat n + x) * 2 ^ u + y) by ring.
  rewrite Z.div_add_l, (Z.div_small y) by lia. rewrite Z.add_0_r, Z.add_comm, Z.mod_add by lia. apply Z.mod_small, B1.
Qed.

(** From bit [p] on the data are [l]. *)
Definition reads (data : list Z) (p : Z) (l : bits) : Prop := 0 <= p /\ skipn (Z.to_nat p) (data_bits data) = l.
Lemma reads_on data p a l : reads data p (a ++ l) -> reads data (p + zlen a) l.
Proof.
  intros [H E]. unfold zlen. split; [lia|]. replace (Z.to_nat (p + Z.of_nat (length a))) with (Z.to_nat p + length a)%nat by lia.
  rewrite <- skip_more, E, skipn_app, skipn_all, Nat.sub_diag. reflexivity.
Qed.
Lemma reads_left data p l : reads data p l -> l <> [] -> p < zlen data * 8.
Proof.
  intros [H E] N. destruct (Z.lt_ge_cases p (zlen data * 8)) as [K|K]; [exact K|]. exfalso. apply N. rewrite <- E. apply skipn_all2.
  rewrite data_length. unfold zlen in K. lia.
Qed.
Lemma reads_end data p : reads data p [] -> zlen data * 8 <= p.
Proof.
  intros [H E]. destruct (Z.lt_ge_cases p (zlen data * 8)) as [K|K]; [|exact K]. exfalso.
  apply (f_equal (@length bool)) in E. rewrite skipn_length, data_length in E. cbn [length] in E. unfold zlen in K. lia.
Qed.
Lemma pop_bits data n p v l : 0 <= v < 2 ^ Z.of_nat n -> reads data p (bits_of n v ++ l) ->
  pop data (Z.of_nat n) p = (v, p + Z.of_nat n) /\ reads data (p + Z.of_nat n) l.
Proof.
  intros Hv R. split.
  - unfold pop. destruct R as [H E]. rewrite get_bits_val, E, val_bits, Z.mod_small by assumption. reflexivity.
  - apply reads_on in R. unfold zlen in R. rewrite bits_length in R. exact R.
Qed.

(** ** Codes *)
Definition table (default : Z) (c : coder) : huffman :=
  match c with Constant v => constant_huffman v | Canonical ls => build_table default ls end.
Lemma code_nonneg ls s : 0 <= canonical_code ls s.
Proof.
  unfold canonical_code. induction (seq 0 (length ls)) as [|t r IH]; cbn [map fold_right]; [lia|].
  assert (0 <= 2 ^ (nth s ls 0 - nth t ls 0)) by (apply Z.pow_nonneg; lia). destruct (comes_before ls t s); lia.
Qed.
Lemma lookup_coded data p d c s b l : coded c s b -> reads data p (b ++ l) ->
  lookup (table d c) (get_bits data p 16) = Ok (s, zlen b) /\ reads data (p + zlen b) l.
Proof.
  intros C R. split; [|apply reads_on; exact R]. destruct C as [v|ls s L E HL F K]; [reflexivity|].
  assert (En : nth s ls 0 = L) by (apply nth_error_nth; exact E).
  assert (L16 : L <= 16) by (rewrite Forall_forall in F; apply (F L), (nth_error_In _ _ E)).
  unfold zlen. rewrite bits_length, Z2Nat.id by lia. cbn [table]. rewrite <- En.
  destruct R as [H R]. change 16 with (Z.of_nat 16) at 1. rewrite get_bits_val, R by exact H.
  apply C70_canonical_codes.
  - apply nth_error_Some. congruence.
  - lia.
  - eapply Forall_impl; [|exact F]. cbv beta. lia.
  - apply (val_bound 16).
  - rewrite En. replace 16%nat with (Z.to_nat L + (16 - Z.to_nat L))%nat by lia. rewrite val_add, val_bits.
    rewrite Z2Nat.id by lia. replace (Z.of_nat (16 - Z.to_nat L)) with (16 - L) by lia.
    rewrite Z.div_add_l by (apply Z.pow_nonzero; lia). rewrite Z.div_small.
    + rewrite Z.add_0_r. apply Z.mod_small. split; [apply code_nonneg|exact K].
    + pose proof (val_bound (16 - Z.to_nat L) (skipn (Z.to_nat L) (bits_of (Z.to_nat L) (canonical_code ls s) ++ l))) as B.
      replace (Z.of_nat (16 - Z.to_nat L)) with (16 - L) in B by lia. exact B.
Qed.
Lemma more_ones_read data : forall k n m p l, (k < n)%nat -> reads data p (repeat true k ++ false :: l) ->
  more_ones data n m p = (m + Z.of_nat k, p + Z.of_nat k + 1) /\ reads data (p + Z.of_nat k + 1) l.
Proof.
  induction k as [|k IH]; intros n m p l Hk R; destruct n as [|n]; try lia; cbn [more_ones].
  - cbn [repeat app] in R. destruct (pop_bits data 1 p 0 l ltac:(cbn; lia) R) as [E R']. change (Z.of_nat 1) with 1 in *. rewrite E.
    change (0 =? 1) with false. cbv iota. change (Z.of_nat 0) with 0. rewrite !Z.add_0_r. auto.
  - cbn [repeat app] in R. destruct (pop_bits data 1 p 1 _ ltac:(cbn; lia) R) as [E R']. change (Z.of_nat 1) with 1 in *. rewrite E.
    change (1 =? 1) with true. cbv iota. destruct (IH n (m + 1) (p + 1) l ltac:(lia) R') as [E2 R2].
    replace (p + Z.of_nat (S k) + 1) with (p + 1 + Z.of_nat k + 1) by lia. rewrite E2. split; [f_equal; lia|exact R2].
Qed.
Lemma length_read data p m l : 0 <= m <= 16 -> reads data p (length_bits m ++ l) ->
  read_variable_length data p = (m, p + zlen (length_bits m)) /\ reads data (p + zlen (length_bits m)) l.
Proof.
  intros Hm R. split; [|apply reads_on; exact R]. unfold length_bits in *. destruct (Z.ltb_spec m 7) as [L|L].
  - destruct (pop_bits data 3 p m l ltac:(cbn; lia) R) as [E _]. change (Z.of_nat 3) with 3 in E. unfold read_variable_length. rewrite E.
    destruct (Z.eqb_spec m 7); [lia|]. cbn [negb]. unfold zlen. rewrite bits_length. reflexivity.
  - replace (Z.to_nat (m - 4)) with (3 + Z.to_nat (m - 7))%nat in * by lia. rewrite repeat_app, <- !app_assoc in R. cbn [app] in R.
    destruct (pop_bits data 3 p 7 _ ltac:(cbn; lia) R) as [E R']. change (Z.of_nat 3) with 3 in *. unfold read_variable_length. rewrite E.
    change (negb (7 =? 7)) with false. cbv iota.
    destruct (more_ones_read data (Z.to_nat (m - 7)) 13 7 (p + 3) l ltac:(lia) R') as [E2 _]. rewrite E2. unfold zlen.
    rewrite app_length, repeat_length. cbn [length]. f_equal; lia.
Qed.

(** ** The tables *)
Lemma zlen_app {A} (a b : list A) : zlen (a ++ b) = zlen a + zlen b.
Proof. unfold zlen. rewrite app_length. lia. Qed.
Lemma zlen_cons {A} (a : A) l : zlen (a :: l) = 1 + zlen l.
Proof. unfold zlen. cbn [length]. lia. Qed.
Lemma zlen_zeros k : zlen (repeat 0 k) = Z.of_nat k.
Proof. unfold zlen. rewrite repeat_length. reflexivity. Qed.
Lemma zlen_pos {A} (l : list A) : 0 <= zlen l.
Proof. unfold zlen. lia. Qed.
Lemma put_here (done : list Z) m a r : py_set (zlen done) m (done ++ a :: r) = Ok (done ++ m :: r).
Proof.
  unfold py_set. rewrite zlen_app, zlen_cons. pose proof (zlen_pos done). pose proof (zlen_pos r).
  destruct (Z.leb_spec 0 (zlen done)); [|lia]. destruct (Z.ltb_spec (zlen done) (zlen done + (1 + zlen r))); [|lia]. cbn [andb].
  unfold zlen. rewrite Nat2Z.id, firstn_app, firstn_all, Nat.sub_diag. cbn [firstn]. rewrite app_nil_r.
  rewrite skipn_app, skipn_all2 by lia. replace (length done + 1 - length done)%nat with 1%nat by lia. reflexivity.
Qed.
Lemma distances_read data ls : forall p l, Forall (fun l => 0 <= l <= 16) ls -> reads data p (flat_map length_bits ls ++ l) ->
  exists p', distance_lengths data (length ls) p = (ls, p') /\ reads data p' l.
Proof.
  induction ls as [|m ls IH]; intros p l F R; [exists p; auto|]. apply Forall_cons_iff in F as [Hm F]. cbn [flat_map] in R. rewrite <- app_assoc in R.
  destruct (length_read data p m _ Hm R) as [E R1]. destruct (IH _ _ F R1) as (p' & E2 & R2). exists p'. cbn [length distance_lengths]. rewrite E, E2. auto.
Qed.
Lemma distance_table_read data p c b l : distance_table c b -> reads data p (b ++ l) ->
  exists p', load_distance_huffman data p = (table 0 c, p') /\ reads data p' l.
Proof.
  intros [v Hv|ls Hl F] R; rewrite <- app_assoc in R; unfold load_distance_huffman.
  - destruct (pop_bits data 5 p 0 _ ltac:(cbn; lia) R) as [E R1]. change (Z.of_nat 5) with 5 in *. rewrite E. change (0 =? 0) with true. cbv iota.
    destruct (pop_bits data 5 (p + 5) v _ Hv R1) as [E2 R2]. change (Z.of_nat 5) with 5 in *. rewrite E2. eexists. split; [reflexivity|exact R2].
  - destruct (pop_bits data 5 p (Z.of_nat (length ls)) _ ltac:(change (Z.of_nat 5) with 5; lia) R) as [E R1]. change (Z.of_nat 5) with 5 in *. rewrite E.
    destruct (Z.eqb_spec (Z.of_nat (length ls)) 0); [lia|]. rewrite Nat2Z.id. destruct (distances_read data ls _ _ F R1) as (p' & E2 & R2). rewrite E2.
    exists p'. split; [reflexivity|exact R2].
Qed.

Lemma segment_read data ms : forall (done : list Z) k n p l,
  (forall j, zlen done <= j < zlen done + zlen ms -> j <> 3) -> Forall (fun l => 0 <= l <= 16) ms ->
  reads data p (flat_map length_bits ms ++ l) ->
  exists p', character_lengths data (length ms + n) (zlen done) (done ++ repeat 0 (length ms + k)) p
    = character_lengths data n (zlen (done ++ ms)) (done ++ ms ++ repeat 0 k) p' /\ reads data p' l.
Proof.
  induction ms as [|m ms IH]; intros done k n p l J F R.
  - exists p. cbn [app length Nat.add]. rewrite app_nil_r. auto.
  - apply Forall_cons_iff in F as [Hm F]. cbn [flat_map] in R. rewrite <- app_assoc in R.
    destruct (length_read data p m _ Hm R) as [E R1]. rewrite zlen_cons in J. pose proof (zlen_pos ms).
    destruct (IH (done ++ [m]) k n (p + zlen (length_bits m)) l) as (p' & E2 & R2).
    { intros j Hj. apply J. rewrite zlen_app in Hj. change (zlen [m]) with 1 in Hj. lia. }
    { exact F. } { exact R1. }
    exists p'. split; [|exact R2]. cbn [length Nat.add character_lengths repeat].
    destruct (Z.ltb_spec (zlen done) (zlen (done ++ 0 :: repeat 0 (length ms + k)))) as [_|K]; [|rewrite zlen_app, zlen_cons, zlen_zeros in K; lia].
    destruct (Z.eqb_spec (zlen done) 3) as [K|_]; [exfalso; apply (J (zlen done)); lia|]. rewrite Z.add_0_r, E, put_here. cbn [bindr].
    rewrite <- !app_assoc in E2. cbn [app] in E2. rewrite zlen_app in E2. change (zlen [m]) with 1 in E2. rewrite E2.
    rewrite !zlen_app, zlen_cons. reflexivity.
Qed.
Lemma lengths_done data n ls p : character_lengths data n (zlen ls) ls p = Ok (ls, p).
Proof. destruct n; cbn [character_lengths]; (destruct (Z.ltb_spec (zlen ls) (zlen ls)); [lia|reflexivity]). Qed.
Lemma length_table_read data p c b l : length_table c b -> reads data p (b ++ l) ->
  exists p', load_character_length_huffman data p = Ok (table 8 c, p') /\ reads data p' l.
Proof.
  intros T R. unfold load_character_length_huffman. destruct T as [v Hv|ls Hl F|first k rest H3 Hk Hr ls Hl F].
  - rewrite <- app_assoc in R. destruct (pop_bits data 5 p 0 _ ltac:(cbn; lia) R) as [E R1]. change (Z.of_nat 5) with 5 in *. rewrite E. change (0 =? 0) with true. cbv iota.
    destruct (pop_bits data 5 (p + 5) v _ Hv R1) as [E2 R2]. change (Z.of_nat 5) with 5 in *. rewrite E2. eexists. split; [reflexivity|exact R2].
  - rewrite <- app_assoc in R. destruct (pop_bits data 5 p (Z.of_nat (length ls)) _ ltac:(cbn; lia) R) as [E R1]. change (Z.of_nat 5) with 5 in *. rewrite E.
    destruct (Z.eqb_spec (Z.of_nat (length ls)) 0); [lia|]. rewrite Nat2Z.id.
    destruct (segment_read data ls [] 0 0 (p + 5) l) as (p' & E2 & R2).
    { intros j. unfold zlen. cbn [length]. lia. } { exact F. } { exact R1. }
    rewrite Nat.add_0_r in E2. cbn [app repeat] in E2. rewrite app_nil_r in E2. change (zlen (@nil Z)) with 0 in E2. rewrite E2, lengths_done. cbn [bindr].
    exists p'. split; [reflexivity|exact R2].
  - rewrite <- !app_assoc in R.
    destruct (pop_bits data 5 p (Z.of_nat (length ls)) _ ltac:(change (Z.of_nat 5) with 5; lia) R) as [E R1]. change (Z.of_nat 5) with 5 in *. rewrite E.
    assert (Ls : length ls = (3 + (k + length rest))%nat) by (unfold ls; rewrite !app_length, repeat_length; lia).
    destruct (Z.eqb_spec (Z.of_nat (length ls)) 0); [lia|]. rewrite Nat2Z.id.
    unfold ls in F. apply Forall_app in F as [F1 F]. apply Forall_app in F as [_ F2].
    destruct (segment_read data first [] (k + length rest) (k + length rest) (p + 5) (bits_of 2 (Z.of_nat k) ++ flat_map length_bits rest ++ l)) as (p1 & E2 & R2).
    { intros j. unfold zlen. rewrite H3. cbn [length]. lia. } { exact F1. } { exact R1. }
    rewrite H3, <- Ls in E2. cbn [app] in E2. change (zlen (@nil Z)) with 0 in E2. rewrite E2. clear E E2 R1.
    destruct rest as [|m rest]; [congruence|]. apply Forall_cons_iff in F2 as [Hm F2]. cbn [length].
    destruct (pop_bits data 2 p1 (Z.of_nat k) _ ltac:(change (2 ^ Z.of_nat 2) with 4; lia) R2) as [E R1]. change (Z.of_nat 2) with 2 in *.
    cbn [flat_map] in R1. rewrite <- app_assoc in R1. destruct (length_read data (p1 + 2) m _ Hm R1) as [E2 R3].
    replace (k + S (length rest))%nat with (S (length rest + k)) by lia. cbn [character_lengths].
    assert (Z3 : zlen first = 3) by (unfold zlen; rewrite H3; reflexivity).
    rewrite Z3. destruct (Z.ltb_spec 3 (zlen (first ++ repeat 0 (S (length rest + k))))) as [_|K]; [|rewrite zlen_app, zlen_zeros in K; lia].
    change (3 =? 3) with true. cbv iota. rewrite E, E2.
    assert (Rp : first ++ repeat 0 (S (length rest + k)) = (first ++ repeat 0 k) ++ 0 :: repeat 0 (length rest)).
    { rewrite <- app_assoc. f_equal. change (0 :: repeat 0 (length rest)) with (repeat 0 (S (length rest))). rewrite <- repeat_app. f_equal. lia. }
    rewrite Rp. replace (3 + Z.of_nat k) with (zlen (first ++ repeat 0 k)) by (rewrite zlen_app, zlen_zeros, Z3; lia).
    rewrite put_here. cbn [bindr].
    destruct (segment_read data rest ((first ++ repeat 0 k) ++ [m]) 0 k (p1 + 2 + zlen (length_bits m)) l) as (p2 & E4 & R4).
    { intros j. rewrite !zlen_app, zlen_zeros, Z3. change (zlen [m]) with 1. lia. } { exact F2. } { exact R3. }
    rewrite Nat.add_0_r in E4. cbn [repeat] in E4. rewrite app_nil_r in E4.
    replace (zlen (first ++ repeat 0 k) + 1) with (zlen ((first ++ repeat 0 k) ++ [m])) by (rewrite (zlen_app _ [m]); reflexivity).
    replace ((first ++ repeat 0 k) ++ m :: repeat 0 (length rest)) with (((first ++ repeat 0 k) ++ [m]) ++ repeat 0 (length rest)) by (rewrite <- (app_assoc _ [m]); reflexivity).
    rewrite E4, lengths_done. cbn [bindr]. exists p2. split; [|exact R4]. cbn [table]. unfold ls. do 3 f_equal. rewrite <- !app_assoc. reflexivity.
Qed.

Lemma item_at_least i : (1 <= length (item_lengths i))%nat \/ exists v, (i = Short v /\ v < -2) \/ (i = Long v /\ v < -19).
Proof.
  destruct i as [|v|v|v]; cbn [item_lengths length]; rewrite ?repeat_length; auto.
  - destruct (Z.lt_ge_cases v (-2)); [right; eauto|left; lia].
  - destruct (Z.lt_ge_cases v (-19)); [right; eauto 6|left; lia].
Qed.
Lemma items_read data c d items bs : Forall2 (item_bits c) items bs -> forall (done : list Z) n p l,
  let ls := flat_map item_lengths items in
  (length ls <= n)%nat -> reads data p (concat bs ++ l) ->
  exists p', code_lengths data (table d c) n (zlen done) (done ++ repeat 0 (length ls)) p = Ok (done ++ ls, p') /\ reads data p' l.
Proof.
  induction 1 as [|i b items bs Hb F IH]; intros done n p l ls Hn R.
  - exists p. subst ls. cbn [flat_map length repeat]. rewrite app_nil_r. split; [|exact R].
    destruct n; cbn [code_lengths]; (destruct (Z.ltb_spec (zlen done) (zlen done)); [lia|reflexivity]).
  - subst ls. cbn [flat_map concat] in *. rewrite app_length in *. rewrite <- app_assoc in R.
    set (more := flat_map item_lengths items) in *.
    assert (Here : forall k, (1 <= k)%nat -> (zlen done <? zlen (done ++ repeat 0 (k + length more))) = true).
    { intros k Hk. apply Z.ltb_lt. rewrite zlen_app, zlen_zeros. lia. }
    assert (Zeros : forall k n0 p0, (length more <= n0)%nat -> reads data p0 (concat bs ++ l) ->
      exists p', code_lengths data (table d c) n0 (zlen done + Z.of_nat k) (done ++ repeat 0 (k + length more)) p0 = Ok (done ++ repeat 0 k ++ more, p') /\ reads data p' l).
    { intros k n0 p0 H0 R0. destruct (IH (done ++ repeat 0 k) n0 p0 l H0 R0) as (p' & E & R'). exists p'. split; [|exact R'].
      rewrite zlen_app, zlen_zeros, <- !app_assoc, <- repeat_app in E. exact E. }
    destruct Hb as [b C|v b C Hv|v b C Hv|m b C Hm]; cbn [item_lengths] in *.
    + destruct n as [|n]; [cbn [length] in Hn; lia|]. cbn [length] in *. cbn [code_lengths]. rewrite (Here 1%nat) by lia.
      destruct (lookup_coded data p d c 0 b _ C R) as [E R1]. rewrite E. cbn [bindr]. change (0 =? 0) with true. cbv iota.
      apply (Zeros 1%nat n (p + zlen b)); [lia|exact R1].
    + rewrite repeat_length in *. destruct n as [|n]; [lia|]. cbn [code_lengths]. rewrite (Here (Z.to_nat (3 + v))) by lia. rewrite <- app_assoc in R.
      destruct (lookup_coded data p d c 1 b _ C R) as [E R1]. rewrite E. cbn [bindr]. change (1 =? 0) with false. change (1 =? 1) with true. cbv iota.
      destruct (pop_bits data 4 _ v _ Hv R1) as [E2 R2]. change (Z.of_nat 4) with 4 in *. rewrite E2.
      replace (zlen done + (3 + v)) with (zlen done + Z.of_nat (Z.to_nat (3 + v))) by lia. apply Zeros; [lia|exact R2].
    + rewrite repeat_length in *. destruct n as [|n]; [lia|]. cbn [code_lengths]. rewrite (Here (Z.to_nat (20 + v))) by lia. rewrite <- app_assoc in R.
      destruct (lookup_coded data p d c 2 b _ C R) as [E R1]. rewrite E. cbn [bindr]. change (2 =? 0) with false. change (2 =? 1) with false. change (2 =? 2) with true. cbv iota.
      destruct (pop_bits data 9 _ v _ Hv R1) as [E2 R2]. change (Z.of_nat 9) with 9 in *. rewrite E2.
      replace (zlen done + (20 + v)) with (zlen done + Z.of_nat (Z.to_nat (20 + v))) by lia. apply Zeros; [lia|exact R2].
    + destruct n as [|n]; [cbn [length] in Hn; lia|]. cbn [length] in *. cbn [code_lengths]. rewrite (Here 1%nat) by lia.
      destruct (lookup_coded data p d c (m + 2) b _ C R) as [E R1]. rewrite E. cbn [bindr].
      destruct (Z.eqb_spec (m + 2) 0); [lia|]. destruct (Z.eqb_spec (m + 2) 1); [lia|]. destruct (Z.eqb_spec (m + 2) 2); [lia|].
      replace (m + 2 - 2) with m by lia. cbn [Nat.add repeat]. rewrite put_here. cbn [bindr].
      destruct (IH (done ++ [m]) n (p + zlen b) l ltac:(lia) R1) as (p' & E2 & R2). exists p'. split; [|exact R2].
      rewrite zlen_app, <- !app_assoc in E2. change (zlen [m]) with 1 in E2. cbn [app] in E2. exact E2.
Qed.
Lemma character_table_read data p lc c b l : character_table lc c b -> reads data p (b ++ l) ->
  exists p', load_character_huffman data (table 8 lc) p = Ok (table 0 c, p') /\ reads data p' l.
Proof.
  intros T R. unfold load_character_huffman. destruct T as [v Hv|items bs F ls Hl]; rewrite <- app_assoc in R.
  - destruct (pop_bits data 9 p 0 _ ltac:(change (Z.of_nat 9) with 9; lia) R) as [E R1]. change (Z.of_nat 9) with 9 in *. rewrite E. change (0 =? 0) with true. cbv iota.
    destruct (pop_bits data 9 (p + 9) v _ Hv R1) as [E2 R2]. change (Z.of_nat 9) with 9 in *. rewrite E2. eexists. split; [reflexivity|exact R2].
  - destruct (pop_bits data 9 p (Z.of_nat (length ls)) _ ltac:(change (Z.of_nat 9) with 9; lia) R) as [E R1]. change (Z.of_nat 9) with 9 in *. rewrite E.
    destruct (Z.eqb_spec (Z.of_nat (length ls)) 0); [lia|]. rewrite Nat2Z.id.
    destruct (items_read data lc 8 items bs F [] (length ls) (p + 9) l (le_n _) R1) as (p' & E2 & R2).
    change (zlen (@nil Z)) with 0 in E2. cbn [app] in E2. fold ls in E2. rewrite E2. cbn [bindr]. exists p'. split; [reflexivity|exact R2].
Qed.
Lemma head_read data p n ch di b l : head n ch di b -> reads data p (b ++ l) ->
  exists p', load_block data p = Ok (mkE p' n (table 0 ch) (table 0 di)) /\ reads data p' l.
Proof.
  intros [lc ch' di' b1 b2 b3 Hn T1 T2 T3] R. rewrite <- !app_assoc in R. unfold load_block.
  destruct (pop_bits data 16 p n _ ltac:(change (Z.of_nat 16) with 16; lia) R) as [E R1]. change (Z.of_nat 16) with 16 in *. rewrite E.
  destruct (length_table_read data _ lc b1 _ T1 R1) as (p1 & -> & R2). cbn [bindr].
  destruct (character_table_read data p1 lc ch' b2 _ T2 R2) as (p2 & -> & R3). cbn [bindr].
  destruct (distance_table_read data p2 di' b3 _ T3 R3) as (p3 & -> & R4). exists p3. auto.
Qed.

(** ** Tokens *)
Lemma position_read data p n ch di d b l : distance_bits di d b -> reads data p (b ++ l) ->
  exists p', get_position data (mkE p n (table 0 ch) (table 0 di)) = Ok (d - 1, mkE p' n (table 0 ch) (table 0 di)) /\ reads data p' l.
Proof.
  intros D R. unfold get_position. cbn [e_position e_elements e_character e_distance]. destruct D as [b C|v low b C Hv Hl].
  - destruct (lookup_coded data p 0 di 0 b _ C R) as [E R1]. rewrite E. cbn [bindr]. change (0 =? 0) with true. cbv iota. eexists. split; [reflexivity|exact R1].
  - rewrite <- app_assoc in R. destruct (lookup_coded data p 0 di v b _ C R) as [E R1]. rewrite E. cbn [bindr]. destruct (Z.eqb_spec v 0); [lia|].
    destruct (pop_bits data (Z.to_nat (v - 1)) _ low _ ltac:(rewrite Z2Nat.id by lia; exact Hl) R1) as [E2 R2]. rewrite Z2Nat.id in * by lia. rewrite E2.
    eexists. split; [|exact R2]. rewrite Z.shiftl_mul_pow2, Z.mul_1_l by lia. do 2 f_equal. lia.
Qed.

(** The bytes of a copy are determined. *)
Lemma copy_same (out a b : list Z) d : (1 <= d <= length out)%nat -> length a = length b ->
  (forall k, (k < length a)%nat -> nth_error (out ++ a) (length out + k) = nth_error (out ++ a) (length out + k - d)) ->
  (forall k, (k < length b)%nat -> nth_error (out ++ b) (length out + k) = nth_error (out ++ b) (length out + k - d)) -> out ++ a = out ++ b.
Proof.
  intros Hd L A B.
  assert (G : forall n k, (k < n)%nat -> nth_error (out ++ a) k = nth_error (out ++ b) k).
  { induction n as [|n IH]; intros k Hk; [lia|]. destruct (Nat.lt_ge_cases k (length out)) as [K|K].
    - rewrite !nth_error_app1 by exact K. reflexivity.
    - destruct (Nat.lt_ge_cases (k - length out) (length a)) as [K2|K2].
      + replace k with (length out + (k - length out))%nat by lia. rewrite A, B by lia. apply IH. lia.
      + rewrite !(proj2 (nth_error_None _ _)); [reflexivity| |]; rewrite app_length; lia. }
  assert (X : forall (u v : list Z), (forall k, nth_error u k = nth_error v k) -> u = v).
  { clear. induction u as [|x u IH]; intros [|y v] H; [reflexivity|specialize (H 0%nat); discriminate|specialize (H 0%nat); discriminate|].
    pose proof (H 0%nat) as H0. cbn in H0. injection H0 as ->. f_equal. apply IH. intros k. exact (H (S k)). }
  apply X. intros k. apply (G (S k)). lia.
Qed.
Lemma means_longer out ts r : means out ts r -> (length out <= length r)%nat.
Proof. induction 1; rewrite ?app_length in *; cbn [length] in *; lia. Qed.

Lemma stream_read data size : forall n ch di ts l, stream n ch di ts l -> forall fuel e out r p,
  (e_position e = p) -> reads data p l -> (length ts < fuel)%nat ->
  (0 < n -> e = mkE p n (table 0 ch) (table 0 di)) -> (n <= 0 -> e_elements e <= 0) -> 0 <= n ->
  means out ts r -> match size with None => True | Some k => zlen r <= k end ->
  expand_loop data size fuel e out = Ok r.
Proof.
  assert (More : forall out ts r, means out ts r -> match size with None => True | Some k => zlen r <= k end -> wants_more size out = true).
  { intros out ts r M Hs. destruct size as [k|]; [|reflexivity]. cbn [wants_more]. apply Z.leb_le. apply means_longer in M. unfold zlen in *. lia. }
  induction 1 as [n ch di t ts b r0 Hn T Ne S IH|n ch di ch' di' ts b r0 Hh Ne S IH|n ch di b r0 Hn C Ne|n ch di];
    intros fuel e out r p Ep R Hf He H0 Hn0 M Hs.
  - rewrite (He Hn) in *. clear He H0. destruct fuel as [|fuel]; [lia|]. cbn [expand_loop e_position].
    destruct (Z.ltb_spec p (zlen data * 8)) as [_|K]; [|pose proof (reads_left _ _ _ R Ne); lia].
    rewrite (More _ _ _ M Hs). cbn [andb]. unfold get_token. cbn [e_elements e_position e_character e_distance].
    destruct (Z.leb_spec n 0); [lia|]. cbn [bindr e_elements e_position e_character e_distance].
    assert (Hf' : (length ts < fuel)%nat) by (cbn [length] in Hf; lia).
    destruct T as [v b C Hv|m d b1 b2 C Hm D].
    + destruct (lookup_coded data p 0 ch v b _ C R) as [E R1]. rewrite E. cbn [bindr].
      destruct (Z.leb_spec v 255); [|lia]. inversion M; subst. apply (IH fuel _ _ r (p + zlen b)); auto; cbn [e_elements]; lia.
    + rewrite <- app_assoc in R. destruct (lookup_coded data p 0 ch (m + 253) b1 _ C R) as [E R1]. rewrite E. cbn [bindr].
      destruct (Z.leb_spec (m + 253) 255); [lia|]. destruct (Z.eqb_spec (m + 253) 510); [lia|].
      destruct (position_read data _ (n - 1) ch di d b2 _ D R1) as (p' & E2 & R2). rewrite E2. cbn [bindr].
      inversion M as [| |? ? ? new ? ? Hd Ln Cp Mr]; subst.
      destruct (copy_back_spec (Z.of_nat (length new)) d out ltac:(lia) ltac:(unfold zlen; lia)) as (o & CB & Lo & Fo & No).
      replace (Z.of_nat (length new) + 253 - 253) with (Z.of_nat (length new)) by lia. replace (d - 1 + 1) with d by lia. rewrite CB. cbn [bindr].
      assert (Eo : o = out ++ new).
      { rewrite <- (firstn_skipn (length out) o), Fo. unfold zlen in *.
        assert (Ls : length (skipn (length out) o) = length new) by (rewrite skipn_length; lia).
        assert (Oo : o = out ++ skipn (length out) o) by (rewrite <- Fo at 1; symmetry; apply firstn_skipn).
        apply (copy_same out _ new (Z.to_nat d)); [lia|exact Ls| |exact Cp]. intros k Hk. rewrite <- Oo. apply No. lia. }
      rewrite Eo. apply (IH fuel _ _ r p'); auto; cbn [e_elements]; lia.
  - destruct (head_read data p n ch' di' b r0 Hh R) as (p' & E & R').
    assert (Hn1 : 0 < n) by (destruct Hh; lia).
    specialize (IH fuel (mkE p' n (table 0 ch') (table 0 di')) out r p' eq_refl R' Hf ltac:(auto) ltac:(lia) ltac:(lia) M Hs).
    rewrite <- IH. destruct fuel as [|fuel]; [lia|]. cbn [expand_loop]. rewrite Ep. cbn [e_position].
    assert (Nb : b ++ r0 <> []) by (intros Z0; apply app_eq_nil in Z0; tauto).
    destruct (Z.ltb_spec p (zlen data * 8)) as [_|K]; [|pose proof (reads_left _ _ _ R Nb); lia].
    destruct (Z.ltb_spec p' (zlen data * 8)) as [_|K]; [|pose proof (reads_left _ _ _ R' Ne); lia].
    rewrite (More _ _ _ M Hs). cbn [andb]. unfold get_token. cbn [e_elements].
    destruct (Z.leb_spec (e_elements e) 0) as [_|K]; [|specialize (H0 ltac:(lia)); lia]. rewrite Ep, E. cbn [bindr].
    destruct (Z.leb_spec n 0); [lia|]. reflexivity.
  - rewrite (He Hn) in *. destruct fuel as [|fuel]; [cbn [length] in Hf; lia|]. cbn [expand_loop e_position].
    destruct (Z.ltb_spec p (zlen data * 8)) as [_|K]; [|pose proof (reads_left _ _ _ R Ne); lia].
    rewrite (More _ _ _ M Hs). cbn [andb]. unfold get_token. cbn [e_elements e_position e_character e_distance].
    destruct (Z.leb_spec n 0); [lia|]. cbn [bindr e_elements e_position e_character e_distance].
    destruct (lookup_coded data p 0 ch 510 b _ C R) as [E R1]. rewrite E. cbn [bindr].
    change (510 <=? 255) with false. change (510 =? 510) with true. cbv iota. inversion M; subst. reflexivity.
  - apply reads_end in R. inversion M; subst. destruct fuel; cbn [expand_loop];
      (destruct (Z.ltb_spec (e_position e) (zlen data * 8)); [lia|reflexivity]).
Qed.
