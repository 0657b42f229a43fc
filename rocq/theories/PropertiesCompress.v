(** Properties of the HUS compressor and expander: C47, C48, C69, C70. *)
From Coq Require Import ZArith List Bool Lia.
From Verif Require Import PyBase PatternModel BitLemmas CompressModel CompressProofs CompressRoundProofs.
Import ListNotations.
Open Scope Z_scope.

(** ** C47 *)
(** What the caller gets of [l] with the size limit [size] (one item more than asked for). *)
Definition within (size : option Z) (l : list Z) : list Z :=
  match size with None => l | Some n => firstn (Z.to_nat (n + 1)) l end.

(** Data of 1 to 255 bytes, and more generally of every length n = 256*h + l (l, h bytes) not
    above 256*l + h, comes back unchanged; a size limit below the length cuts it. *)
Theorem C47_stored_round_trip : forall (data : list Z) (size : option Z) (fuel : nat),
  Forall (fun b => 0 <= b < 256) data -> data <> [] ->
  Z.of_nat (length data) <= Z.of_nat (length data) mod 256 * 256 + Z.of_nat (length data) / 256 mod 256 ->
  (length data <= fuel)%nat ->
  expand fuel (compress data) size = Ok (within size data).
Proof. intros data size fuel Hd Hne Ha Hf. apply (stored_round_trip data size fuel); assumption. Qed.
Corollary C47_short_data : forall (data : list Z) (fuel : nat),
  Forall (fun b => 0 <= b < 256) data -> (0 < length data < 256)%nat -> (length data <= fuel)%nat ->
  expand fuel (compress data) None = Ok data.
Proof.
  intros data fuel Hd Hl Hf. apply (C47_stored_round_trip data None fuel); try assumption.
  - intros ->. cbn [length] in Hl. lia.
  - rewrite Z.mod_small by lia. pose proof (Z.mod_pos_bound (Z.of_nat (length data) / 256) 256). lia.
Qed.
Example C47_case : expand 10 (compress [7; 255; 0; 7]) None = Ok [7; 255; 0; 7].
Proof. apply C47_short_data; [|cbn; lia|cbn; lia]. repeat (apply Forall_cons; [lia|]). constructor. Qed.

(** Not for every data: the empty string comes back as one zero byte, and 256 bytes are not
    returned as they were, because the announced length is read with its bytes swapped. *)
Theorem C47_refuted :
  (forall fuel, expand (S fuel) (compress []) None <> Ok []) /\
  exists data, Forall (fun b => 0 <= b < 256) data /\ length data = 256%nat /\
    forall fuel, expand fuel (compress data) None <> Ok data.
Proof.
  split.
  - intros fuel H. assert (E : expand 1 (compress []) None = Ok [0]) by (vm_compute; reflexivity).
    assert (N : expand 1 (compress []) None <> Err OutOfFuel) by (rewrite E; discriminate).
    pose proof (expand_loop_more (compress []) None 1 fuel (mkE 0 (-1) (constant_huffman 0) (constant_huffman 0)) [] N) as M.
    unfold expand in H, E. rewrite Nat.add_1_l, E in M. rewrite M in H. discriminate H.
  - exists (repeat 7 256). split; [apply Forall_forall; intros b Hb; apply repeat_spec in Hb; lia|].
    split; [reflexivity|]. intros fuel H.
    assert (E : exists r, expand 1000 (compress (repeat 7 256)) None = r /\ r <> Ok (repeat 7 256) /\ r <> Err OutOfFuel).
    { eexists. split; [vm_compute; reflexivity|]. split; discriminate. }
    destruct E as (r & E & N1 & N2).
    set (e0 := mkE 0 (-1) (constant_huffman 0) (constant_huffman 0)).
    pose proof (expand_loop_more (compress (repeat 7 256)) None 1000 fuel e0 []) as A.
    pose proof (expand_loop_more (compress (repeat 7 256)) None fuel 1000 e0 []) as B.
    unfold expand in H, E. fold e0 in H, E. rewrite E in A. rewrite H in B.
    specialize (A N2). specialize (B ltac:(discriminate)). rewrite Nat.add_comm in B. rewrite A in B. congruence.
Qed.

(** ** C48 *)
(** With a number of rounds proportional to the length of the data the expander is never cut
    short, and more rounds do not change its result: it terminates, with output or an exception. *)
Theorem C48_expand_terminates : forall (data : list Z) (size : option Z),
  exists result, result <> Err OutOfFuel /\
    forall fuel, 524288 * Z.of_nat (length data) <= Z.of_nat fuel -> expand fuel data size = result.
Proof.
  intros data size. set (f0 := Z.to_nat (524288 * Z.of_nat (length data))).
  assert (T : expand f0 data size <> Err OutOfFuel).
  { apply expand_total. unfold f0, zlen. rewrite Z2Nat.id by lia. lia. }
  exists (expand f0 data size). split; [exact T|]. intros fuel Hf.
  replace fuel with (f0 + (fuel - f0))%nat by (unfold f0; lia). apply expand_loop_more. exact T.
Qed.
Example C48_case : exists r, expand 100 [1; 0; 2; 160; 1; 254; 9] None = Ok r.
Proof. eexists. vm_compute. reflexivity. Qed.

(** ** C69 *)
(** A copy of [n] items from [d] items back: the output grows by n items, the old ones stay, and
    each new one equals the one d places before it (which may itself be new). *)
Theorem C69_back_reference : forall (out : list Z) (n d : Z),
  0 <= n -> 1 <= d <= Z.of_nat (length out) ->
  exists new, copy_back n d out = Ok (out ++ new) /\ Z.of_nat (length new) = n /\
    forall k, (k < length new)%nat ->
      nth_error (out ++ new) (length out + k) = nth_error (out ++ new) (length out + k - Z.to_nat d).
Proof.
  intros out n d Hn Hd. destruct (copy_back_spec n d out Hn Hd) as (o & C & L & F & N).
  exists (skipn (length out) o). assert (O : o = out ++ skipn (length out) o) by (rewrite <- F at 1; symmetry; apply firstn_skipn).
  rewrite <- O. split; [exact C|]. unfold zlen in *. rewrite skipn_length. split; [lia|].
  intros k Hk. apply N. lia.
Qed.
Example C69_overlap : copy_back 5 2 [1; 2; 3] = Ok [1; 2; 3; 2; 3; 2; 3; 2].
Proof. reflexivity. Qed.
(** A distance beyond the start of the output is not refused: nothing is copied, or the copy starts at the end. *)
Example C69_distance_beyond_start : copy_back 3 5 [1; 2; 3] = Ok [1; 2; 3] /\ copy_back 3 3 [1; 2] = Ok [1; 2; 2; 1; 2].
Proof. split; reflexivity. Qed.

(** ** C70 *)
(** Canonical prefix codes.  Symbols with a code (length above 0) are ordered by code length and
    then by number; the code of a symbol of length L is the sum of 2^(L - l) over the symbols
    before it, l being their lengths. *)
Definition comes_before (lengths : list Z) (t s : nat) : bool :=
  (0 <? nth t lengths 0) && ((nth t lengths 0 <? nth s lengths 0) || ((nth t lengths 0 =? nth s lengths 0) && Nat.ltb t s)).
Definition canonical_code (lengths : list Z) (s : nat) : Z :=
  fold_right Z.add 0 (map (fun t => if comes_before lengths t s then 2 ^ (nth s lengths 0 - nth t lengths 0) else 0)
                          (seq 0 (length lengths))).

Lemma sum_app (a b : list Z) : fold_right Z.add 0 (a ++ b) = fold_right Z.add 0 a + fold_right Z.add 0 b.
Proof. induction a as [|x a IH]; cbn [app fold_right]; [lia|]. rewrite IH. lia. Qed.
Lemma cost_sum P k ls : cost P k ls = fold_right Z.add 0 (map (fun l => if P l then 2 ^ (k - l) else 0) ls).
Proof. induction ls as [|l r IH]; cbn [cost map fold_right]; [reflexivity|]. rewrite IH. reflexivity. Qed.
Lemma canonical_cost l1 L l2 : 0 < L -> let ls := l1 ++ L :: l2 in
  canonical_code ls (length l1) = cost (upto (L - 1)) L ls + cost (Z.eqb L) L l1.
Proof.
  intros HL ls. unfold canonical_code.
  assert (N : nth (length l1) ls 0 = L) by (unfold ls; rewrite app_nth2, Nat.sub_diag by lia; reflexivity).
  unfold comes_before. rewrite N.
  assert (G : forall rest done, ls = done ++ rest ->
    fold_right Z.add 0 (map (fun t => if (0 <? nth t ls 0) && ((nth t ls 0 <? L) || ((nth t ls 0 =? L) && Nat.ltb t (length l1)))
                                      then 2 ^ (L - nth t ls 0) else 0) (seq (length done) (length rest)))
    = cost (upto (L - 1)) L rest + cost (Z.eqb L) L (firstn (length l1 - length done) rest)).
  { induction rest as [|x rest IH]; intros done E; [rewrite firstn_nil; reflexivity|].
    cbn [length seq map fold_right cost]. specialize (IH (done ++ [x])). rewrite app_length in IH. cbn [length] in IH.
    rewrite Nat.add_1_r in IH. rewrite IH by (rewrite <- app_assoc; exact E). clear IH.
    assert (X : nth (length done) ls 0 = x) by (rewrite E, app_nth2, Nat.sub_diag by lia; reflexivity).
    rewrite X. unfold upto. destruct (Nat.ltb_spec (length done) (length l1)) as [K|K].
    - replace (length l1 - length done)%nat with (S (length l1 - S (length done))) by lia. cbn [firstn cost].
      destruct (Z.ltb_spec 0 x), (Z.ltb_spec x L), (Z.leb_spec x (L - 1)), (Z.eqb_spec x L), (Z.eqb_spec L x); cbn [andb orb]; lia.
    - replace (length l1 - length done)%nat with 0%nat by lia. replace (length l1 - S (length done))%nat with 0%nat by lia. cbn [firstn cost].
      rewrite andb_false_r, orb_false_r.
      destruct (Z.ltb_spec 0 x), (Z.ltb_spec x L), (Z.leb_spec x (L - 1)); cbn [andb]; lia. }
  specialize (G ls [] eq_refl). cbn [length] in G. rewrite Nat.sub_0_r in G.
  replace (firstn (length l1) ls) with l1 in G; [exact G|]. unfold ls. rewrite firstn_app, firstn_all, Nat.sub_diag. cbn [firstn]. symmetry. apply app_nil_r.
Qed.

(** When the next bits of the input begin with the canonical code of symbol [s], decoding yields
    that symbol and consumes exactly its code's length. [window] is the next 16 bits. *)
Theorem C70_canonical_codes : forall (lengths : list Z) (default : Z) (s : nat) (window : Z),
  (s < length lengths)%nat -> 0 < nth s lengths 0 -> Forall (fun l => l <= 16) lengths ->
  0 <= window < 2 ^ 16 ->
  window / 2 ^ (16 - nth s lengths 0) = canonical_code lengths s ->
  lookup (build_table default lengths) window = Ok (Z.of_nat s, nth s lengths 0).
Proof.
  intros ls d s v Hs HL H16 Hv Hc.
  destruct (nth_split ls 0 Hs) as (l1 & l2 & E & Es).
  set (L := nth s ls 0) in *. subst s. rewrite E in Hc |- *. rewrite canonical_cost in Hc by exact HL.
  apply (lookup_code d l1 L l2 v); [exact HL| |exact Hv|exact Hc].
  rewrite <- E. assert (M : forall r m, m <= 16 -> Forall (fun l => l <= 16) r -> fold_left Z.max r m <= 16).
  { induction r as [|x r IH]; intros m Hm Hr; cbn [fold_left]; [exact Hm|]. apply Forall_cons_iff in Hr. apply IH; [lia|apply Hr]. }
  apply M; [lia|exact H16].
Qed.
(** Lengths 2, 1, 0, 3, 3 give the codes 10, 0, none, 110, 111. *)
Example C70_codes : map (canonical_code [2; 1; 0; 3; 3]) [0; 1; 3; 4]%nat = [2; 0; 6; 7].
Proof. reflexivity. Qed.
Example C70_case : lookup (build_table 0 [2; 1; 0; 3; 3]) 0xDABC = Ok (3, 3).
Proof. apply (C70_canonical_codes [2; 1; 0; 3; 3] 0 3%nat 0xDABC); [cbn; lia|cbn; lia| |lia|reflexivity].
  repeat (apply Forall_cons; [lia|]). constructor. Qed.

Print Assumptions C47_stored_round_trip.
Print Assumptions C47_short_data.
Print Assumptions C47_refuted.
Print Assumptions C48_expand_terminates.
Print Assumptions C69_back_reference.
Print Assumptions C70_canonical_codes.
