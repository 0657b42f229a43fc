(** The readers of PCD, PCM, PCQ, PCS, MAX, SHV and HUS. *)
From Coq Require Import ZArith List Bool Lia.
From Verif Require Import PyBase EmbConst StreamModel StreamSpec StreamProofs HelperModel HelperProofs FunctionsModel PatternModel ThreadModel
  TextModel Vp3Model PecFileModel CompressModel CompressProofs RecordModel RecordSpec RecordProofs RecordMoreProofs RecordAnyProofs BlockModel BlockSpec BitLemmas.
Import ListNotations.
Open Scope Z_scope.

Lemma land_24 v : Z.land v 0xFFFFFF = v mod 16777216.
Proof. change 0xFFFFFF with (Z.ones 24). rewrite Z.land_ones by lia. reflexivity. Qed.
Lemma signed24_two24 v : -8388608 <= v <= 8388607 -> signed24 (two24 v) = v.
Proof. intros H. unfold signed24, two24. rewrite land_24. destruct (_ >? _) eqn:E; lia. Qed.
Lemma le24_read v r : read_int_24le (le24 v ++ r) = (Some (two24 v), r).
Proof.
  unfold le24, read_int_24le. cbn [app firstn skipn]. unfold b8. rewrite !land_ff, !Z.shiftl_mul_pow2 by lia.
  change (2 ^ 8) with 256. change (2 ^ 16) with 65536. f_equal. f_equal. assert (0 <= two24 v < 16777216) by (unfold two24; lia).
  generalize dependent (two24 v). intros w W. lia.
Qed.
Lemma be24_read v r : read_int_24be (be24 v ++ r) = (Some (two24 v), r).
Proof.
  unfold be24, read_int_24be. cbn [app firstn skipn]. unfold b8. rewrite !land_ff, !Z.shiftl_mul_pow2 by lia.
  change (2 ^ 8) with 256. change (2 ^ 16) with 65536. f_equal. f_equal. assert (0 <= two24 v < 16777216) by (unfold two24; lia).
  generalize dependent (two24 v). intros w W. lia.
Qed.
Lemma flag_4 k : flag k 4 = Z.testbit k 2.
Proof.
  unfold flag. replace (Z.land k 4) with (if Z.testbit k 2 then 4 else 0); [destruct (Z.testbit k 2); reflexivity|].
  apply Z.bits_inj'. intros n Hn. rewrite Z.land_spec. destruct (Z.eq_dec n 2) as [->|N].
  - rewrite (Z.pow2_bits_true 2 ltac:(lia) : Z.testbit 4 2 = true), andb_true_r. destruct (Z.testbit k 2); reflexivity.
  - assert (F : Z.testbit 4 n = false) by (apply (Z.pow2_bits_false 2 n); lia). rewrite F, andb_false_r. destruct (Z.testbit k 2); [exact F|apply Z.bits_0].
Qed.
Lemma bit2_not_0 k : Z.testbit k 2 = true -> k <> 0.
Proof. intros H ->. discriminate. Qed.
Lemma even_not_odd k : Z.even k = true -> Z.odd k = false.
Proof. intros H. rewrite <- Z.negb_even, H. reflexivity. Qed.

Section Pc.
Context {C : Type} (scale : Z -> C) (coords : list Z -> Z * Z) (at_ : Z -> Z -> Z -> Z -> list Z).
Hypothesis at_coords : forall x y u v, exists b0 b1 b2 b3 b4 b5 b6 b7, at_ x y u v = [b0; b1; b2; b3; b4; b5; b6; b7] /\
  coords [b0; b1; b2; b3; b4; b5; b6; b7] = (two24 x, two24 (- y)).
Lemma pc_decode l bytes px py : pc_stores at_ px py l bytes ->
  pc_loop scale coords (scale px, scale py) bytes = map (on_grid scale) (let '(x, y) := needle_after px py l in l ++ [mkS x y END]).
Proof.
  induction 1 as [px py x y u v l bytes A B H IH|px py x y u v k l bytes A B K1 K2 H IH|px py eight k l bytes E K H IH|px py bytes S|px py eight k bytes E K1 K2 K3].
  - destruct (at_coords x y u v) as (b0 & b1 & b2 & b3 & b4 & b5 & b6 & b7 & -> & E). cbn [app pc_loop]. rewrite E. cbv zeta.
    unfold grid24 in *. rewrite !signed24_two24, Z.opp_involutive by lia. closedb. rewrite IH. cbn [needle_after sx sy scmd].
    destruct (needle_after x y l). reflexivity.
  - destruct (at_coords x y u v) as (b0 & b1 & b2 & b3 & b4 & b5 & b6 & b7 & -> & E). cbn [app pc_loop]. rewrite E. cbv zeta.
    unfold grid24 in *. rewrite !signed24_two24, Z.opp_involutive by lia. rewrite flag_odd, flag_4, K2, even_not_odd by exact K1.
    destruct (Z.eqb_spec k 0) as [->|N]; [discriminate|]. rewrite IH. cbn [needle_after sx sy scmd]. destruct (needle_after x y l). reflexivity.
  - destruct eight as [|b0 [|b1 [|b2 [|b3 [|b4 [|b5 [|b6 [|b7 [|? ?]]]]]]]]]; try discriminate. cbn [app pc_loop].
    destruct (coords _) as [x y]. cbv zeta. rewrite flag_odd, K. destruct (Z.eqb_spec k 0) as [->|N]; [discriminate|].
    rewrite IH. cbn [needle_after sx sy scmd]. destruct (needle_after px py l). reflexivity.
  - unfold short in S. destruct bytes as [|b0 [|b1 [|b2 [|b3 [|b4 [|b5 [|b6 [|b7 [|b8 ?]]]]]]]]]; try reflexivity. cbn [List.length] in S. lia.
  - destruct eight as [|b0 [|b1 [|b2 [|b3 [|b4 [|b5 [|b6 [|b7 [|? ?]]]]]]]]]; try discriminate. cbn [app pc_loop].
    destruct (coords _) as [x y]. cbv zeta. rewrite flag_odd, flag_4, even_not_odd, K3 by exact K2. destruct (Z.eqb_spec k 0); [contradiction|]. reflexivity.
Qed.
End Pc.
Lemma pcd_at_coords x y u v : exists b0 b1 b2 b3 b4 b5 b6 b7, pcd_at x y u v = [b0; b1; b2; b3; b4; b5; b6; b7] /\
  pcd_coords [b0; b1; b2; b3; b4; b5; b6; b7] = (two24 x, two24 (- y)).
Proof.
  do 8 eexists. split; [reflexivity|]. unfold pcd_coords. cbn [read_int_8 firstn skipn].
  change (?a :: ?b :: ?c :: v :: ?r) with (le24 x ++ v :: r). rewrite le24_read. cbn [read_int_8 firstn skipn].
  change (?a :: ?b :: [?c]) with (le24 (- y) ++ []). rewrite le24_read. reflexivity.
Qed.
Lemma pcm_at_coords x y u v : exists b0 b1 b2 b3 b4 b5 b6 b7, pcm_at x y u v = [b0; b1; b2; b3; b4; b5; b6; b7] /\
  pcm_coords [b0; b1; b2; b3; b4; b5; b6; b7] = (two24 x, two24 (- y)).
Proof.
  do 8 eexists. split; [reflexivity|]. unfold pcm_coords.
  change (?a :: ?b :: ?c :: u :: ?r) with (be24 x ++ u :: r). rewrite be24_read. cbn [read_int_8 firstn skipn].
  change (?a :: ?b :: ?c :: [v]) with (be24 (- y) ++ [v]). rewrite be24_read. reflexivity.
Qed.
Definition pcd_thread (t : Z * Z) : list Z := be24 (fst t) ++ [snd t].
Lemma pcd_threads_read : forall threads r, Forall (fun t => 0 <= fst t < 16777216) threads ->
  pcd_threads (List.length threads) (flat_map pcd_thread threads ++ r) = (map (fun t => Some (fst t)) threads, r).
Proof.
  induction threads as [|[c u] threads IH]; intros r H; [reflexivity|]. inversion H as [|? ? H1 H2]; subst. cbn [fst] in H1. cbn [List.length pcd_threads flat_map].
  unfold pcd_thread at 1. cbn [fst snd]. rewrite <- !app_assoc, be24_read. cbn [app skipn]. rewrite IH by exact H2. cbn [map fst]. f_equal.
  f_equal. f_equal. unfold two24. lia.
Qed.
Lemma le16_count n r : 0 <= n < 65536 -> read_int_16le (le16 n ++ r) = (Some n, r).
Proof.
  intros H. unfold read_int_16le, le16, two16. cbn [app firstn skipn]. unfold b8. rewrite !land_ff, Z.shiftl_mul_pow2 by lia.
  change (2 ^ 8) with 256. f_equal. f_equal. lia.
Qed.
Lemma be16_count n r : 0 <= n < 65536 -> read_int_16be (be16 n ++ r) = (Some n, r).
Proof.
  intros H. unfold read_int_16be, be16, two16. cbn [app firstn skipn]. unfold b8. rewrite !land_ff, Z.shiftl_mul_pow2 by lia.
  change (2 ^ 8) with 256. f_equal. f_equal. lia.
Qed.
Theorem read_pcd {C} (scale : Z -> C) version hoop threads c0 c1 l bytes :
  Forall (fun t => 0 <= fst t < 16777216) threads -> zlen threads < 65536 -> pc_stores pcd_at 0 0 l bytes ->
  pcd_read scale ([version; hoop] ++ le16 (zlen threads) ++ flat_map pcd_thread threads ++ [c0; c1] ++ bytes)
  = Ok (map (fun t => Some (fst t)) threads, map (on_grid scale) (closed l)).
Proof.
  intros T N H. unfold pcd_read. cbn [app read_int_8 firstn skipn]. assert (0 <= zlen threads) by (unfold zlen; lia).
  rewrite le16_count by lia. replace (Z.to_nat (zlen threads)) with (List.length threads) by (unfold zlen; lia).
  rewrite pcd_threads_read by exact T. cbn [read_int_16le firstn skipn].
  rewrite (pc_decode scale pcd_coords pcd_at pcd_at_coords l bytes 0 0 H). unfold closed. destruct (needle_after 0 0 l). reflexivity.
Qed.
Lemma pcm_threads_read : forall indices r, Forall (fun i => 0 <= i < 16) indices ->
  pcm_threads (List.length indices) (flat_map be16 indices ++ r) = Ok (map (fun i => nth (Z.to_nat i) pcm_palette 0) indices, r).
Proof.
  induction indices as [|i indices IH]; intros r H; [reflexivity|]. inversion H; subst. cbn [List.length pcm_threads flat_map].
  rewrite <- app_assoc, be16_count by lia.
  assert (E : nth_error pcm_palette (Z.to_nat i) = Some (nth (Z.to_nat i) pcm_palette 0)) by (apply nth_error_nth'; cbn [List.length pcm_palette]; lia).
  rewrite E, IH by assumption. reflexivity.
Qed.
Theorem read_pcm {C} (scale : Z -> C) h0 h1 indices c0 c1 l bytes :
  Forall (fun i => 0 <= i < 16) indices -> zlen indices < 65536 -> pc_stores pcm_at 0 0 l bytes ->
  pcm_read scale ([h0; h1] ++ be16 (zlen indices) ++ flat_map be16 indices ++ [c0; c1] ++ bytes)
  = Ok (map (fun i => nth (Z.to_nat i) pcm_palette 0) indices, map (on_grid scale) (closed l)).
Proof.
  intros T N H. unfold pcm_read. cbn [app skipn]. assert (0 <= zlen indices) by (unfold zlen; lia).
  rewrite be16_count by lia. replace (Z.to_nat (zlen indices)) with (List.length indices) by (unfold zlen; lia).
  rewrite pcm_threads_read by exact T. cbn [bindr read_int_16be firstn skipn].
  rewrite (pc_decode scale pcm_coords pcm_at pcm_at_coords l bytes 0 0 H). unfold closed. destruct (needle_after 0 0 l). reflexivity.
Qed.

(** MAX *)
Definition at24 (s : Z * Z * (Z * Z)) : Prop := -8388608 <= fst (fst s) <= 8388607 /\ -8388608 <= snd (fst s) <= 8388607.
Lemma max_decode {C} (scale : Z -> C) : forall l rest px py, Forall at24 l ->
  max_loop scale (zlen l) (scale px, scale py) (flat_map max_record l ++ rest)
  = Ok (map (on_grid scale) (let '(x, y) := needle_after px py (map max_stitch l) in map max_stitch l ++ [mkS x y END])).
Proof.
  induction l as [|[[x y] [u v]] l IH]; intros rest px py H; [destruct rest; reflexivity|]. inversion H as [|? ? [A B] H2]; subst. cbn [fst snd] in A, B.
  cbn [flat_map map]. unfold max_record at 1. rewrite <- !app_assoc.
  assert (L : zlen ((x, y, (u, v)) :: l) = zlen l + 1) by (unfold zlen; cbn [List.length]; lia). rewrite L.
  assert (0 <= zlen l) by (unfold zlen; lia).
  unfold le24 at 1. cbn [app]. unfold le24 at 1. cbn [app]. cbn [max_loop]. destruct (Z.leb_spec (zlen l + 1) 0); [lia|].
  change [two24 x mod 256; two24 x / 256 mod 256; two24 x / 65536] with (le24 x ++ []). rewrite le24_read.
  change [two24 y mod 256; two24 y / 256 mod 256; two24 y / 65536] with (le24 y ++ []). rewrite le24_read. cbn [fst number].
  rewrite !signed24_two24 by assumption. replace (zlen l + 1 - 1) with (zlen l) by lia. rewrite IH by exact H2. cbn [bindr].
  change (max_stitch (x, y, (u, v))) with (mkS x y STITCH). cbn [needle_after sx sy scmd]. destruct (needle_after x y (map max_stitch l)). reflexivity.
Qed.
Theorem read_max {C} (scale : Z -> C) header l rest : zlen header = 0xD5 -> Forall at24 l -> zlen l < 2 ^ 32 ->
  max_read scale (header ++ le32 (zlen l) ++ flat_map max_record l ++ rest) = Ok (map (on_grid scale) (closed (map max_stitch l))).
Proof.
  intros Hl H N. unfold max_read. rewrite skip_header by (unfold zlen in Hl; lia). rewrite le32_read by (unfold zlen in *; lia).
  rewrite max_decode by exact H. unfold closed. destruct (needle_after 0 0 (map max_stitch l)). reflexivity.
Qed.
Ltac max_short n :=
  let G := fresh "G" in
  match goal with |- context [Z.leb (8 * n) ?b] => destruct (Z.leb_spec (8 * n) b) as [G|G] end;
  [exfalso; unfold zlen in *; cbn [List.length] in *; lia|];
  cbn [orb]; cbn [max_loop]; destruct (Z.leb_spec n 0); [lia|]; first [reflexivity | eexists; reflexivity].
Lemma max_fits {C} (scale : Z -> C) : forall k bytes n p, (List.length bytes < k)%nat -> 0 <= n ->
  if (8 * n <=? zlen bytes) || (zlen bytes mod 8 =? 7) then exists l, max_loop scale n p bytes = Ok l else max_loop scale n p bytes = Err TypeError.
Proof.
  induction k as [|k IH]; intros bytes n p Hk Hn; [lia|].
  destruct (Z.leb_spec n 0) as [Z0|Z0].
  - assert (n = 0) by lia. subst n. destruct (Z.leb_spec (8 * 0) (zlen bytes)); [|unfold zlen in *; lia]. destruct bytes; eexists; reflexivity.
  - destruct bytes as [|x0 [|x1 [|x2 [|u [|y0 [|y1 [|y2 [|v r]]]]]]]].
    { max_short n. }
    { max_short n. }
    { max_short n. }
    { max_short n. }
    { max_short n. }
    { max_short n. }
    { max_short n. }
    { max_short n. }
    cbn [max_loop]. destruct (Z.leb_spec n 0); [lia|]. cbn [List.length] in Hk.
    match goal with |- context [max_loop scale (n - 1) ?q r] => specialize (IH r (n - 1) q ltac:(lia) ltac:(lia)) end.
    replace (8 * n <=? zlen (x0 :: x1 :: x2 :: u :: y0 :: y1 :: y2 :: v :: r)) with (8 * (n - 1) <=? zlen r).
    2: { unfold zlen. cbn [List.length]. destruct (Z.leb_spec (8 * (n - 1)) (Z.of_nat (List.length r))), (Z.leb_spec (8 * n) (Z.of_nat (S (S (S (S (S (S (S (S (List.length r))))))))))); lia. }
    replace (zlen (x0 :: x1 :: x2 :: u :: y0 :: y1 :: y2 :: v :: r) mod 8) with (zlen r mod 8) by (unfold zlen; cbn [List.length]; lia).
    destruct (_ || _); [destruct IH as (l & ->); eexists; reflexivity|rewrite IH; reflexivity].
Qed.
Theorem max_outcome {C} (scale : Z -> C) header n bytes : zlen header = 0xD5 -> 0 <= n < 2 ^ 32 ->
  (if (8 * n <=? zlen bytes) || (zlen bytes mod 8 =? 7) then exists l, max_read scale (header ++ le32 n ++ bytes) = Ok l
   else max_read scale (header ++ le32 n ++ bytes) = Err TypeError)
  /\ forall f, zlen f < 0xD9 -> max_read scale f = Err TypeError.
Proof.
  intros Hl Hn. split.
  - unfold max_read. rewrite skip_header by (unfold zlen in Hl; lia). rewrite le32_read by lia.
    pose proof (max_fits scale (S (List.length bytes)) bytes n (scale 0, scale 0) ltac:(lia) ltac:(lia)). exact H.
  - intros f Hf. unfold max_read. assert (L : (List.length (skipn 0xD5 f) < 4)%nat) by (rewrite skipn_length; unfold zlen in Hf; lia).
    destruct (skipn 0xD5 f) as [|a [|b [|c [|d r]]]]; try reflexivity. cbn [List.length] in L. lia.
Qed.
Theorem pcd_outcome {C} (scale : Z -> C) f : if zlen f <? 4 then pcd_read scale f = Err TypeError else exists t l, pcd_read scale f = Ok (t, l).
Proof.
  unfold pcd_read, zlen. destruct f as [|a [|b [|c [|d f]]]]; try reflexivity. destruct (_ <? 4) eqn:E; [cbn [List.length] in E; lia|].
  cbn [read_int_8 read_int_16le firstn skipn]. destruct (pcd_threads _ f) as [t r]. destruct (read_int_16le r). eauto.
Qed.
Lemma pcm_threads_any : forall n f, match pcm_threads n f with Ok _ => True | Err e => e = TypeError \/ e = IndexError end.
Proof.
  induction n as [|n IH]; intros f; [exact I|]. cbn [pcm_threads]. destruct (read_int_16be f) as [[i|] r]; [|left; reflexivity].
  destruct (nth_error _ _); [|right; reflexivity]. specialize (IH r). destruct (pcm_threads n r) as [[l q]|e]; cbn [bindr]; [exact I|exact IH].
Qed.
Theorem pcm_outcome {C} (scale : Z -> C) f : (exists t l, pcm_read scale f = Ok (t, l)) \/ pcm_read scale f = Err TypeError \/ pcm_read scale f = Err IndexError.
Proof.
  unfold pcm_read. destruct (read_int_16be _) as [[n|] r]; [|left; eauto]. pose proof (pcm_threads_any (Z.to_nat n) r) as H.
  destruct (pcm_threads _ r) as [[t q]|e]; cbn [bindr]; [destruct (read_int_16be q); left; eauto|]. destruct H as [-> | ->]; auto.
Qed.
