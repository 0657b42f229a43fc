(** The readers of SHV and HUS. *)
From Coq Require Import ZArith List Bool Lia.
From Verif Require Import PyBase EmbConst StreamModel StreamSpec StreamProofs HelperModel HelperProofs FunctionsModel PatternModel ThreadModel Utf8Model
  TextModel Vp3Model PecFileModel CompressModel CompressProofs RecordModel RecordSpec RecordProofs RecordMoreProofs RecordAnyProofs BlockModel BlockSpec BlockProofs BitLemmas.
Import ListNotations.
Open Scope Z_scope.

(** ** SHV *)
Lemma shv_rounds : forall fuel bytes, (List.length bytes < fuel)%nat -> forall k j since max others,
  shv_loop (fuel + k) j since max others bytes = shv_loop fuel j since max others bytes.
Proof.
  induction fuel as [|fuel IH]; intros bytes H k j since max others; [lia|]. cbn [Nat.add shv_loop].
  destruct bytes as [|b0 [|b1 r]]; [reflexivity|reflexivity|]. cbn [List.length] in H. cbv zeta.
  rewrite !(IH r) by lia. destruct (b0 =? 128); [|reflexivity]. destruct (b1 =? 3); [reflexivity|]. destruct (b1 =? 2); [reflexivity|].
  destruct (b1 =? 1); [|reflexivity].
  destruct r as [|a [|b r]]; [reflexivity..|]. cbn [read_int_16be firstn skipn].
  destruct r as [|a' [|b' r]]; [reflexivity..|]. cbn [read_int_16be firstn skipn]. cbn [List.length] in H. rewrite (IH r) by lia. reflexivity.
Qed.
Definition shv (j : bool) (since max : Z) (others : list Z) (bytes : list Z) : res (list rel) :=
  shv_loop (S (List.length bytes)) j since max others bytes.
Lemma shv_fuel fuel j since max others bytes : (List.length bytes < fuel)%nat -> shv_loop fuel j since max others bytes = shv j since max others bytes.
Proof.
  intros H. unfold shv. replace fuel with (S (List.length bytes) + (fuel - S (List.length bytes)))%nat by lia. apply shv_rounds. lia.
Qed.
Lemma be16_full v r : -32768 <= v <= 32767 -> read_int_16be (be16 v ++ r) = (Some (two16 v), r) /\ signed16 (two16 v) = v.
Proof.
  intros H. unfold read_int_16be, be16, two16, signed16. cbn [app firstn skipn]. unfold b8. rewrite !land_ff, land_ffff, Z.shiftl_mul_pow2 by lia.
  change (2 ^ 8) with 256. split; [f_equal; f_equal; lia|]. destruct (_ >? _) eqn:E; lia.
Qed.
Lemma two8_80 : two8 (-128) = 0x80. Proof. reflexivity. Qed.
Lemma shv_step_ok j steps b w j' since max others r : shv_record j steps b w j' -> since < max ->
  shv j since max others (b ++ r) = calls_then steps (shv j' (since + w) max others r).
Proof.
  intros H L. unfold shv at 1. remember (List.length (b ++ r)) as N eqn:EN. assert (LL : (max <=? since) = false) by (destruct (Z.leb_spec max since); lia).
  destruct H as [j dx dy A B|j dy B NI|j dx dy A B|j|j]; rewrite ?app_length in EN; cbn [List.length app be16] in EN; cbn [app shv_loop]; rewrite ?LL; cbv zeta.
  - rewrite two8_not_80, !two8_signed by (unfold signed_byte in *; lia). rewrite shv_fuel by lia. reflexivity.
  - closedb. assert (E : forall k, 0 < k < 128 -> ~ In k [1;2;3] \/ True) by auto. clear E.
    assert (D : forall k, In k [1; 2; 3] -> (two8 dy =? k) = false).
    { intros k K. destruct (Z.eqb_spec (two8 dy) k) as [Q|Q]; [|reflexivity]. exfalso. apply NI. unfold two8 in Q. cbn [In] in K |- *. lia. }
    rewrite !D by (cbn [In]; tauto). rewrite two8_signed by lia. rewrite shv_fuel by lia. reflexivity.
  - closedb. rewrite <- !app_assoc.
    destruct (be16_full dx (be16 dy ++ r) A) as [E1 E2]. destruct (be16_full dy r B) as [E3 E4].
    rewrite E1, E3, E2, E4, (shv_fuel N) by lia. reflexivity.
  - closedb. rewrite shv_fuel by lia. reflexivity.
  - closedb. rewrite shv_fuel by lia. reflexivity.
Qed.
Lemma calls_calls a b r : calls_then a (calls_then b r) = calls_then (a ++ b) r.
Proof. destruct r; cbn [calls_then bindr]; rewrite ?app_assoc; reflexivity. Qed.
Lemma shv_change j since max next others bytes : (2 <= List.length bytes)%nat -> max <= since -> 0 < next ->
  shv j since max (next :: others) bytes = calls_then [mkS 0 0 COLOR_CHANGE] (shv j 0 next others bytes).
Proof.
  intros B L N. unfold shv. remember (List.length bytes) as M eqn:EM. cbn [shv_loop].
  destruct bytes as [|b0 [|b1 r]]; [cbn in *; lia..|]. cbv zeta.
  assert (L1 : (max <=? since) = true) by (destruct (Z.leb_spec max since); lia). rewrite L1. cbn [hd tl].
  assert (L2 : (next <=? 0) = false) by (destruct (Z.leb_spec next 0); lia). rewrite L2.
  destruct (b0 =? 128); [|rewrite calls_calls; reflexivity]. destruct (b1 =? 3); [rewrite calls_calls; reflexivity|].
  destruct (b1 =? 2); [rewrite calls_calls; reflexivity|]. destruct (b1 =? 1); [|rewrite calls_calls; reflexivity].
  destruct (read_int_16be r) as [[x|] r1]; destruct (read_int_16be _) as [[y|] r2]; try reflexivity. rewrite calls_calls. reflexivity.
Qed.
Lemma shv_record_sizes j steps b w j' : shv_record j steps b w j' -> 1 <= w /\ (2 <= List.length b)%nat.
Proof. intros H. destruct H; cbn [app List.length be16]; lia. Qed.
Lemma shv_section_sizes j steps b w j' : shv_section j steps b w j' -> 1 <= w /\ (2 <= List.length b)%nat.
Proof.
  induction 1 as [? ? ? ? ? R|? ? ? ? ? ? ? ? ? R S IH]; apply shv_record_sizes in R; [assumption|]. rewrite app_length. lia.
Qed.
Lemma shv_section_ok j steps b w j' : shv_section j steps b w j' -> forall since max others r, since + w <= max ->
  shv j since max others (b ++ r) = calls_then steps (shv j' (since + w) max others r).
Proof.
  induction 1 as [? ? ? ? ? R|? ? ? ? ? ? ? ? ? R S IH]; intros since max others r L; pose proof (shv_record_sizes _ _ _ _ _ R).
  - apply shv_step_ok; [assumption|lia].
  - pose proof (shv_section_sizes _ _ _ _ _ S). rewrite <- app_assoc, (shv_step_ok _ _ _ _ _ _ _ _ _ R) by lia.
    rewrite IH, calls_calls, Z.add_assoc by lia. reflexivity.
Qed.
Lemma shv_design_sizes j steps b counts : shv_design j steps b counts -> (2 <= List.length b)%nat /\ exists w others, counts = w :: others /\ 1 <= w.
Proof. intros H. destruct H as [? ? ? ? ? ? S ?|? ? ? ? ? ? ? ? S D]; apply shv_section_sizes in S; rewrite app_length; split; try lia; do 2 eexists; (split; [reflexivity|lia]). Qed.
Lemma shv_design_ok j steps b counts : shv_design j steps b counts -> forall w others, counts = w :: others -> shv j 0 w others b = Ok steps.
Proof.
  induction 1 as [j steps b w j' tail S T|j steps b w j' steps' b' counts S D IH]; intros w' others E; injection E as <- <-.
  - rewrite (shv_section_ok _ _ _ _ _ S) by lia. unfold short in T. unfold shv.
    destruct tail as [|a [|a' t]]; [..|cbn [List.length] in T; lia]; cbn [shv_loop calls_then bindr]; rewrite app_nil_r; reflexivity.
  - destruct (shv_design_sizes _ _ _ _ D) as (B & w' & others & -> & W). rewrite (shv_section_ok _ _ _ _ _ S) by lia.
    rewrite shv_change, (IH w' others eq_refl) by lia. cbn [calls_then bindr]. reflexivity.
Qed.
(** *** Whole files *)
Lemma s_int_at rd p enc v r : rd (enc ++ r) = (Some v, r) -> s_int rd (p, enc ++ r) = (Some v, (p + zlen enc, r)).
Proof. intros E. unfold s_int. cbn [fst snd]. rewrite E. unfold zlen. rewrite app_length. eqs. Qed.
Lemma s_byte_at p b r : s_int read_int_8 (p, b :: r) = (Some b, (p + 1, r)).
Proof. unfold s_int, zlen. cbn [fst snd read_int_8 firstn skipn List.length]. eqs. Qed.
Lemma s_seek_at p n a r : zlen a = n -> s_seek n (p, a ++ r) = (p + n, r).
Proof. intros <-. unfold s_seek, zlen. cbn [fst snd]. f_equal. apply skip_header. lia. Qed.
Lemma s_read_at p n a r : zlen a = n -> s_read n (p, a ++ r) = (a, (p + n, r)).
Proof.
  intros <-. unfold s_read, zlen. cbn [fst snd]. destruct (Z.ltb_spec (Z.of_nat (List.length a)) 0); [lia|]. rewrite Nat2Z.id.
  rewrite firstn_app, Nat.sub_diag, firstn_all. cbn [firstn]. rewrite app_nil_r. f_equal. f_equal. apply skip_header. lia.
Qed.
Lemma seek_to_at a n r : zlen a = n -> seek_to (a ++ r) n = (n, r).
Proof. intros <-. unfold seek_to, zlen. f_equal. apply skip_header. lia. Qed.
Lemma be32_read v r : 0 <= v < 2 ^ 32 -> read_int_32be (be32 v ++ r) = (Some v, r).
Proof.
  intros H. unfold be32, read_int_32be. cbn [app firstn skipn]. unfold b8. rewrite !land_ff, !Z.shiftl_mul_pow2 by lia.
  change (2 ^ 8) with 256. change (2 ^ 16) with 65536. change (2 ^ 24) with 16777216. change (2 ^ 32) with 4294967296 in H. f_equal. f_equal. lia.
Qed.
Lemma shv_colors_read : forall table p r, Forall (fun t => 0 <= shv_count t < 2 ^ 32 /\ zlen (shv_gap t) = 9) table ->
  shv_colors (List.length table) (p, flat_map shv_entry table ++ r) = Ok (map (fun t => (shv_code t mod 43, shv_count t)) table, (p + 14 * zlen table, r)).
Proof.
  induction table as [|t table IH]; intros p r H.
  - cbn [List.length shv_colors flat_map app map]. unfold zlen. cbn [List.length]. eqs.
  - inversion H as [|? ? [A B] H2]; subst. cbn [List.length shv_colors flat_map map]. unfold shv_entry at 1. rewrite <- !app_assoc.
    rewrite (s_int_at _ _ _ _ _ (be32_read _ _ A)). cbn [app]. rewrite s_byte_at. rewrite s_seek_at by exact B. rewrite IH by exact H2. cbn [bindr].
    unfold zlen; cbn [List.length be32]; eqs.
Qed.
Theorem read_shv header name w h picture gap table last code gap7 steps bytes counts :
  zlen header = 0x56 -> zlen picture = 4 + (h + 1) / 2 * w -> zlen gap = 18 -> zlen name < 256 ->
  0 <= h -> 0 <= w ->
  Forall (fun t => 0 <= shv_count t < 2 ^ 32 /\ zlen (shv_gap t) = 9) table -> 0 <= last < 2 ^ 32 -> zlen gap7 = 7 -> zlen table < 255 ->
  counts = map shv_count table ++ [last] -> shv_design false steps bytes counts ->
  shv_read (header ++ [zlen name] ++ name ++ [w; h] ++ picture ++ [zlen table + 1] ++ gap ++ flat_map shv_entry table ++ be32 last ++ [code] ++ gap7 ++ bytes)
  = Ok (utf8_decode name, map (fun t => shv_code t mod 43) table ++ [code mod 43], closed (apply_rel 0 0 steps)).
Proof.
  intros Hh Hp Hg Hn H0 W0 Ht Hl H7 Hc Ec D. unfold shv_read. set (file := header ++ _).
  assert (S : seek_to file 0x56 = (0x56, [zlen name] ++ name ++ [w; h] ++ picture ++ [zlen table + 1] ++ gap ++ flat_map shv_entry table ++ be32 last ++ [code] ++ gap7 ++ bytes))
    by (apply seek_to_at; exact Hh). rewrite S. cbn [app]. rewrite s_byte_at. unfold read_string_8. rewrite s_read_at by reflexivity.
  rewrite s_byte_at, s_byte_at. cbn [some bindr]. rewrite s_seek_at by exact Hp. rewrite s_byte_at. rewrite s_seek_at by exact Hg. cbn [some bindr].
  set (p := 86 + 1 + zlen name + 1 + 1 + (4 + (h + 1) / 2 * w) + 1 + 18).
  pose proof (shv_design_sizes _ _ _ _ D) as (Lb & _).
  set (t := {| shv_count := last; shv_code := code; shv_gap := gap7 ++ firstn 2 bytes |}).
  replace (flat_map shv_entry table ++ be32 last ++ code :: gap7 ++ bytes) with (flat_map shv_entry (table ++ [t]) ++ skipn 2 bytes).
  2: { rewrite flat_map_app. cbn [flat_map]. unfold shv_entry at 2. subst t. cbn [shv_count shv_code shv_gap]. rewrite app_nil_r, <- !app_assoc. cbn [app]. rewrite firstn_skipn. reflexivity. }
  replace (Z.to_nat (zlen table + 1)) with (List.length (table ++ [t])) by (rewrite app_length; unfold zlen; cbn [List.length]; lia).
  rewrite shv_colors_read.
  2: { apply Forall_app. split; [exact Ht|]. constructor; [|constructor]. subst t. cbn [shv_count shv_gap]. split; [exact Hl|].
       unfold zlen in *. rewrite app_length, firstn_length. lia. }
  cbn [bindr].
  assert (E1 : map snd (map (fun t => (shv_code t mod 43, shv_count t)) (table ++ [t])) = counts).
  { rewrite map_map, map_app, Ec. reflexivity. }
  assert (E2 : map fst (map (fun t => (shv_code t mod 43, shv_count t)) (table ++ [t])) = map (fun t => shv_code t mod 43) table ++ [code mod 43]).
  { rewrite map_map, map_app. reflexivity. }
  rewrite E1, E2. destruct (shv_design_sizes _ _ _ _ D) as (_ & w1 & others & Eq & _). rewrite Eq.
  assert (Q : snd (seek_to file (p + 14 * zlen (table ++ [t]) - 2)) = bytes).
  { unfold seek_to. cbn [snd]. subst file.
    replace (header ++ [zlen name] ++ name ++ [w; h] ++ picture ++ [zlen table + 1] ++ gap ++ flat_map shv_entry table ++ be32 last ++ [code] ++ gap7 ++ bytes)
      with ((header ++ [zlen name] ++ name ++ [w; h] ++ picture ++ [zlen table + 1] ++ gap ++ flat_map shv_entry table ++ be32 last ++ [code] ++ gap7) ++ bytes)
      by (rewrite <- !app_assoc; reflexivity).
    apply skip_header. rewrite !app_length. cbn [List.length be32].
    assert (F : List.length (flat_map shv_entry table) = (14 * List.length table)%nat).
    { clear - Ht. induction Ht as [|a l [_ B] _ IH]; [reflexivity|]. cbn [flat_map List.length]. unfold shv_entry at 1. rewrite !app_length, IH. unfold zlen in B. cbn [List.length be32]. lia. }
    rewrite F. subst p. clear - Hh Hp Hg H7. unfold zlen in *. rewrite app_length. cbn [List.length]. lia. }
  cbn [fst]. rewrite Q. fold (shv false 0 w1 others bytes). rewrite (shv_design_ok _ _ _ _ D w1 others Eq).
  unfold ended. cbn [bindr]. rewrite apply_rel_end. reflexivity.
Qed.

(** ** HUS *)
Lemma two8_opp_signed v : signed_byte v -> - signed8 (two8 (- v)) = v.
Proof. intros H. unfold signed_byte in H. rewrite two8_signed by lia. lia. Qed.
Lemma hus_decode l c x y : hus_stores l c x y -> hus_calls c x y = l.
Proof.
  induction 1 as [dx dy l c x y A B H IH|dx dy l c x y A B H IH|dx dy l c x y A B H IH|dx dy l c x y A B H IH| |]; try reflexivity;
    cbn [hus_calls]; closedb; rewrite two8_opp_signed, two8_signed, IH by (unfold signed_byte in *; lia); try reflexivity.
  unfold also. cbn [orb]. destruct (Z.eqb_spec dx 0), (Z.eqb_spec dy 0); reflexivity.
Qed.
Lemma le16_any a b r p : s_int read_int_16le (p, a :: b :: r) = (fst (read_int_16le [a; b]), (p + 2, r)).
Proof. unfold s_int, zlen. cbn [fst snd read_int_16le firstn skipn List.length]. eqs. Qed.
Lemma hus_threads_read : forall indices p r, Forall (fun i => 0 <= i < 29) indices ->
  hus_threads (List.length indices) (p, flat_map le16 indices ++ r) = Ok (indices, (p + 2 * zlen indices, r)).
Proof.
  induction indices as [|i indices IH]; intros p r H.
  - cbn [List.length hus_threads flat_map app]. unfold zlen. cbn [List.length]. eqs.
  - inversion H as [|? ? A H2]; subst. cbn [List.length hus_threads flat_map]. rewrite <- app_assoc.
    rewrite (s_int_at _ _ _ _ _ (le16_count i _ ltac:(lia))). cbn [some bindr]. destruct (Z.ltb_spec i 29); [|lia].
    rewrite IH by exact H2. cbn [bindr]. unfold zlen. cbn [List.length le16]. eqs.
Qed.
Lemma between_at pre mid post : read_between (pre ++ mid ++ post) (zlen pre) (zlen pre + zlen mid) = Ok mid.
Proof.
  unfold read_between. assert (0 <= zlen mid) by (unfold zlen; lia). destruct (Z.ltb_spec (zlen pre + zlen mid - zlen pre) (-1)); [lia|].
  rewrite seek_to_at by reflexivity. rewrite s_read_at by lia. reflexivity.
Qed.
Lemma parts_at h cs xs ys co : zlen h = co -> let file := h ++ cs ++ xs ++ ys in
  read_between file co (co + zlen cs) = Ok cs /\ read_between file (co + zlen cs) (co + zlen cs + zlen xs) = Ok xs
  /\ skipn (Z.to_nat (co + zlen cs + zlen xs)) file = ys.
Proof.
  intros <- file. subst file. split; [apply between_at|]. split.
  - replace (h ++ cs ++ xs ++ ys) with ((h ++ cs) ++ xs ++ ys) by (rewrite <- app_assoc; reflexivity).
    replace (zlen h + zlen cs) with (zlen (h ++ cs)) by (unfold zlen; rewrite app_length; lia). apply between_at.
  - rewrite !app_assoc. apply skip_header. unfold zlen. rewrite !app_length. lia.
Qed.
Theorem read_hus fuel magic e1 e2 e3 e4 e5 e6 e7 e8 label u1 u2 indices cs xs ys c x y l :
  let head n co xo yo := le32 magic ++ le32 n ++ le32 (zlen indices) ++ [e1; e2; e3; e4; e5; e6; e7; e8] ++ le32 co ++ le32 xo ++ le32 yo ++ label ++ [u1; u2] ++ flat_map le16 indices in
  let co := 42 + 2 * zlen indices in
  let xo := co + zlen cs in
  let yo := xo + zlen xs in
  zlen label = 8 -> 0 <= magic < 2 ^ 32 -> Forall (fun i => 0 <= i < 29) indices -> yo < 2 ^ 32 -> zlen c < 2 ^ 32 ->
  expand fuel cs (Some (zlen c)) = Ok c -> expand fuel xs (Some (zlen c)) = Ok x -> expand fuel ys (Some (zlen c)) = Ok y ->
  hus_stores l c x y ->
  hus_read fuel (head (zlen c) co xo yo ++ cs ++ xs ++ ys) = Ok (indices, closed (apply_rel 0 0 l)).
Proof.
  intros head co xo yo Hlb Hm Hi Hy Hc Ec Ex Ey H.
  assert (P : 0 <= zlen indices /\ 0 <= zlen cs /\ 0 <= zlen xs /\ 0 <= zlen c) by (unfold zlen; lia). destruct P as (P1 & P2 & P3 & P4).
  unfold hus_read. set (file := head _ _ _ _ ++ _).
  assert (EF : file = le32 magic ++ le32 (zlen c) ++ le32 (zlen indices) ++ [e1; e2; e3; e4; e5; e6; e7; e8] ++ le32 co ++ le32 xo ++ le32 yo ++ label ++ [u1; u2] ++ flat_map le16 indices ++ cs ++ xs ++ ys).
  { unfold file, head. rewrite <- !app_assoc. reflexivity. }
  rewrite EF at 1. rewrite (s_int_at _ _ _ _ _ (le32_read _ _ Hm)).
  rewrite (s_int_at _ _ _ _ _ (le32_read (zlen c) _ ltac:(lia))).
  rewrite (s_int_at _ _ _ _ _ (le32_read (zlen indices) _ ltac:(lia))).
  cbn [app]. rewrite le16_any. cbn [read_int_16le firstn fst some bindr].
  rewrite le16_any. cbn [read_int_16le firstn fst some bindr].
  rewrite le16_any. cbn [read_int_16le firstn fst some bindr].
  rewrite le16_any. cbn [read_int_16le firstn fst some bindr].
  rewrite (s_int_at _ _ _ _ _ (le32_read co _ ltac:(lia))).
  rewrite (s_int_at _ _ _ _ _ (le32_read xo _ ltac:(lia))).
  rewrite (s_int_at _ _ _ _ _ (le32_read yo _ ltac:(lia))).
  unfold read_string_8. rewrite s_read_at by exact Hlb. rewrite le16_any. cbn [some bindr].
  assert (Lh : zlen (head (zlen c) co xo yo) = co).
  { unfold head, co, zlen in *. rewrite !app_length. cbn [List.length le32].
    assert (F : List.length (flat_map le16 indices) = (2 * List.length indices)%nat) by (clear; induction indices; cbn [flat_map List.length]; rewrite ?app_length; cbn [List.length le16]; lia).
    lia. }
  assert (Lf : zlen indices <= zlen file).
  { unfold file. assert (zlen (head (zlen c) co xo yo ++ cs ++ xs ++ ys) = zlen (head (zlen c) co xo yo) + zlen (cs ++ xs ++ ys)) by (unfold zlen; rewrite app_length; lia).
    assert (0 <= zlen (cs ++ xs ++ ys)) by (unfold zlen; lia). lia. }
  rewrite Z.min_l by exact Lf. replace (Z.to_nat (zlen indices)) with (List.length indices) by (unfold zlen; lia).
  rewrite hus_threads_read by exact Hi. cbn [bindr].
  destruct (parts_at (head (zlen c) co xo yo) cs xs ys co Lh) as (B1 & B2 & B3). fold file in B1, B2, B3. fold xo in B1, B2, B3. fold yo in B2, B3.
  rewrite B1. cbn [bindr]. rewrite B2. cbn [bindr]. rewrite B3, Ec. cbn [bindr]. rewrite Ex. cbn [bindr]. rewrite Ey. cbn [bindr].
  rewrite (hus_decode _ _ _ _ H). unfold ended. cbn [bindr]. rewrite apply_rel_end. reflexivity.
Qed.
