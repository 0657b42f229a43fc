(** More record formats, files with headers, truncated and arbitrary files. *)
From Coq Require Import ZArith List Bool Lia.
From Verif Require Import PyBase EmbConst StreamModel StreamSpec StreamProofs HelperModel HelperProofs FunctionsModel PatternModel
  ExpModel DstFileModel RecordModel RecordSpec RecordProofs BitLemmas.
Import ListNotations.
Open Scope Z_scope.

Lemma byte_sweep (P : Z -> bool) : forallb P (map Z.of_nat (seq 0 256)) = true -> forall b, 0 <= b < 256 -> P b = true.
Proof.
  intros H b Hb. rewrite forallb_forall in H. apply H. apply in_map_iff. exists (Z.to_nat b). split; [lia|]. apply in_seq. lia.
Qed.

(** MIT *)
Lemma byte_fields b : 0 <= b < 256 -> Z.land b 0x1F = b mod 32 /\ Z.land b 0x60 = 32 * ((b / 32) mod 4) /\ flag b 128 = (128 <=? b).
Proof.
  intros H. pose proof (byte_sweep (fun b => (Z.land b 0x1F =? b mod 32) && (Z.land b 0x60 =? 32 * ((b / 32) mod 4))
    && Bool.eqb (flag b 128) (128 <=? b)) ltac:(vm_compute; reflexivity) b H) as E. cbv beta in E.
  rewrite !andb_true_iff, !Z.eqb_eq, eqb_true_iff in E. tauto.
Qed.
Lemma mit_ctrl k : 0 <= k < 16 -> Z.lor (Z.shiftr (32 * (k / 4)) 3) (Z.shiftr (32 * (k mod 4)) 5) = k.
Proof.
  intros H. pose proof (byte_sweep (fun k => (16 <=? k) || (Z.lor (Z.shiftr (32 * (k / 4)) 3) (Z.shiftr (32 * (k mod 4)) 5) =? k))
    ltac:(vm_compute; reflexivity) k ltac:(lia)) as E. cbv beta in E. apply orb_true_iff in E as [E|E]; lia.
Qed.
Lemma mit_byte m q : five m -> 0 <= q < 4 ->
  let b := neg m 0x80 + q * 32 + Z.abs m in Z.land b 0x1F = Z.abs m /\ Z.land b 0x60 = 32 * q /\ flag b 128 = (m <? 0).
Proof.
  intros H Q b. assert (B : 0 <= b < 256) by (unfold b, neg, five in *; destruct (Z.ltb_spec m 0); lia).
  destruct (byte_fields b B) as (E1 & E2 & E3). rewrite E1, E2, E3. clear E1 E2 E3. unfold b, neg, five in *.
  destruct (Z.ltb_spec m 0); (split; [lia|split; [lia|]]); destruct (128 <=? _) eqn:E; try reflexivity; lia.
Qed.
Lemma mit_code_ctrl p k dx dy steps : mit_code p k dx dy steps -> 0 <= k < 16.
Proof. intros []; lia. Qed.
Lemma mit_step p steps b p' r : rec_mit p steps b p' -> loop2 mit_body p (b ++ r) = calls_then steps (loop2 mit_body p' r).
Proof.
  intros [q k m n st A B C]. apply step2. pose proof (mit_code_ctrl _ _ _ _ _ C) as K.
  assert (Eb : pos n 128 = neg (- n) 128) by (unfold pos, neg; destruct (Z.ltb_spec 0 n), (Z.ltb_spec (- n) 0); lia).
  rewrite Eb. replace (Z.abs n) with (Z.abs (- n)) by lia.
  destruct (mit_byte m (k / 4) A ltac:(lia)) as (E1 & E2 & E3). destruct (mit_byte (- n) (k mod 4) ltac:(unfold five in *; lia) ltac:(lia)) as (F1 & F2 & F3).
  unfold mit_body. rewrite E1, E2, E3, F1, F2, F3, (mit_ctrl k K). cbv zeta.
  assert (Ex : (if m <? 0 then - (Z.abs m * 2) else Z.abs m * 2) = 2 * m) by (destruct (Z.ltb_spec m 0); lia).
  assert (Ey : (if - n <? 0 then - (- Z.abs (- n) * 2) else - Z.abs (- n) * 2) = 2 * n) by (destruct (Z.ltb_spec (- n) 0); lia).
  rewrite Ex, Ey. inversion C; subst.
  - cbn [In] in H0. destruct (Z.eqb_spec k 7); [subst; reflexivity|]. destruct (Z.eqb_spec k 12); [exfalso; lia|].
    destruct (Z.eqb_spec k 4); [reflexivity|]. destruct (Z.eqb_spec k 5); [reflexivity|].
    destruct (Z.eqb_spec k 8); [exfalso; lia|]. destruct (Z.eqb_spec k 0); [exfalso; lia|]. reflexivity.
  - reflexivity.
  - reflexivity.
  - closedb. destruct (Z.eqb_spec q 7); [contradiction|]. reflexivity.
  - reflexivity.
Qed.
Theorem read_mit l bytes : stores rec_mit stops_mit (-1) 0 0 l bytes -> mit_read bytes = Ok (closed l).
Proof. apply (stores_ended (loop2 mit_body)); [intros; apply loop2_short; assumption|exact mit_step]. Qed.

(** NEW *)
Lemma new_step s steps b s' r : rec_new s steps b s' -> loop3 new_body s (b ++ r) = calls_then steps (loop3 new_body s' r).
Proof.
  intros [h dx dy T A B|h dx dy T A B|h u v T]; apply step3; unfold new_body; destruct T; subst h;
    [signs dx dy; closedb; abs_eq..|reflexivity|reflexivity].
Qed.
Lemma new_stop s tail : stops_new tail -> loop3 new_body s tail = Ok [].
Proof. intros [H|(u & v & h & r & T & ->)]; [apply loop3_short; exact H|]. destruct T; subst h; reflexivity. Qed.
Theorem read_new l header bytes : List.length header = 2%nat -> stores rec_new stops_new tt 0 0 l bytes ->
  new_read (header ++ bytes) = Ok (closed l).
Proof.
  intros Hl H. unfold new_read. rewrite skip_header by exact Hl.
  revert H. apply (stores_ended (loop3 new_body)); [exact new_stop|exact new_step].
Qed.

(** SEW *)
Lemma sew_step s steps b s' r : rec_sew s steps b s' -> loop2 sew_body None (b ++ r) = calls_then steps (loop2 sew_body None r).
Proof.
  intros [dx dy A B|dx dy A B|k dx dy A B K|k u v K].
  - apply step2. unfold sew_body. rewrite two8_not_80, !two8_signed by (unfold signed_byte in *; lia). cbn [negb]. eqs.
  - apply (step22 _ _ _ _ _ _ (Some 0x10)); [reflexivity|]. unfold sew_body. rewrite !two8_signed by (unfold signed_byte in *; lia). closedb. eqs.
  - apply (step22 _ _ _ _ _ _ (Some k)); [reflexivity|]. unfold sew_body. rewrite !two8_signed by (unfold signed_byte in *; lia).
    destruct K; subst k; closedb; eqs.
  - apply (step22 _ _ _ _ _ _ (Some k)); [reflexivity|]. unfold sew_body. rewrite flag_odd, K. reflexivity.
Qed.
Lemma sew_stop tail : stops_sew tail -> loop2 sew_body None tail = Ok [].
Proof. intros [H|(u & v & r & ->)]; [apply loop2_short; exact H|]. reflexivity. Qed.
Theorem stitches_sew l bytes : stores rec_sew stops_sew tt 0 0 l bytes -> ended (loop2 sew_body None bytes) = Ok (closed l).
Proof. apply (stores_ended (fun _ => loop2 sew_body None)); [intros _; exact sew_stop|exact sew_step]. Qed.

(** STC *)
Lemma stc_step s steps b s' r : rec_stc s steps b s' -> loop3 stc_body s (b ++ r) = calls_then steps (loop3 stc_body s' r).
Proof.
  intros [dx dy A B|dx dy A B|n u v N K]; apply step3; unfold stc_body.
  - rewrite !two8_signed by (unfold signed_byte in *; lia). closedb. eqs.
  - rewrite !two8_signed by (unfold signed_byte in *; lia). closedb. eqs.
  - destruct (Z.eqb_spec (n + 2) 1); [lia|]. destruct (Z.eqb_spec (n + 2) 0); [lia|]. destruct (Z.eqb_spec (n + 2) 25); [lia|].
    replace (n + 2 - 2) with n by lia. reflexivity.
Qed.
Lemma stc_stop s tail : stops_stc tail -> loop3 stc_body s tail = Ok [].
Proof. intros [H|(u & v & r & ->)]; [apply loop3_short; exact H|]. reflexivity. Qed.
Theorem read_stc l header bytes : List.length header = 0x28%nat -> stores rec_stc stops_stc tt 0 0 l bytes ->
  stc_read (header ++ bytes) = Ok (closed l).
Proof.
  intros Hl H. unfold stc_read. rewrite skip_header by exact Hl.
  revert H. apply (stores_ended (loop3 stc_body)); [exact stc_stop|exact stc_step].
Qed.

(** ZXY *)
Lemma zxy_step s steps b s' r : rec_zxy s steps b s' -> loop3 zxy_body s (b ++ r) = calls_then steps (loop3 zxy_body s' r).
Proof.
  intros [dx dy A B|dx dy A B|n u U]; apply step3; unfold zxy_body; [signs dx dy; closedb; abs_eq..|].
  closedb. destruct (Z.eqb_spec u 0xFF); [contradiction|]. reflexivity.
Qed.
Lemma zxy_stop s tail : stops_zxy tail -> loop3 zxy_body s tail = Ok [].
Proof. intros [H|(u & r & ->)]; [apply loop3_short; exact H|]. reflexivity. Qed.
Theorem read_zxy l b0 skipped bytes : zlen skipped < 65536 -> stores rec_zxy stops_zxy tt 0 0 l bytes ->
  zxy_read (b0 :: be16 (zlen skipped) ++ skipped ++ bytes) = Ok (closed l).
Proof.
  intros Hl H. unfold zxy_read, be16, two16, read_int_16be. assert (N : 0 <= zlen skipped) by (unfold zlen; lia).
  cbn [skipn app firstn]. unfold b8. rewrite !land_ff, Z.shiftl_mul_pow2 by lia. change (2 ^ 8) with 256.
  replace (((zlen skipped mod 65536) mod 256) mod 256 + ((zlen skipped mod 65536 / 256) mod 256) * 256) with (zlen skipped) by lia.
  rewrite skip_header by (unfold zlen; lia).
  revert H. apply (stores_ended (loop3 zxy_body)); [exact zxy_stop|exact zxy_step].
Qed.

(** BRO *)
Lemma le16_read v r : word v -> read_int_16le (le16 v ++ r) = (Some (two16 v), r) /\ signed16 (two16 v) = v.
Proof.
  unfold word, le16, two16, read_int_16le, signed16. intros H. cbn [app firstn skipn]. unfold b8. rewrite !land_ff, land_ffff, Z.shiftl_mul_pow2 by lia.
  change (2 ^ 8) with 256. split; [f_equal; f_equal; lia|]. destruct (_ >? _) eqn:E; lia.
Qed.
Lemma be16_read v r : word v -> read_int_16be (be16 v ++ r) = (Some (two16 v), r) /\ signed16 (two16 v) = v.
Proof.
  unfold word, be16, two16, read_int_16be, signed16. intros H. cbn [app firstn skipn]. unfold b8. rewrite !land_ff, land_ffff, Z.shiftl_mul_pow2 by lia.
  change (2 ^ 8) with 256. split; [f_equal; f_equal; lia|]. destruct (_ >? _) eqn:E; lia.
Qed.
(** Enough passes make no difference. *)
Lemma bro_more : forall fuel bytes, (List.length bytes < fuel)%nat -> forall k, bro_loop (fuel + k) bytes = bro_loop fuel bytes.
Proof.
  induction fuel as [|fuel IH]; intros bytes H k; [lia|]. cbn [Nat.add bro_loop].
  destruct bytes as [|b0 [|b1 r]]; [reflexivity|reflexivity|]. cbn [List.length] in H.
  assert (G : forall n, bro_loop (fuel + k) (skipn n r) = bro_loop fuel (skipn n r)) by (intros n; apply IH; rewrite skipn_length; lia).
  assert (G0 : bro_loop (fuel + k) r = bro_loop fuel r) by (apply (G 0%nat)).
  destruct (negb _); [rewrite G0; reflexivity|].
  destruct r as [|c r]; [reflexivity|]. pose proof (G 1%nat) as G1. cbn [skipn] in G1. cbn [read_int_8 firstn skipn].
  assert (F : forall calls,
    (let '(x, r0) := read_int_16le r in
     match x with None => Err TypeError | Some x => let '(y, r1) := read_int_16le r0 in
       match y with None => Err TypeError | Some y => calls_then (calls ++ [mkS (signed16 x) (- signed16 y) JUMP]) (bro_loop (fuel + k) r1) end end)
    = (let '(x, r0) := read_int_16le r in
     match x with None => Err TypeError | Some x => let '(y, r1) := read_int_16le r0 in
       match y with None => Err TypeError | Some y => calls_then (calls ++ [mkS (signed16 x) (- signed16 y) JUMP]) (bro_loop fuel r1) end end)).
  { intros calls. destruct r as [|a [|b r]]; [reflexivity..|]. cbn [read_int_16le firstn skipn].
    destruct r as [|a' [|b' r]]; [reflexivity..|]. cbn [read_int_16le firstn skipn]. pose proof (G 5%nat) as G5. cbn [skipn] in G5. rewrite G5. reflexivity. }
  cbv zeta. rewrite !F, G1. reflexivity.
Qed.
Definition bro (_ : unit) (bytes : list Z) : res (list rel) := bro_loop (S (List.length bytes)) bytes.
Lemma bro_fuel fuel bytes : (List.length bytes < fuel)%nat -> bro_loop fuel bytes = bro tt bytes.
Proof.
  intros H. unfold bro. replace fuel with (S (List.length bytes) + (fuel - S (List.length bytes)))%nat by lia. apply bro_more. lia.
Qed.
Lemma bro_step s steps b s' r : rec_bro s steps b s' -> bro s (b ++ r) = calls_then steps (bro s' r).
Proof.
  intros H. unfold bro at 1. remember (List.length (b ++ r)) as N eqn:EN.
  destruct H as [dx dy A B|k u dx dy A B K|n u dx dy A B K|u]; rewrite ?app_length in EN; cbn [List.length le16] in EN; cbn [app bro_loop].
  - rewrite two8_not_80, !two8_signed by (unfold signed_byte in *; lia). cbn [negb]. rewrite bro_fuel by lia. eqs.
  - closedb. cbn [read_int_8 firstn skipn]. cbv zeta. rewrite <- !app_assoc.
    destruct (le16_read dx (le16 (- dy) ++ r) A) as [E1 E2]. destruct (le16_read (- dy) r ltac:(unfold word in *; lia)) as [E3 E4].
    rewrite E1, E3, E2, E4, (bro_fuel N r) by lia. cbn [app].
    destruct K; subst k; closedb; eqs.
  - closedb. cbn [read_int_8 firstn skipn]. cbv zeta. rewrite <- !app_assoc.
    destruct (le16_read dx (le16 (- dy) ++ r) A) as [E1 E2]. destruct (le16_read (- dy) r ltac:(unfold word in *; lia)) as [E3 E4].
    rewrite E1, E3, E2, E4, (bro_fuel N r) by lia. rewrite Z.opp_involutive.
    assert (I : In n [1; 2; 3; 4; 5; 6; 7; 8; 9; 10; 11; 12; 13; 14; 15]) by (cbn [In]; lia).
    cbn [In] in I. repeat (destruct I as [<-|I]; [reflexivity|]). contradiction.
  - closedb. cbn [read_int_8 firstn skipn]. closedb. rewrite bro_fuel by lia. rewrite calls_nil. reflexivity.
Qed.
Lemma bro_stop s tail : stops_bro tail -> bro s tail = Ok [].
Proof.
  intros [H|(u & r & ->)]; [|reflexivity]. unfold bro. destruct tail as [|a [|b r]]; try reflexivity. shorts H. lia.
Qed.
Theorem read_bro l header bytes : List.length header = 0x100%nat -> stores rec_bro stops_bro tt 0 0 l bytes ->
  bro_read (header ++ bytes) = Ok (closed l).
Proof.
  intros Hl H. unfold bro_read. rewrite skip_header by exact Hl.
  revert H. apply (stores_ended bro); [exact bro_stop|exact bro_step].
Qed.

(** SPX *)
Lemma spx_more : forall fuel bytes, (List.length bytes < fuel)%nat -> forall k, spx_loop (fuel + k) bytes = spx_loop fuel bytes.
Proof.
  induction fuel as [|fuel IH]; intros bytes H k; [lia|]. cbn [Nat.add spx_loop].
  destruct bytes as [|b0 [|b1 [|a [|b [|c [|d [|e [|f [|g r]]]]]]]]]; try reflexivity. cbn [List.length] in H.
  unfold read_int_16be, read_int_8. cbn [firstn skipn]. rewrite IH by lia. reflexivity.
Qed.
Definition spx (_ : unit) (bytes : list Z) : res (list rel) := spx_loop (S (List.length bytes)) bytes.
Lemma spx_fuel fuel bytes : (List.length bytes < fuel)%nat -> spx_loop fuel bytes = spx tt bytes.
Proof.
  intros H. unfold spx. replace fuel with (S (List.length bytes) + (fuel - S (List.length bytes)))%nat by lia. apply spx_more. lia.
Qed.
Lemma spx_step s steps b s' r : rec_spx s steps b s' -> spx s (b ++ r) = calls_then steps (spx s' r).
Proof.
  intros H. unfold spx at 1. remember (List.length (b ++ r)) as N eqn:EN.
  destruct H as [u v w z dx a c A B C]. rewrite !app_length in EN. cbn [List.length] in EN. rewrite <- !app_assoc. cbn [app spx_loop].
  destruct (be16_read a (be16 dx ++ two8 c :: w :: z :: r) B) as [E1 E2].
  destruct (be16_read dx (two8 c :: w :: z :: r) A) as [E3 E4].
  rewrite E1, E3. cbn [read_int_8 firstn skipn]. rewrite E2, E4, two8_signed by (unfold signed_byte in *; lia).
  rewrite spx_fuel by lia. reflexivity.
Qed.
Lemma spx_stop s tail : stops_spx tail -> spx s tail = Ok [].
Proof. unfold stops_spx. intros H. unfold spx. destruct tail as [|a [|b r]]; try reflexivity. shorts H. lia. Qed.
Theorem read_spx l header bytes : List.length header = 0x11E%nat -> stores rec_spx stops_spx tt 0 0 l bytes ->
  spx_read (header ++ bytes) = Ok l.
Proof.
  intros Hl H. unfold spx_read. rewrite skip_header by exact Hl.
  destruct (stores_loop spx _ _ spx_stop spx_step _ _ _ _ _ H) as (ev & E & <-). unfold spx in E. rewrite E. reflexivity.
Qed.

(** ZHS *)
Lemma land_part x y m k : Z.land m (Z.lnot 0) = m -> Z.land 0x55 m = m -> Z.land 0xAA m = 0 -> k = Z.land x 0x55 + Z.land y 0xAA -> Z.land k m = Z.land x m.
Proof.
  intros _ H1 H2 ->. assert (D : Z.land (Z.land x 0x55) (Z.land y 0xAA) = 0).
  { rewrite <- Z.land_assoc, (Z.land_assoc 0x55), (Z.land_comm 0x55 y), <- (Z.land_assoc y). change (Z.land 0x55 0xAA) with 0. rewrite !Z.land_0_r. reflexivity. }
  rewrite Z.add_nocarry_lxor, Z.lxor_lor by exact D. rewrite Z.land_lor_distr_l, <- !Z.land_assoc, H1, H2, Z.land_0_r, Z.lor_0_r. reflexivity.
Qed.
Lemma land_part' x y m k : Z.land 0x55 m = 0 -> Z.land 0xAA m = m -> k = Z.land x 0x55 + Z.land y 0xAA -> Z.land k m = Z.land y m.
Proof.
  intros H1 H2 ->. assert (D : Z.land (Z.land x 0x55) (Z.land y 0xAA) = 0).
  { rewrite <- Z.land_assoc, (Z.land_assoc 0x55), (Z.land_comm 0x55 y), <- (Z.land_assoc y). change (Z.land 0x55 0xAA) with 0. rewrite !Z.land_0_r. reflexivity. }
  rewrite Z.add_nocarry_lxor, Z.lxor_lor by exact D. rewrite Z.land_lor_distr_l, <- !Z.land_assoc, H1, H2, Z.land_0_r. reflexivity.
Qed.
Lemma byte_sum b : 0 <= b < 256 ->
  Z.land b 1 + Z.land b 2 + Z.land b 4 + Z.land b 8 + Z.land b 16 + Z.land b 32 + Z.land b 64 + Z.land b 128 = b.
Proof.
  intros H. pose proof (byte_sweep (fun b => Z.land b 1 + Z.land b 2 + Z.land b 4 + Z.land b 8 + Z.land b 16 + Z.land b 32 + Z.land b 64 + Z.land b 128 =? b)
    ltac:(vm_compute; reflexivity) b H) as E. cbv beta in E. lia.
Qed.
Lemma zhs_unraw v : zhs_fits v ->
  (let w := if zhs_raw v >=? 63 then zhs_raw v + 1 else zhs_raw v in if w <=? -63 then w - 1 else w) = v.
Proof.
  unfold zhs_fits, zhs_raw. intros (A & B & C). destruct (64 <=? v) eqn:E1; [destruct (_ >=? 63) eqn:E2; cbv zeta; destruct (_ <=? -63) eqn:E3; lia|].
  destruct (v <=? -64) eqn:E2; destruct (_ >=? 63) eqn:E3; cbv zeta; destruct (_ <=? -63) eqn:E4; lia.
Qed.
Lemma zhs_mix p q x : 0 <= x < 256 ->
  Z.land p 1 = Z.land x 1 -> Z.land q 2 = Z.land x 2 -> Z.land p 4 = Z.land x 4 -> Z.land q 8 = Z.land x 8 ->
  Z.land p 16 = Z.land x 16 -> Z.land q 32 = Z.land x 32 -> Z.land p 64 = Z.land x 64 -> Z.land q 128 = Z.land x 128 ->
  zhs_value p q = (let v := signed8 x in let v := if v >=? 63 then v + 1 else v in if v <=? -63 then v - 1 else v).
Proof. intros H E1 E2 E3 E4 E5 E6 E7 E8. unfold zhs_value. rewrite E1, E2, E3, E4, E5, E6, E7, E8, byte_sum by exact H. reflexivity. Qed.
Lemma two8_byte v : 0 <= two8 v < 256. Proof. unfold two8. lia. Qed.
Lemma zhs_values x y : zhs_fits x -> zhs_fits y ->
  zhs_value (zhs_first x y) (zhs_second x y) = x /\ zhs_value (zhs_second x y) (zhs_first x y) = y.
Proof.
  intros A B. assert (R : forall v, zhs_fits v -> signed8 (two8 (zhs_raw v)) = zhs_raw v).
  { intros v V. apply two8_signed. unfold zhs_fits, zhs_raw in *. destruct (64 <=? v) eqn:E; [lia|]. destruct (v <=? -64) eqn:E'; lia. }
  assert (S2 : zhs_second x y = Z.land (two8 (zhs_raw y)) 0x55 + Z.land (two8 (zhs_raw x)) 0xAA) by (unfold zhs_second; lia).
  split.
  - rewrite (zhs_mix _ _ (two8 (zhs_raw x))); [|apply two8_byte|..].
    + rewrite R by exact A. apply zhs_unraw. exact A.
    + eapply land_part; [reflexivity..|]. reflexivity.
    + eapply land_part'; [reflexivity..|exact S2].
    + eapply land_part; [reflexivity..|]. reflexivity.
    + eapply land_part'; [reflexivity..|exact S2].
    + eapply land_part; [reflexivity..|]. reflexivity.
    + eapply land_part'; [reflexivity..|exact S2].
    + eapply land_part; [reflexivity..|]. reflexivity.
    + eapply land_part'; [reflexivity..|exact S2].
  - rewrite (zhs_mix _ _ (two8 (zhs_raw y))); [|apply two8_byte|..].
    + rewrite R by exact B. apply zhs_unraw. exact B.
    + eapply land_part; [reflexivity..|exact S2].
    + eapply land_part'; [reflexivity..|]. reflexivity.
    + eapply land_part; [reflexivity..|exact S2].
    + eapply land_part'; [reflexivity..|]. reflexivity.
    + eapply land_part; [reflexivity..|exact S2].
    + eapply land_part'; [reflexivity..|]. reflexivity.
    + eapply land_part; [reflexivity..|exact S2].
    + eapply land_part'; [reflexivity..|]. reflexivity.
Qed.
Lemma zhs_step s steps b s' r : rec_zhs s steps b s' -> loop3 zhs_body s (b ++ r) = calls_then steps (loop3 zhs_body s' r).
Proof.
  intros [xx yy x y A B|xx yy x y A B|xx yy x y A B|xx yy u v|st u v]; apply step3; unfold zhs_body; try reflexivity;
  destruct (zhs_values x y A B) as [-> ->]; reflexivity.
Qed.
Lemma zhs_stop s tail : stops_zhs tail -> loop3 zhs_body s tail = Ok [].
Proof. intros [H|(u & v & r & ->)]; [apply loop3_short; exact H|]. reflexivity. Qed.
Theorem stitches_zhs l bytes : stores rec_zhs stops_zhs (0, 0) 0 0 l bytes -> zhs_stitches bytes = Ok (closed l).
Proof. apply (stores_ended (loop3 zhs_body)); [exact zhs_stop|exact zhs_step]. Qed.
