(** Properties of the readers of PCD, PCM, PCQ, PCS, MAX, SHV and HUS: C87 to C91. *)
From Coq Require Import ZArith QArith List Bool Lia.
From Verif Require Import PyBase EmbConst StreamModel StreamSpec FunctionsModel PatternModel ThreadModel Utf8Model Vp3Model CompressModel CompressRoundProofs
  RecordModel RecordSpec RecordMoreProofs BlockModel BlockSpec BlockProofs BlockMoreProofs BlockAnyProofs BitLemmas.
Import ListNotations.
Open Scope Z_scope.

(** ** C87: absolute positions *)
(** [scale] is what one grid step times a coordinate gives, in the arithmetic of the machine. *)
Theorem C87_pcd : forall {C} (scale : Z -> C) version hoop threads c0 c1 l bytes,
  Forall (fun t => 0 <= fst t < 16777216) threads -> zlen threads < 65536 -> pc_stores pcd_at 0 0 l bytes ->
  pcd_read scale ([version; hoop] ++ le16 (zlen threads) ++ flat_map (fun t => be24 (fst t) ++ [snd t]) threads ++ [c0; c1] ++ bytes)
  = Ok (map (fun t => Some (fst t)) threads, map (on_grid scale) (closed l)).
Proof. intros C scale. exact (read_pcd scale). Qed.
Theorem C87_pcm : forall {C} (scale : Z -> C) h0 h1 indices c0 c1 l bytes,
  Forall (fun i => 0 <= i < 16) indices -> zlen indices < 65536 -> pc_stores pcm_at 0 0 l bytes ->
  pcm_read scale ([h0; h1] ++ be16 (zlen indices) ++ flat_map be16 indices ++ [c0; c1] ++ bytes)
  = Ok (map (fun i => nth (Z.to_nat i) pcm_palette 0) indices, map (on_grid scale) (closed l)).
Proof. intros C scale. exact (read_pcm scale). Qed.
Theorem C87_max : forall {C} (scale : Z -> C) header l rest,
  zlen header = 0xD5 -> Forall (fun s => -8388608 <= fst (fst s) <= 8388607 /\ -8388608 <= snd (fst s) <= 8388607) l -> zlen l < 2 ^ 32 ->
  max_read scale (header ++ le32 (zlen l) ++ flat_map max_record l ++ rest) = Ok (map (on_grid scale) (closed (map max_stitch l))).
Proof. intros C scale. exact (read_max scale). Qed.
(** In exact arithmetic the unit of PCD, PCM, PCQ and PCS is 5/3 of a tenth of a millimetre, that of MAX 1.235 of one. *)
Theorem C87_units : forall l,
  Forall2 (fun g s => (sx s * 3 == inject_Z (sx g) * 5)%Q /\ (sy s * 3 == inject_Z (sy g) * 5)%Q /\ scmd s = scmd g) l (map (on_grid pc_unit) l) /\
  Forall2 (fun g s => (sx s * 1000 == inject_Z (sx g) * 1235)%Q /\ (sy s * 1000 == inject_Z (sy g) * 1235)%Q /\ scmd s = scmd g) l (map (on_grid max_unit) l).
Proof.
  intros l. split; induction l as [|g l IH]; cbn [map]; constructor; try exact IH; cbn [on_grid sx sy scmd]; unfold pc_unit, max_unit, Qeq, Qmult, inject_Z; cbn [Qnum Qden];
    repeat split; lia.
Qed.
Example C87_pcd_case : exists l bytes, pc_stores pcd_at 0 0 l bytes /\
  bytes = [9; 5; 0; 0; 8; 253; 255; 255; 0] ++ [1; 2; 3; 4; 5; 6; 7; 8; 3] ++ [0; 0xFF; 0xFF; 0xFF; 0; 2; 1; 0; 4] ++ [7] /\
  l = [mkS 5 3 STITCH; mkS 5 3 COLOR_CHANGE; mkS (-1) (-258) JUMP].
Proof.
  do 2 eexists. split.
  - apply (pc_sew pcd_at 0 0 5 3 9 8); [unfold grid24; lia..|]. apply (pc_color pcd_at 5 3 [1; 2; 3; 4; 5; 6; 7; 8] 3); [reflexivity..|].
    apply (pc_move pcd_at 5 3 (-1) (-258) 0 0 4); [unfold grid24; lia|unfold grid24; lia|reflexivity..|]. apply (pc_short pcd_at _ _ [7]). unfold short. cbn. lia.
  - split; reflexivity.
Qed.
Example C87_pcd_file : pcd_read pc_unit ([0x32; 0] ++ [1; 0] ++ [0x12; 0x34; 0x56; 0] ++ [2; 0] ++ [0; 3; 0; 0; 0; 250; 255; 255; 0])
  = Ok ([Some 0x123456], [mkS (15#3)%Q (30#3)%Q STITCH; mkS (15#3)%Q (30#3)%Q END]).
Proof. reflexivity. Qed.
Example C87_max_case : max_read max_unit (repeat 0 0xD5 ++ [1; 0; 0; 0] ++ [2; 0; 0; 9; 0xFF; 0xFF; 0xFF; 9]) = Ok [mkS (2470#1000)%Q (-1235#1000)%Q STITCH; mkS (2470#1000)%Q (-1235#1000)%Q END].
Proof. vm_compute. reflexivity. Qed.

(** ** C88: SHV *)
(** [table] and [last]/[code]/[gap7] are the colours; the last nine bytes of the last colour overlap the stitches by two. *)
Theorem C88_shv : forall header name w h picture gap table last code gap7 steps bytes,
  zlen header = 0x56 -> zlen picture = 4 + (h + 1) / 2 * w -> zlen gap = 18 -> zlen name < 256 -> 0 <= h -> 0 <= w ->
  Forall (fun t => 0 <= shv_count t < 2 ^ 32 /\ zlen (shv_gap t) = 9) table -> 0 <= last < 2 ^ 32 -> zlen gap7 = 7 -> zlen table < 255 ->
  shv_design false steps bytes (map shv_count table ++ [last]) ->
  shv_read (header ++ [zlen name] ++ name ++ [w; h] ++ picture ++ [zlen table + 1] ++ gap
            ++ flat_map shv_entry table ++ be32 last ++ [code] ++ gap7 ++ bytes)
  = Ok (utf8_decode name, map (fun t => shv_code t mod 43) table ++ [code mod 43], closed (apply_rel 0 0 steps)).
Proof. intros. eapply read_shv; try eassumption. reflexivity. Qed.
Example C88_case : exists steps bytes, shv_design false steps bytes [3; 4] /\
  bytes = [5; 251; 0x80; 7; 0x80; 1; 1; 0; 0xFF; 0; 9; 9] /\
  steps = [mkS 5 (-5) STITCH; mkS (-128) 7 STITCH; mkS 0 0 COLOR_CHANGE; mkS 256 (-256) JUMP; mkS 9 9 JUMP].
Proof.
  do 2 eexists. split.
  - change [3; 4] with [1 + 2; 3 + 1].
    apply (shv_next false [mkS 5 (-5) STITCH; mkS (-128) 7 STITCH] [5; 251; 0x80; 7] (1 + 2) false [mkS 256 (-256) JUMP; mkS 9 9 JUMP] [0x80; 1; 1; 0; 0xFF; 0; 9; 9] [3 + 1]).
    + apply (shv_more false [mkS 5 (-5) STITCH] [5; 251] 1 false [mkS (-128) 7 STITCH] [0x80; 7] 2 false).
      * apply (shv_step false 5 (-5)); unfold signed_byte; lia.
      * apply shv_last. apply (shv_wide false 7); cbn [In]; lia.
    + apply (shv_one false [mkS 256 (-256) JUMP; mkS 9 9 JUMP] [0x80; 1; 1; 0; 0xFF; 0; 9; 9] (3 + 1) true []).
      * apply (shv_more false [mkS 256 (-256) JUMP] [0x80; 1; 1; 0; 0xFF; 0] 3 true [mkS 9 9 JUMP] [9; 9] 1 true).
        -- apply (shv_far false 256 (-256)); lia.
        -- apply shv_last. apply (shv_step true 9 9); unfold signed_byte; lia.
      * unfold short. cbn. lia.
  - split; reflexivity.
Qed.

(** ** C89: HUS *)
(** Three compressed streams, wherever their expansion ([expand], C47 and C48) gives the streams of the design. *)
Theorem C89_hus : forall fuel magic e1 e2 e3 e4 e5 e6 e7 e8 label u1 u2 indices cs xs ys c x y l,
  let co := 42 + 2 * zlen indices in
  let xo := co + zlen cs in
  let yo := xo + zlen xs in
  zlen label = 8 -> 0 <= magic < 2 ^ 32 -> Forall (fun i => 0 <= i < 29) indices -> yo < 2 ^ 32 -> zlen c < 2 ^ 32 ->
  expand fuel cs (Some (zlen c)) = Ok c -> expand fuel xs (Some (zlen c)) = Ok x -> expand fuel ys (Some (zlen c)) = Ok y ->
  hus_stores l c x y ->
  hus_read fuel ((le32 magic ++ le32 (zlen c) ++ le32 (zlen indices) ++ [e1; e2; e3; e4; e5; e6; e7; e8] ++ le32 co ++ le32 xo ++ le32 yo
                  ++ label ++ [u1; u2] ++ flat_map le16 indices) ++ cs ++ xs ++ ys)
  = Ok (indices, closed (apply_rel 0 0 l)).
Proof. intros fuel magic e1 e2 e3 e4 e5 e6 e7 e8 label u1 u2 indices cs xs ys c x y l co xo yo. exact (read_hus fuel magic e1 e2 e3 e4 e5 e6 e7 e8 label u1 u2 indices cs xs ys c x y l). Qed.
(** With the streams as the library's own compressor stores them: designs of up to 255 records. *)
Theorem C89_hus_stored : forall magic e1 e2 e3 e4 e5 e6 e7 e8 label u1 u2 indices c x y l,
  let cs := compress c in let xs := compress x in let ys := compress y in
  let co := 42 + 2 * zlen indices in
  let xo := co + zlen cs in
  let yo := xo + zlen xs in
  zlen label = 8 -> 0 <= magic < 2 ^ 32 -> Forall (fun i => 0 <= i < 29) indices -> zlen indices < 65536 ->
  Forall (fun b => 0 <= b < 256) c -> Forall (fun b => 0 <= b < 256) x -> Forall (fun b => 0 <= b < 256) y ->
  0 < zlen c < 256 -> zlen x = zlen c -> zlen y = zlen c ->
  hus_stores l c x y ->
  hus_read 255 ((le32 magic ++ le32 (zlen c) ++ le32 (zlen indices) ++ [e1; e2; e3; e4; e5; e6; e7; e8] ++ le32 co ++ le32 xo ++ le32 yo
                 ++ label ++ [u1; u2] ++ flat_map le16 indices) ++ cs ++ xs ++ ys)
  = Ok (indices, closed (apply_rel 0 0 l)).
Proof.
  intros magic e1 e2 e3 e4 e5 e6 e7 e8 label u1 u2 indices c x y l cs xs ys co xo yo Hl Hm Hi Hn Bc Bx By Lc Lx Ly H.
  assert (G : forall d, Forall (fun b => 0 <= b < 256) d -> zlen d = zlen c -> expand 255 (compress d) (Some (zlen c)) = Ok d).
  { intros d Bd Ld. rewrite stored_round_trip; [|exact Bd|intros ->; unfold zlen in *; cbn [List.length] in *; lia| |unfold zlen in *; lia].
    - cbn [limited]. rewrite firstn_all2 by (unfold zlen in *; lia). reflexivity.
    - unfold announced. rewrite Z.mod_small by lia. lia. }
  assert (Zl : forall d, zlen d = zlen c -> zlen (compress d) = zlen c + 6).
  { intros d <-. unfold compress, zlen. rewrite !app_length. cbn [List.length]. lia. }
  assert (zlen cs = zlen c + 6) by (apply Zl; reflexivity). assert (zlen xs = zlen c + 6) by (apply Zl; exact Lx).
  apply (C89_hus 255 magic e1 e2 e3 e4 e5 e6 e7 e8 label u1 u2 indices cs xs ys c x y l); try assumption; try (apply G; assumption || reflexivity).
  - subst xo co. change (2 ^ 32) with 4294967296. lia.
  - change (2 ^ 32) with 4294967296. lia.
Qed.
Example C89_case : hus_stores [mkS 3 (-4) STITCH; mkS 5 0 JUMP; mkS 0 0 TRIM; mkS 0 0 COLOR_CHANGE] [0x80; 0x88; 0x84; 0x90] [3; 5; 0; 0] [4; 0; 0; 0] /\
  hus_read 255 ([0; 0; 0; 0; 4; 0; 0; 0; 1; 0; 0; 0; 0; 0; 0; 0; 0; 0; 0; 0; 44; 0; 0; 0; 54; 0; 0; 0; 64; 0; 0; 0; 32; 32; 32; 32; 32; 32; 32; 32; 0; 0; 7; 0]
    ++ compress [0x80; 0x88; 0x84; 0x90] ++ compress [3; 5; 0; 0] ++ compress [4; 0; 0; 0])
  = Ok ([7], [mkS 3 (-4) STITCH; mkS 8 (-4) JUMP; mkS 8 (-4) TRIM; mkS 8 (-4) COLOR_CHANGE; mkS 8 (-4) END]).
Proof.
  split; [|vm_compute; reflexivity].
  apply (hus_sew 3 (-4)); [unfold signed_byte; lia..|]. apply (hus_trim 5 0); [unfold signed_byte; lia..|].
  apply (hus_color 0 0); [unfold signed_byte; lia..|]. apply hus_end.
Qed.

(** ** C90: which files are refused *)
Theorem C90_pcd : forall {C} (scale : Z -> C) f, if zlen f <? 4 then pcd_read scale f = Err TypeError else exists t l, pcd_read scale f = Ok (t, l).
Proof. intros C scale. exact (pcd_outcome scale). Qed.
Theorem C90_pcm : forall {C} (scale : Z -> C) f, (exists t l, pcm_read scale f = Ok (t, l)) \/ pcm_read scale f = Err TypeError \/ pcm_read scale f = Err IndexError.
Proof. intros C scale. exact (pcm_outcome scale). Qed.
Theorem C90_max : forall {C} (scale : Z -> C) header n bytes, zlen header = 0xD5 -> 0 <= n < 2 ^ 32 ->
  (if (8 * n <=? zlen bytes) || (zlen bytes mod 8 =? 7) then exists l, max_read scale (header ++ le32 n ++ bytes) = Ok l
   else max_read scale (header ++ le32 n ++ bytes) = Err TypeError)
  /\ forall f, zlen f < 0xD9 -> max_read scale f = Err TypeError.
Proof. intros C scale. exact (max_outcome scale). Qed.
Theorem C90_shv : forall f, (exists n t l, shv_read f = Ok (n, t, l) /\ one_end l) \/ shv_read f = Err TypeError \/ shv_read f = Err KeyError.
Proof. exact shv_outcome. Qed.
Example C90_cases : pcm_read pc_unit [0; 0; 0; 1; 0; 16] = Err IndexError /\ pcm_read pc_unit [0; 0; 0; 1; 0] = Err TypeError /\
  shv_read (repeat 0 200) = Err KeyError /\ shv_read [] = Err TypeError.
Proof. repeat split; vm_compute; reflexivity. Qed.

(** ** C91: cut files *)
Theorem C91_pcd : forall {C} (scale : Z -> C) file n t s, (4 <= n)%nat -> pcd_read scale file = Ok (t, s) ->
  exists l, s = shut (scale 0, scale 0) l /\
  exists t' l' more, pcd_read scale (firstn n file) = Ok (t', shut (scale 0, scale 0) l') /\ l = l' ++ more /\ List.length t' = List.length t.
Proof. intros C scale. exact (cut_pcd scale). Qed.
Theorem C91_pcm : forall {C} (scale : Z -> C) h0 h1 indices c0 c1 bytes n, Forall (fun i => 0 <= i < 16) indices -> zlen indices < 65536 ->
  let head := [h0; h1] ++ be16 (zlen indices) ++ flat_map be16 indices ++ [c0; c1] in
  exists t l, pcm_read scale (head ++ bytes) = Ok (t, shut (scale 0, scale 0) l) /\
  exists l' more, pcm_read scale (head ++ firstn n bytes) = Ok (t, shut (scale 0, scale 0) l') /\ l = l' ++ more.
Proof. intros C scale. exact (cut_pcm scale). Qed.
(** MAX: a file of one stitch cut by one byte is read without it, cut by two it is refused. *)
Theorem C91_max_refuted : exists file l, max_read max_unit file = Ok l /\ List.length l = 2%nat /\
  max_read max_unit (firstn (List.length file - 2) file) = Err TypeError.
Proof.
  exists (repeat 0 0xD5 ++ [1; 0; 0; 0] ++ [2; 0; 0; 9; 0xFF; 0xFF; 0xFF; 9]). eexists. split; [vm_compute; reflexivity|]. split; vm_compute; reflexivity.
Qed.
Theorem C91_shv_refuted : exists file r, shv_read file = Ok r /\ shv_read (firstn (List.length file - 1) file) = Err TypeError.
Proof.
  exists (repeat 0 0x56 ++ [0; 0; 0] ++ [0; 0; 0; 0] ++ [1] ++ repeat 0 18 ++ [0; 0; 0; 9; 1; 0; 0; 0; 0; 0; 0; 0] ++ [0x80; 1; 0; 5; 0; 6]). eexists.
  split; vm_compute; reflexivity.
Qed.

Print Assumptions C87_pcd.
Print Assumptions C87_pcm.
Print Assumptions C87_max.
Print Assumptions C87_units.
Print Assumptions C88_shv.
Print Assumptions C89_hus.
Print Assumptions C89_hus_stored.
Print Assumptions C90_pcd.
Print Assumptions C90_pcm.
Print Assumptions C90_max.
Print Assumptions C90_shv.
Print Assumptions C91_pcd.
Print Assumptions C91_pcm.
Print Assumptions C91_max_refuted.
Print Assumptions C91_shv_refuted.
