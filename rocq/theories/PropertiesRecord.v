(** Properties of the readers of read-only record formats: C81 to C86. *)
From Coq Require Import ZArith QArith List Bool Lia.
From Verif Require Import PyBase EmbConst StreamModel StreamSpec FunctionsModel PatternModel ExpModel DstFileModel RecordModel RecordSpec
  RecordProofs RecordMoreProofs RecordAnyProofs.
Import ListNotations.
Open Scope Z_scope.

(** Samples are built record by record. *)
Ltac side := first [reflexivity | discriminate | (unfold mag8, signed_byte, word, five, zhs_fits, top, short; cbn [List.length]; lia) | (cbn [In]; intuition (discriminate || auto)) | auto].
Ltac put c := eapply stores_record; [eapply c; side|]; cbn [apply_rel needle_after fst snd app command sx sy scmd].
Ltac sample := do 2 eexists; split.
Ltac fin := apply (stores_end _ _ _ _ _ []); first [left; red; cbn [List.length]; lia | do 2 red; cbn [List.length]; lia].
Ltac check := split; vm_compute; reflexivity.

(** ** C81: records of fixed size *)

Theorem C81_100 : forall l bytes,
  stores rec_100 stops_100 tt 0 0 l bytes -> a100_read bytes = Ok (closed l).
Proof. exact read_100. Qed.

Example C81_100_case : exists l bytes, stores rec_100 stops_100 tt 0 0 l bytes /\
  bytes = [0x61; 7; 5; 3; 2; 9; 9; 9; 1; 0; 228; 255] /\
  l = [mkS 5 (-3) STITCH; mkS 5 (-3) COLOR_CHANGE; mkS (-95) 124 JUMP].
Proof.
  sample.
  - put (r100_stitch 7 5 (-3)). put (r100_color 2 9 9 9). put (r100_jump 1 0 (-100) 127). fin.
  - check.
Qed.

Theorem C81_10o : forall l bytes,
  stores rec_10o stops_10o tt 0 0 l bytes -> a10o_read bytes = Ok (closed l).
Proof. exact read_10o. Qed.

Example C81_10o_case : exists l bytes, stores rec_10o stops_10o tt 0 0 l bytes /\
  bytes = [0x8A; 1; 2; 0x60; 200; 5; 0x90; 3; 255; 0x81; 0; 0; 0x87; 1; 2] /\
  l = [mkS (-5) 200 STITCH; mkS 250 197 JUMP; mkS 250 197 TRIM].
Proof.
  sample.
  - put (r10o_start 1 2). put (r10o_stitch 0 (-5) 200). put (r10o_jump 0x80 255 (-3)). put (r10o_trim 0 0). apply stores_end. right. exists [1; 2]. reflexivity.
  - check.
Qed.

Theorem C81_dsb : forall l header h bytes, zlen header = 512 ->
  stores rec_dsb stops_dsb tt 0 0 l bytes -> dst_read_header (header ++ bytes) = Ok h -> dsb_read (header ++ bytes) = Ok (closed l, h).
Proof. intros l header h bytes H. apply read_dsb. unfold zlen in H. lia. Qed.

Example C81_dsb_case : exists l bytes, stores rec_dsb stops_dsb tt 0 0 l bytes /\
  bytes = ([0xE0; 200; 5; 0xEB; 0; 0; 1; 8; 7] ++ [0xF8]) /\
  l = [mkS (-5) 200 STITCH; mkS (-5) 200 (scmd (needle 3)); mkS 2 192 JUMP].
Proof.
  sample.
  - put (rdsb_stitch 0x80 (-5) 200). put (rdsb_needle 3 0 0). put (rdsb_jump 0 7 (-8)). apply stores_end. right. eexists. reflexivity.
  - check.
Qed.

Theorem C81_dsz : forall l header h bytes, zlen header = 512 ->
  stores rec_dsz stops_dsz tt 0 0 l bytes -> dst_read_header (header ++ bytes) = Ok h -> dsz_read (header ++ bytes) = Ok (closed l, h).
Proof. intros l header h bytes H. apply read_dsz. unfold zlen in H. lia. Qed.

Theorem C81_fxy : forall l header bytes, zlen header = 0x100 ->
  stores rec_dsz stops_dsz tt 0 0 l bytes -> fxy_read (header ++ bytes) = Ok (closed l).
Proof. intros l header bytes H. apply read_fxy. unfold zlen in H. lia. Qed.

Theorem C81_gt : forall l header bytes, zlen header = 0x200 ->
  stores rec_dsz stops_dsz tt 0 0 l bytes -> gt_read (header ++ bytes) = Ok (closed l).
Proof. intros l header bytes H. apply read_gt. unfold zlen in H. lia. Qed.

Example C81_dsz_case : exists l bytes, stores rec_dsz stops_dsz tt 0 0 l bytes /\
  bytes = [200; 5; 0xE0; 0; 0; 0x8A; 1; 1; 0x82; 8; 7; 1] /\
  l = [mkS (-5) 200 STITCH; mkS (-5) 200 (scmd (needle 3)); mkS (-5) 200 STOP; mkS 2 192 JUMP].
Proof.
  sample.
  - put (rdsz_stitch 0x80 (-5) 200). put (rdsz_needle 3 1 0 0). put (rdsz_stop 1 1). put (rdsz_jump 0 7 (-8)). fin.
  - check.
Qed.

Theorem C81_inb : forall l header bytes, zlen header = 0x2000 ->
  stores rec_inb stops_inb tt 0 0 l bytes -> inb_read (header ++ bytes) = Ok (closed l).
Proof. exact read_inb. Qed.

Example C81_inb_case : exists l bytes, stores rec_inb stops_inb tt 0 0 l bytes /\
  bytes = [5; 6; 0x60; 1; 1; 0xA1; 255; 255; 2] /\
  l = [mkS (-5) 6 STITCH; mkS (-4) 7 COLOR_CHANGE; mkS 251 (-248) JUMP].
Proof.
  sample.
  - put (rinb 0 STITCH 0 (-5) 6). put (rinb 1 COLOR_CHANGE 0x80 1 1). put (rinb 2 JUMP 0 255 (-255)). fin.
  - check.
Qed.

Theorem C81_ksm : forall l header bytes, zlen header = 0x200 ->
  stores rec_ksm stops_ksm (false, false) 0 0 l bytes -> ksm_read (header ++ bytes) = Ok (closed l).
Proof. intros l header bytes H. apply read_ksm. unfold zlen in H. lia. Qed.

Example C81_ksm_case : exists l bytes, stores rec_ksm stops_ksm (false, false) 0 0 l bytes /\
  bytes = [4; 3; 0xA0; 0; 0; 7; 0; 9; 0x40; 0; 1; 23; 2; 2; 13] /\
  l = [mkS 3 4 STITCH; mkS 3 4 TRIM; mkS (-6) 4 JUMP; mkS (-5) 4 JUMP; mkS (-3) 2 STITCH; mkS (-3) 2 (scmd (needle 3))].
Proof.
  sample.
  - eapply stores_record; [eapply (rksm _ _ 3 4 0x80); [side..|apply ksm_plain]|].
    eapply stores_record; [eapply (rksm _ _ 0 0 0 7); [side..|apply (ksm_trim false 7); side]|].
    eapply stores_record; [eapply (rksm _ _ (-9) 0 0); [side..|apply ksm_plain]|].
    eapply stores_record; [eapply (rksm _ _ 1 0 0 23); [side..|apply ksm_sew; side]|].
    eapply stores_record; [eapply (rksm _ _ 2 (-2) 0); [side..|apply (ksm_needle false _ 3); side]|].
    fin.
  - check.
Qed.

Theorem C81_mit : forall l bytes,
  stores rec_mit stops_mit (-1) 0 0 l bytes -> mit_read bytes = Ok (closed l).
Proof. exact read_mit. Qed.

Example C81_mit_case : exists l bytes, stores rec_mit stops_mit (-1) 0 0 l bytes /\
  bytes = [0xA3; 0xE5; 0x40; 0x00; 0x7F; 0x1F] /\
  l = [mkS (-6) 10 STITCH; mkS (-6) 10 COLOR_CHANGE; mkS 56 (-52) JUMP].
Proof.
  sample.
  - eapply stores_record; [eapply (rmit _ 7 (-3) 5); [side..|apply mit_stitch; side]|].
    eapply stores_record; [eapply (rmit _ 8 0 0); [side..|apply mit_color]|].
    eapply stores_record; [eapply (rmit _ 12 31 (-31)); [side..|apply mit_jump]|].
    fin.
  - check.
Qed.

Theorem C81_new : forall l header bytes, zlen header = 2 ->
  stores rec_new stops_new tt 0 0 l bytes -> new_read (header ++ bytes) = Ok (closed l).
Proof. intros l header bytes H. apply read_new. unfold zlen in H. lia. Qed.

Example C81_new_case : exists l bytes, stores rec_new stops_new tt 0 0 l bytes /\
  bytes = [5; 6; 0x60; 1; 1; 0x82; 255; 255; 1] /\
  l = [mkS (-5) 6 STITCH; mkS (-5) 6 COLOR_CHANGE; mkS 250 (-249) JUMP].
Proof.
  sample.
  - put (rnew_stitch 0 (-5) 6). put (rnew_color 0x80 1 1). put (rnew_jump 0 255 (-255)). fin.
  - check.
Qed.

Theorem C81_stc : forall l header bytes, zlen header = 0x28 ->
  stores rec_stc stops_stc tt 0 0 l bytes -> stc_read (header ++ bytes) = Ok (closed l).
Proof. intros l header bytes H. apply read_stc. unfold zlen in H. lia. Qed.

Example C81_stc_case : exists l bytes, stores rec_stc stops_stc tt 0 0 l bytes /\
  bytes = [251; 250; 1; 1; 1; 6; 127; 127; 0] /\
  l = [mkS (-5) 6 STITCH; mkS (-5) 6 (scmd (needle 4)); mkS 122 (-121) JUMP].
Proof.
  sample.
  - put (rstc_stitch (-5) 6). put (rstc_needle 4 1 1). put (rstc_jump 127 (-127)). fin.
  - check.
Qed.

Theorem C81_zxy : forall l b0 skipped bytes, zlen skipped < 65536 ->
  stores rec_zxy stops_zxy tt 0 0 l bytes -> zxy_read (b0 :: be16 (zlen skipped) ++ skipped ++ bytes) = Ok (closed l).
Proof. exact read_zxy. Qed.

Example C81_zxy_case : exists l bytes, stores rec_zxy stops_zxy tt 0 0 l bytes /\
  bytes = [12; 5; 6; 0x20; 1; 4; 2; 255; 255] /\
  l = [mkS (-5) 6 STITCH; mkS (-5) 6 (scmd (needle 4)); mkS 250 (-249) JUMP].
Proof.
  sample.
  - put (rzxy_stitch (-5) 6). put (rzxy_needle 4 1). put (rzxy_jump 255 (-255)). fin.
  - check.
Qed.

Theorem C81_spx : forall l header bytes, zlen header = 0x11E ->
  stores rec_spx stops_spx tt 0 0 l bytes -> spx_read (header ++ bytes) = Ok l.
Proof. intros l header bytes H. apply read_spx. unfold zlen in H. lia. Qed.

Example C81_spx_case : exists l bytes, stores rec_spx stops_spx tt 0 0 l bytes /\
  bytes = [1; 1; 255; 236; 1; 44; 5; 1; 1; 1; 1; 127; 255; 255; 255; 129; 1; 1] /\
  l = [mkS 300 15 STITCH; mkS 299 (-32625) STITCH].
Proof.
  sample.
  - put (rspx 1 1 1 1 300 (-20) 5). put (rspx 1 1 1 1 (-1) 32767 (-127)). fin.
  - check.
Qed.

Theorem C81_zhs : forall l bytes, stores rec_zhs stops_zhs (0, 0) 0 0 l bytes -> zhs_stitches bytes = Ok (closed l).
Proof. exact stitches_zhs. Qed.

Example C81_zhs_case : exists l bytes, stores rec_zhs stops_zhs (0, 0) 0 0 l bytes /\
  bytes = [0x41; zhs_first 100 (-70); zhs_second 100 (-70); 2; zhs_first 100 (-1); zhs_second 100 (-1); 4; 5; 5; 1; zhs_first (-64) 62; zhs_second (-64) 62] /\
  l = [mkS 200 71 STITCH; mkS 200 71 COLOR_CHANGE; mkS 136 9 JUMP].
Proof.
  sample.
  - put (rzhs_part 0 0 100 (-70)). put (rzhs_stitch 100 (-70) 100 (-1)). put (rzhs_color 0 0 5 5). put (rzhs_jump 0 0 (-64) 62). fin.
  - check.
Qed.

(** ** C82: records with escapes, and headers that say where things are *)

Theorem C82_bro : forall l header bytes, zlen header = 0x100 ->
  stores rec_bro stops_bro tt 0 0 l bytes -> bro_read (header ++ bytes) = Ok (closed l).
Proof. intros l header bytes H. apply read_bro. unfold zlen in H. lia. Qed.

Example C82_bro_case : exists l bytes, stores rec_bro stops_bro tt 0 0 l bytes /\
  bytes = [251; 250; 0x80; 1; 0xE4; 212; 254; 212; 254; 0x80; 9; 0; 0x80; 0; 3; 255; 127; 255; 255] /\
  l = [mkS (-5) 6 STITCH; mkS (-5) 6 (scmd (needle 4)); mkS (-305) 306 JUMP; mkS 32462 307 JUMP].
Proof.
  sample.
  - put (rbro_stitch (-5) 6). put (rbro_needle 4 1 (-300) 300). put (rbro_none 9). put (rbro_jump 3 0 32767 1). fin.
  - check.
Qed.

Theorem C82_emd : forall l header bytes, zlen header = 0x30 ->
  stores rec_emd stops_emd tt 0 0 l bytes -> emd_read (header ++ bytes) = Ok (closed l).
Proof. intros l header bytes H. apply read_emd. unfold zlen in H. lia. Qed.

Example C82_emd_case : exists l bytes, stores rec_emd stops_emd tt 0 0 l bytes /\
  bytes = [0x80; 0x7D; 251; 250; 0x80; 0x2A; 0x80; 0x80; 127; 127; 0x80; 0xAD; 0x80; 0xFD] /\
  l = [mkS (-5) 6 STITCH; mkS (-5) 6 COLOR_CHANGE; mkS 122 (-121) JUMP; mkS 122 (-121) TRIM].
Proof.
  sample.
  - put (remd_start). put (remd_stitch (-5) 6). put (remd_color). put (remd_jump 127 (-127)). put (remd_trim). apply stores_end. right. exists []. reflexivity.
  - check.
Qed.

Theorem C82_jpx : forall l indices gap1 gap2 rest bytes,
  List.length gap1 = 0x1C%nat -> List.length gap2 = 0x18%nat -> Forall (fun i => 0 <= i < 2 ^ 32) indices -> zlen indices < 2 ^ 32 ->
  let start := 60 + 4 * zlen indices + zlen rest in start < 2 ^ 32 ->
  stores rec_jpx stops_jpx tt 0 0 l bytes ->
  jpx_read (le32 start ++ gap1 ++ le32 (zlen indices) ++ gap2 ++ flat_map le32 indices ++ rest ++ bytes) = Ok (indices, closed l).
Proof. exact read_jpx. Qed.

Example C82_jpx_case : exists l bytes, stores rec_jpx stops_jpx tt 0 0 l bytes /\
  bytes = [251; 250; 0x80; 1; 9; 247; 0x80; 2; 127; 127; 0x80; 1; 0; 0; 0x80; 0x10] /\
  l = [mkS (-5) 6 STITCH; mkS (-5) 6 COLOR_CHANGE; mkS 4 15 JUMP; mkS 131 (-112) JUMP; mkS 131 (-112) COLOR_CHANGE].
Proof.
  sample.
  - put (rjpx_stitch (-5) 6). put (rjpx_color_jump 9 9). put (rjpx_jump 127 (-127)). put (rjpx_color). apply stores_end. right. exists []. reflexivity.
  - check.
Qed.

Theorem C82_sew : forall l indices rest bytes, Forall (fun i => 0 <= i < 65536) indices -> zlen indices < 65536 ->
  2 + 2 * zlen indices + zlen rest = 0x1D78 -> stores rec_sew stops_sew tt 0 0 l bytes ->
  sew_read (le16 (zlen indices) ++ flat_map le16 indices ++ rest ++ bytes) = Ok (map (fun i => i mod 80) indices, closed l).
Proof. exact read_sew. Qed.

Example C82_sew_case : exists l bytes, stores rec_sew stops_sew tt 0 0 l bytes /\
  bytes = [251; 250; 0x80; 1; 0; 0; 0x80; 4; 127; 127; 0x80; 0x10; 1; 255; 0x80; 0; 0; 0] /\
  l = [mkS (-5) 6 STITCH; mkS (-5) 6 COLOR_CHANGE; mkS 122 (-121) JUMP; mkS 123 (-120) STITCH].
Proof.
  sample.
  - put (rsew_stitch (-5) 6). put (rsew_color 1 0 0). put (rsew_jump 4 127 (-127)). put (rsew_far 1 1). apply stores_end. right. exists 0, 0, []. reflexivity.
  - check.
Qed.

Theorem C82_stx : forall start gap a b rest bytes, List.length gap = 0x0C%nat -> 0 <= a < 2 ^ 32 -> 0 <= b < 2 ^ 32 ->
  start = 24 + zlen rest -> start < 2 ^ 32 ->
  stx_read (gap ++ le32 a ++ le32 b ++ le32 start ++ rest ++ bytes) = Ok (exp_read bytes).
Proof. exact read_stx. Qed.

Theorem C82_barudan : forall l bytes, stores rec_barudan stops_barudan tt 0 0 l bytes -> dat_read bytes = Ok (closed l).
Proof. exact read_barudan. Qed.

Example C82_barudan_case : exists l bytes, stores rec_barudan stops_barudan tt 0 0 l bytes /\
  bytes = [0xE0; 200; 5; 0x86; 0; 0; 0x84; 1; 1] ++ [0xF8] /\
  l = [mkS (-5) 200 STITCH; mkS (-5) 200 TRIM; mkS (-5) 200 SLOW; mkS (-4) 199 STITCH].
Proof.
  sample.
  - eapply stores_record; [apply (rbar 0 _ (-5) 200); [side..|left; reflexivity]|].
    eapply stores_record; [apply (rbar 6 _ 0 0); [side..|do 6 right; left; reflexivity]|].
    eapply stores_record; [apply (rbar 4 _ 1 (-1)); [side..|do 4 right; left; reflexivity]|].
    apply stores_end. right. eexists. reflexivity.
  - check.
Qed.

Theorem C82_sunstar : forall l header bytes b0 b1 b2 rest, header = b0 :: b1 :: b2 :: rest -> List.length header = 256%nat ->
  flag b0 0x80 = false -> stores rec_sunstar stops_sunstar tt 0 0 l bytes -> dat_read (header ++ bytes) = Ok (closed l).
Proof. exact read_sunstar. Qed.

Example C82_sunstar_case : exists l bytes, stores rec_sunstar stops_sunstar tt 0 0 l bytes /\
  bytes = [0x85; 0x86; 7; 0; 0; 0x87; 100; 100; 0x80] /\
  l = [mkS (-5) 6 STITCH; mkS (-5) 6 COLOR_CHANGE; mkS (-5) 6 TRIM; mkS 95 (-94) JUMP].
Proof.
  sample.
  - eapply stores_record; [apply (rsun 7 _ (-5) 6); [side..|left; reflexivity]|].
    eapply stores_record; [apply (rsun 0x87 _ 0 0); [side..|do 4 right; left; reflexivity]|].
    eapply stores_record; [apply (rsun 0x80 _ 100 (-100)); [side..|do 3 right; left; reflexivity]|].
    fin.
  - check.
Qed.

(** ** C83: any bytes, and cut files *)

Theorem C83_cut : forall read, In read [a100_read; a10o_read; dsb_stitches; dsz_stitches; emd_read; fxy_read; gt_read; inb_read; ksm_read;
    mit_read; new_read; stc_read; zhs_stitches] -> reads_cut read.
Proof. 
  intros read H. cbn [In] in H. repeat destruct H as [<-|H];
    [exact cut_100|exact cut_10o|exact cut_dsb|exact cut_dsz|exact cut_emd|exact cut_fxy|exact cut_gt|exact cut_inb|exact cut_ksm|
     exact cut_mit|exact cut_new|exact cut_stc|exact cut_zhs|contradiction].
 Qed.

(** A file cut in the middle of its last record loses that record only. *)
Example C83_case : a10o_read [0; 1; 2; 0; 3; 4] = Ok (closed [mkS 2 (-1) STITCH; mkS 6 (-4) STITCH])
  /\ a10o_read (firstn 5 [0; 1; 2; 0; 3; 4]) = Ok (closed [mkS 2 (-1) STITCH]).
Proof. split; vm_compute; reflexivity. Qed.

(** ** C84: the readers that fail on files that are too short, and exactly when *)

Theorem C84_spx : forall f, let k := (zlen f - 0x11E) mod 9 in
  if (0x11E <? zlen f) && (2 <=? k) && (k <=? 6) then spx_read f = Err TypeError else exists l, spx_read f = Ok l.
Proof. exact spx_outcome. Qed.

Theorem C84_jpx : forall f, if zlen f <? 36 then jpx_read f = Err TypeError else exists t l, jpx_read f = Ok (t, l).
Proof. exact jpx_outcome. Qed.

Theorem C84_zxy : forall f, if zlen f <? 3 then zxy_read f = Err TypeError else exists l, zxy_read f = Ok l.
Proof. exact zxy_outcome. Qed.

Theorem C84_stx : forall f, if zlen f <? 24 then stx_read f = Err TypeError else exists l, stx_read f = Ok l.
Proof. exact stx_outcome. Qed.

Theorem C84_sew : forall n r, 0 <= n < 65536 ->
  (if 2 * n <=? zlen r then exists t l, sew_read (le16 n ++ r) = Ok (t, l) else sew_read (le16 n ++ r) = Err TypeError)
  /\ sew_read [] = Err TypeError /\ forall b, sew_read [b] = Err TypeError.
Proof. exact sew_outcome. Qed.

Theorem C84_bro : forall f, (exists l, bro_read f = Ok l) \/ bro_read f = Err TypeError.
Proof. exact bro_outcome. Qed.

Example C84_case : bro_read (repeat 0 256 ++ [1; 1; 0x80; 0; 3; 1]) = Err TypeError
  /\ spx_read (repeat 0 0x11E ++ [1; 1; 1]) = Err TypeError /\ sew_read [2; 0; 5; 0; 1] = Err TypeError.
Proof. split; [vm_compute; reflexivity|]. split; vm_compute; reflexivity. Qed.

(** ** C85: END closes every pattern that is read, once *)

Theorem C85_one_end : forall f l,
  (In (Ok l) [a100_read f; a10o_read f; bro_read f; emd_read f; fxy_read f; gt_read f; inb_read f; ksm_read f; new_read f;
     stc_read f; zhs_stitches f; zxy_read f] \/ (exists h, In (Ok (l, h)) [dsb_read f; dsz_read f])
   \/ exists t, In (Ok (t, l)) [jpx_read f; sew_read f]) ->
  one_end l.
Proof. 
  intros f l [H|[(h & H)|(t & H)]]; cbn [In] in H; repeat destruct H as [H|H]; try contradiction.
  - exact (end_100 _ _ H).
  - exact (end_10o _ _ H).
  - exact (end_bro _ _ H).
  - exact (end_emd _ _ H).
  - exact (end_fxy _ _ H).
  - exact (end_gt _ _ H).
  - exact (end_inb _ _ H).
  - exact (end_ksm _ _ H).
  - exact (end_new _ _ H).
  - exact (end_stc _ _ H).
  - exact (end_zhs _ _ H).
  - exact (end_zxy _ _ H).
  - exact (end_dsb _ _ _ H).
  - exact (end_dsz _ _ _ H).
  - exact (end_jpx _ _ _ H).
  - exact (end_sew _ _ _ H).
 Qed.

Example C85_case : exists l, new_read [0; 0; 1; 2; 0; 1; 1; 2] = Ok l /\ List.length l = 3%nat.
Proof. eexists. split; vm_compute; reflexivity. Qed.

Theorem C85_spx_refuted : exists f l, spx_read f = Ok l /\ l = [mkS 1 (-1) STITCH] /\ ~ one_end l.
Proof. 
  exists (repeat 0 0x11E ++ [0; 0; 0; 1; 0; 1; 0; 0; 0]). eexists. split; [vm_compute; reflexivity|]. split; [reflexivity|].
  intros (l' & E & _). destruct l' as [|a [|b l']]; cbn in E; [congruence| |]; unfold closed in E; cbn [needle_after] in E.
  - discriminate.
  - destruct (needle_after _ _ _). cbn [app] in E. injection E as _ E. destruct l'; discriminate.
 Qed.

Theorem C85_mit_refuted : exists f l, mit_read f = Ok l /\ l = [mkS 0 0 END; mkS 2 0 STITCH; mkS 2 0 END] /\ ~ one_end l.
Proof. 
  exists [0; 0; 0x21; 0x60]. eexists. split; [vm_compute; reflexivity|]. split; [reflexivity|].
  intros (l' & E & F). destruct l' as [|a l']; [discriminate|]. unfold closed in E. destruct (needle_after 0 0 (a :: l')). cbn [app] in E.
  injection E as E _. subst a. inversion F as [|? ? N _]. apply N. reflexivity.
 Qed.

(** ** C86: what a DAT file may not contain *)

Theorem C86_needle_refuted : exists f, f = [0x80; 1; 1; 0x89; 0; 0; 0x80; 1; 1; 0xF8; 0; 0] /\ dat_read f = Err AttributeError.
Proof. eexists. split; [reflexivity|]. vm_compute. reflexivity. Qed.

Theorem C86_needle_always : forall l bytes n dx dy, stores rec_barudan (fun tail => exists r, tail = (0x80 + neg dx 0x20 + pos dy 0x40 + 8 + n) :: Z.abs dy :: Z.abs dx :: r) tt 0 0 l bytes ->
  1 <= n <= 15 -> mag8 dx -> mag8 dy -> dat_read bytes = Err AttributeError.
Proof. intros l bytes n dx dy H N A B. apply (barudan_needle l bytes n dx dy); assumption. Qed.

Theorem C86_header_refuted : exists h h' body, List.length h = 256%nat /\ List.length h' = 256%nat /\
  dat_read (h ++ body) = Ok (closed [mkS 1 (-1) STITCH]) /\ dat_read (h' ++ body) <> dat_read (h ++ body).
Proof. 
  exists (repeat 0 256), (0x80 :: repeat 1 255), [1; 1; 7]. split; [reflexivity|]. split; [reflexivity|]. split; [vm_compute; reflexivity|].
  vm_compute. discriminate.
 Qed.

Print Assumptions C81_100.
Print Assumptions C81_10o.
Print Assumptions C81_dsb.
Print Assumptions C81_dsz.
Print Assumptions C81_fxy.
Print Assumptions C81_gt.
Print Assumptions C81_inb.
Print Assumptions C81_ksm.
Print Assumptions C81_mit.
Print Assumptions C81_new.
Print Assumptions C81_stc.
Print Assumptions C81_zxy.
Print Assumptions C81_spx.
Print Assumptions C81_zhs.
Print Assumptions C82_bro.
Print Assumptions C82_emd.
Print Assumptions C82_jpx.
Print Assumptions C82_sew.
Print Assumptions C82_stx.
Print Assumptions C82_barudan.
Print Assumptions C82_sunstar.
Print Assumptions C83_cut.
Print Assumptions C84_spx.
Print Assumptions C84_jpx.
Print Assumptions C84_zxy.
Print Assumptions C84_stx.
Print Assumptions C84_sew.
Print Assumptions C84_bro.
Print Assumptions C85_one_end.
Print Assumptions C85_spx_refuted.
Print Assumptions C85_mit_refuted.
Print Assumptions C86_needle_refuted.
Print Assumptions C86_needle_always.
Print Assumptions C86_header_refuted.
