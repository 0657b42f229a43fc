(** Headers, cut files and arbitrary bytes for the record formats. *)
From Coq Require Import ZArith QArith List Bool Lia.
From Verif Require Import PyBase EmbConst StreamModel StreamSpec StreamProofs HelperModel HelperProofs FunctionsModel PatternModel
  EncoderModel EncoderProofs ExpModel DstFileModel RecordModel RecordSpec RecordProofs RecordMoreProofs BitLemmas.
Import ListNotations.
Open Scope Z_scope.

(** Files with more than a fixed header. *)
Theorem read_dsb l header h bytes : List.length header = 512%nat -> stores rec_dsb stops_dsb tt 0 0 l bytes ->
  dst_read_header (header ++ bytes) = Ok h -> dsb_read (header ++ bytes) = Ok (closed l, h).
Proof. intros Hl H Hh. unfold dsb_read. rewrite Hh. cbn [bindr]. rewrite skip_header by exact Hl. rewrite (stitches_dsb l) by exact H. reflexivity. Qed.
Theorem read_dsz l header h bytes : List.length header = 512%nat -> stores rec_dsz stops_dsz tt 0 0 l bytes ->
  dst_read_header (header ++ bytes) = Ok h -> dsz_read (header ++ bytes) = Ok (closed l, h).
Proof. intros Hl H Hh. unfold dsz_read. rewrite Hh. cbn [bindr]. rewrite skip_header by exact Hl. rewrite (stitches_dsz l) by exact H. reflexivity. Qed.
Theorem read_fxy l header bytes : List.length header = 0x100%nat -> stores rec_dsz stops_dsz tt 0 0 l bytes ->
  fxy_read (header ++ bytes) = Ok (closed l).
Proof. intros Hl H. unfold fxy_read. rewrite skip_header by exact Hl. apply stitches_dsz. exact H. Qed.
Theorem read_gt l header bytes : List.length header = 0x200%nat -> stores rec_dsz stops_dsz tt 0 0 l bytes ->
  gt_read (header ++ bytes) = Ok (closed l).
Proof. intros Hl H. unfold gt_read. rewrite skip_header by exact Hl. apply stitches_dsz. exact H. Qed.

(** A 32 bit number, low byte first. *)
Lemma le32_read v r : 0 <= v < 2 ^ 32 -> read_int_32le (le32 v ++ r) = (Some v, r).
Proof.
  intros H. unfold le32, read_int_32le. cbn [app firstn skipn]. unfold b8. rewrite !land_ff, !Z.shiftl_mul_pow2 by lia.
  change (2 ^ 8) with 256. change (2 ^ 16) with 65536. change (2 ^ 24) with 16777216. change (2 ^ 32) with 4294967296 in H.
  f_equal. f_equal. rewrite !Zmod_mod. lia.
Qed.
Lemma jpx_threads_read : forall indices n r, Forall (fun i => 0 <= i < 2 ^ 32) indices -> List.length indices = n ->
  jpx_threads n (flat_map le32 indices ++ r) = indices.
Proof.
  induction indices as [|i indices IH]; intros n r H E; subst n; [reflexivity|]. inversion H; subst.
  cbn [List.length jpx_threads flat_map]. rewrite <- app_assoc, le32_read by assumption. rewrite IH by auto. reflexivity.
Qed.
Theorem read_jpx l indices gap1 gap2 rest bytes :
  List.length gap1 = 0x1C%nat -> List.length gap2 = 0x18%nat -> Forall (fun i => 0 <= i < 2 ^ 32) indices ->
  zlen indices < 2 ^ 32 ->
  let start := 60 + 4 * zlen indices + zlen rest in start < 2 ^ 32 ->
  stores rec_jpx stops_jpx tt 0 0 l bytes ->
  jpx_read (le32 start ++ gap1 ++ le32 (zlen indices) ++ gap2 ++ flat_map le32 indices ++ rest ++ bytes) = Ok (indices, closed l).
Proof.
  intros G1 G2 I N start S H. assert (Z0 : 0 <= zlen indices /\ 0 <= zlen rest) by (unfold zlen; lia).
  assert (FL : forall k : list Z, List.length (flat_map le32 k) = (4 * List.length k)%nat).
  { induction k as [|i k IH]; [reflexivity|]. cbn [flat_map List.length]. rewrite app_length, IH. cbn [List.length le32]. lia. }
  unfold jpx_read. rewrite le32_read by (unfold start in *; lia). rewrite (skip_header 0x1C gap1) by exact G1. rewrite le32_read by lia.
  rewrite (skip_header 0x18 gap2) by exact G2.
  assert (M : Z.to_nat (Z.min (zlen indices) (zlen (flat_map le32 indices ++ rest ++ bytes))) = List.length indices).
  { unfold zlen. rewrite !app_length, FL. lia. }
  rewrite M, jpx_threads_read by auto.
  match goal with |- context [skipn ?n (le32 start ++ gap1 ++ ?a ++ gap2 ++ ?b ++ rest ++ bytes)] =>
    replace (skipn n (le32 start ++ gap1 ++ a ++ gap2 ++ b ++ rest ++ bytes)) with bytes end.
  - rewrite (stitches_jpx l) by exact H. reflexivity.
  - rewrite !app_assoc. symmetry. apply skip_header. unfold zlen in *. rewrite !app_length, !FL, G1, G2. cbn [List.length le32]. unfold start, zlen. lia.
Qed.
Lemma sew_threads_read : forall indices r, Forall (fun i => 0 <= i < 65536) indices ->
  sew_threads (List.length indices) (flat_map le16 indices ++ r) = Ok (map (fun i => i mod 80) indices).
Proof.
  induction indices as [|i indices IH]; intros r H; [reflexivity|]. inversion H; subst.
  cbn [List.length sew_threads flat_map map]. rewrite <- app_assoc. unfold le16 at 1. unfold read_int_16le. cbn [app firstn skipn].
  unfold two16, b8. rewrite !land_ff, Z.shiftl_mul_pow2 by lia. change (2 ^ 8) with 256. rewrite IH by assumption. cbn [bindr].
  replace (((i mod 65536) mod 256) mod 256 + (i mod 65536 / 256) mod 256 * 256) with i by lia. reflexivity.
Qed.
Theorem read_sew l indices rest bytes : Forall (fun i => 0 <= i < 65536) indices -> zlen indices < 65536 ->
  2 + 2 * zlen indices + zlen rest = 0x1D78 -> stores rec_sew stops_sew tt 0 0 l bytes ->
  sew_read (le16 (zlen indices) ++ flat_map le16 indices ++ rest ++ bytes) = Ok (map (fun i => i mod 80) indices, closed l).
Proof.
  intros I N L H. assert (Z0 : 0 <= zlen indices /\ 0 <= zlen rest) by (unfold zlen; lia).
  assert (FL : forall k : list Z, List.length (flat_map le16 k) = (2 * List.length k)%nat).
  { induction k as [|i k IH]; [reflexivity|]. cbn [flat_map List.length]. rewrite app_length, IH. cbn [List.length le16]. lia. }
  unfold sew_read. assert (E : forall r, read_int_16le (le16 (zlen indices) ++ r) = (Some (zlen indices), r)).
  { intros r. unfold read_int_16le, le16, two16. cbn [app firstn skipn]. unfold b8. rewrite !land_ff, Z.shiftl_mul_pow2 by lia.
    change (2 ^ 8) with 256. f_equal. f_equal. lia. }
  rewrite E. replace (Z.to_nat (zlen indices)) with (List.length indices) by (unfold zlen; lia). rewrite sew_threads_read by exact I. cbn [bindr].
  replace (skipn (Z.to_nat 0x1D78) (le16 (zlen indices) ++ flat_map le16 indices ++ rest ++ bytes)) with bytes.
  - rewrite (stitches_sew l) by exact H. reflexivity.
  - rewrite !app_assoc. symmetry. apply skip_header. rewrite !app_length, FL. cbn [List.length le16]. unfold zlen in *. lia.
Qed.
Theorem read_stx start gap a b rest bytes : List.length gap = 0x0C%nat -> 0 <= a < 2 ^ 32 -> 0 <= b < 2 ^ 32 ->
  start = 24 + zlen rest -> start < 2 ^ 32 ->
  stx_read (gap ++ le32 a ++ le32 b ++ le32 start ++ rest ++ bytes) = Ok (exp_read bytes).
Proof.
  intros G A B S U. assert (Z0 : 0 <= zlen rest) by (unfold zlen; lia). unfold stx_read. rewrite skip_header by exact G.
  rewrite !le32_read by lia. f_equal. f_equal. rewrite !app_assoc. apply skip_header.
  unfold zlen in *. rewrite !app_length, G. cbn [List.length le32]. lia.
Qed.

(** Bodies that never raise and whose calls all satisfy [P]. *)
Definition calm {S} (P : rel -> Prop) (p : pass S) : Prop :=
  match p with Next c _ => Forall P c | Break c => Forall P c | Raise _ => False end.
Definition any (_ : rel) : Prop := True.
Section Any.
Context {S : Type} (P : rel -> Prop).
Lemma loop2_total (body : S -> Z -> Z -> pass S) : (forall s a b, calm P (body s a b)) ->
  forall n bytes s, (List.length bytes < n)%nat -> exists ev, loop2 body s bytes = Ok ev /\ Forall P ev.
Proof.
  intros H. induction n as [|n IH]; intros bytes s Hn; [lia|].
  destruct bytes as [|a [|b r]]; [exists []; split; [reflexivity|constructor]..|]. cbn [loop2]. specialize (H s a b).
  destruct (body s a b) as [c s'|c|e]; cbn [calm] in H; [|exists c; auto|contradiction].
  destruct (IH r s') as (ev & E & F); [cbn [List.length] in Hn; lia|]. rewrite E. exists (c ++ ev). split; [reflexivity|]. apply Forall_app. auto.
Qed.
Lemma loop3_total (body : S -> Z -> Z -> Z -> pass S) : (forall s a b d, calm P (body s a b d)) ->
  forall n bytes s, (List.length bytes < n)%nat -> exists ev, loop3 body s bytes = Ok ev /\ Forall P ev.
Proof.
  intros H. induction n as [|n IH]; intros bytes s Hn; [lia|].
  destruct bytes as [|a [|b [|d r]]]; [exists []; split; [reflexivity|constructor]..|]. cbn [loop3]. specialize (H s a b d).
  destruct (body s a b d) as [c s'|c|e]; cbn [calm] in H; [|exists c; auto|contradiction].
  destruct (IH r s') as (ev & E & F); [cbn [List.length] in Hn; lia|]. rewrite E. exists (c ++ ev). split; [reflexivity|]. apply Forall_app. auto.
Qed.
Lemma loop4_total (body : S -> Z -> Z -> Z -> Z -> pass S) : (forall s a b d e, calm P (body s a b d e)) ->
  forall n bytes s, (List.length bytes < n)%nat -> exists ev, loop4 body s bytes = Ok ev /\ Forall P ev.
Proof.
  intros H. induction n as [|n IH]; intros bytes s Hn; [lia|].
  destruct bytes as [|a [|b [|d [|f r]]]]; [exists []; split; [reflexivity|constructor]..|]. cbn [loop4]. specialize (H s a b d f).
  destruct (body s a b d f) as [c s'|c|e]; cbn [calm] in H; [|exists c; auto|contradiction].
  destruct (IH r s') as (ev & E & F); [cbn [List.length] in Hn; lia|]. rewrite E. exists (c ++ ev). split; [reflexivity|]. apply Forall_app. auto.
Qed.
(** Cutting the bytes cuts the calls. *)
Lemma loop2_cut (body : S -> Z -> Z -> pass S) : forall bytes n s ev, loop2 body s bytes = Ok ev ->
  exists ev' more, loop2 body s (firstn n bytes) = Ok ev' /\ ev = ev' ++ more.
Proof.
  intros bytes n. remember (List.length bytes) as m. assert (Hm : (List.length bytes <= m)%nat) by lia. clear Heqm.
  revert bytes n Hm. induction m as [|m IH]; intros bytes n Hm s ev H.
  - destruct bytes; [|cbn [List.length] in Hm; lia]. rewrite firstn_nil. exists ev, []. rewrite app_nil_r. auto.
  - destruct bytes as [|a [|b r]]; [rewrite firstn_nil; exists ev, []; rewrite app_nil_r; auto|
      destruct n as [|n]; [|cbn [firstn]; rewrite firstn_nil]; exists [], ev; auto|].
    destruct n as [|[|n]]; [exists [], ev; auto..|]. cbn [firstn]. cbn [loop2] in H |- *. cbn [List.length] in Hm.
    destruct (body s a b) as [c s'|c|e]; [|exists c, []; inversion H; rewrite app_nil_r; auto|discriminate].
    destruct (loop2 body s' r) as [ev1|e] eqn:E; [|discriminate]. inversion H; subst ev.
    destruct (IH r n ltac:(lia) s' ev1 E) as (ev2 & more & E2 & ->). rewrite E2. exists (c ++ ev2), more. rewrite app_assoc. auto.
Qed.
Lemma loop3_cut (body : S -> Z -> Z -> Z -> pass S) : forall bytes n s ev, loop3 body s bytes = Ok ev ->
  exists ev' more, loop3 body s (firstn n bytes) = Ok ev' /\ ev = ev' ++ more.
Proof.
  intros bytes n. remember (List.length bytes) as m. assert (Hm : (List.length bytes <= m)%nat) by lia. clear Heqm.
  revert bytes n Hm. induction m as [|m IH]; intros bytes n Hm s ev H.
  - destruct bytes; [|cbn [List.length] in Hm; lia]. rewrite firstn_nil. exists ev, []. rewrite app_nil_r. auto.
  - destruct bytes as [|a [|b [|d r]]].
    1: rewrite firstn_nil; exists ev, []; rewrite app_nil_r; auto.
    1: destruct n as [|n]; [|cbn [firstn]; rewrite firstn_nil]; exists [], ev; auto.
    1: destruct n as [|[|n]]; [| |cbn [firstn]; rewrite firstn_nil]; exists [], ev; auto.
    destruct n as [|[|[|n]]]; [exists [], ev; auto..|]. cbn [firstn]. cbn [loop3] in H |- *. cbn [List.length] in Hm.
    destruct (body s a b d) as [c s'|c|e]; [|exists c, []; inversion H; rewrite app_nil_r; auto|discriminate].
    destruct (loop3 body s' r) as [ev1|e] eqn:E; [|discriminate]. inversion H; subst ev.
    destruct (IH r n ltac:(lia) s' ev1 E) as (ev2 & more & E2 & ->). rewrite E2. exists (c ++ ev2), more. rewrite app_assoc. auto.
Qed.
Lemma loop4_cut (body : S -> Z -> Z -> Z -> Z -> pass S) : forall bytes n s ev, loop4 body s bytes = Ok ev ->
  exists ev' more, loop4 body s (firstn n bytes) = Ok ev' /\ ev = ev' ++ more.
Proof.
  intros bytes n. remember (List.length bytes) as m. assert (Hm : (List.length bytes <= m)%nat) by lia. clear Heqm.
  revert bytes n Hm. induction m as [|m IH]; intros bytes n Hm s ev H.
  - destruct bytes; [|cbn [List.length] in Hm; lia]. rewrite firstn_nil. exists ev, []. rewrite app_nil_r. auto.
  - destruct bytes as [|a [|b [|d [|f r]]]].
    1: rewrite firstn_nil; exists ev, []; rewrite app_nil_r; auto.
    1: destruct n as [|n]; [|cbn [firstn]; rewrite firstn_nil]; exists [], ev; auto.
    1: destruct n as [|[|n]]; [| |cbn [firstn]; rewrite firstn_nil]; exists [], ev; auto.
    1: destruct n as [|[|[|n]]]; [| | |cbn [firstn]; rewrite firstn_nil]; exists [], ev; auto.
    destruct n as [|[|[|[|n]]]]; [exists [], ev; auto..|]. cbn [firstn]. cbn [loop4] in H |- *. cbn [List.length] in Hm.
    destruct (body s a b d f) as [c s'|c|e]; [|exists c, []; inversion H; rewrite app_nil_r; auto|discriminate].
    destruct (loop4 body s' r) as [ev1|e] eqn:E; [|discriminate]. inversion H; subst ev.
    destruct (IH r n ltac:(lia) s' ev1 E) as (ev2 & more & E2 & ->). rewrite E2. exists (c ++ ev2), more. rewrite app_assoc. auto.
Qed.
End Any.

(** What a reader of [ended] loops gives. *)
Lemma apply_rel_cut l more : exists k, apply_rel 0 0 l = firstn k (apply_rel 0 0 (l ++ more)).
Proof.
  exists (List.length (apply_rel 0 0 l)). rewrite apply_rel_app. destruct (needle_after 0 0 (apply_rel 0 0 l)).
  rewrite firstn_app, Nat.sub_diag, firstn_all. cbn [firstn]. rewrite app_nil_r. reflexivity.
Qed.
Definition quiet (r : rel) : Prop := cmd_of (scmd r) <> END.
Lemma quiet_applied : forall l x y, Forall quiet l -> Forall (fun s => cmd_of (scmd s) <> END) (apply_rel x y l).
Proof.
  induction l as [|r l IH]; intros x y H; [constructor|]. inversion H; subst. cbn [apply_rel]. apply Forall_cons; [assumption|]. apply IH. assumption.
Qed.
Lemma cut_skip {A} k n (l : list A) : skipn k (firstn n l) = firstn (n - k) (skipn k l).
Proof. apply skipn_firstn_comm. Qed.

Lemma needle_quiet n : quiet (needle_change n).
Proof. unfold quiet, needle_change. cbn [scmd]. rewrite cmd_thread_change by (vm_compute; split; congruence). discriminate. Qed.
Lemma any_any l : Forall any l. Proof. apply Forall_forall. exact (fun _ _ => I). Qed.
Ltac calmly :=
  repeat match goal with |- context [if ?b then _ else _] => lazymatch b with context [if _ then _ else _] => fail | _ => destruct b end end;
  cbn [calm]; repeat first [apply Forall_nil | apply Forall_cons; [first [apply needle_quiet | discriminate]|]].
Lemma a100_calm s a b c d : calm quiet (a100_body s a b c d). Proof. unfold a100_body. calmly. Qed.
Lemma a10o_calm s a b c : calm quiet (a10o_body s a b c). Proof. unfold a10o_body. calmly. Qed.
Lemma dsb_calm s a b c : calm quiet (dsb_body s a b c). Proof. unfold dsb_body. calmly. Qed.
Lemma dsz_calm s a b c : calm quiet (dsz_body s a b c). Proof. unfold dsz_body. calmly. Qed.
Lemma sunstar_calm s a b c : calm quiet (sunstar_body s a b c). Proof. unfold sunstar_body. cbv zeta. calmly. Qed.
Lemma emd_calm s a b : calm quiet (emd_body s a b). Proof. unfold emd_body. calmly. Qed.
Lemma inb_calm s a b c : calm quiet (inb_body s a b c). Proof. unfold inb_body. calmly. Qed.
Lemma jpx_calm s a b : calm quiet (jpx_body s a b). Proof. unfold jpx_body. destruct s; cbv zeta; calmly. Qed.
Lemma ksm_calm s a b c : calm quiet (ksm_body s a b c). Proof. unfold ksm_body. destruct s. cbv zeta. calmly. Qed.
Lemma mit_calm s a b : calm any (mit_body s a b).
Proof. unfold mit_body. repeat match goal with |- context [if ?b then _ else _] => lazymatch b with context [if _ then _ else _] => fail | _ => destruct b end end; apply any_any. Qed.
Lemma new_calm s a b c : calm quiet (new_body s a b c). Proof. unfold new_body. calmly. Qed.
Lemma sew_calm s a b : calm quiet (sew_body s a b). Proof. unfold sew_body. destruct s; cbv zeta; calmly. Qed.
Lemma stc_calm s a b c : calm quiet (stc_body s a b c). Proof. unfold stc_body. calmly. Qed.
Lemma zxy_calm s a b c : calm quiet (zxy_body s a b c). Proof. unfold zxy_body. calmly. Qed.
Lemma zhs_calm s a b c : calm quiet (zhs_body s a b c). Proof. unfold zhs_body. destruct s. cbv zeta. calmly. Qed.

(** A loop that never raises, ended: any bytes, cut or not. *)
Definition good (P : rel -> Prop) (loop : list Z -> res (list rel)) : Prop :=
  forall bytes, exists ev, loop bytes = Ok ev /\ Forall P ev /\
    forall n, exists ev' more, loop (firstn n bytes) = Ok ev' /\ ev = ev' ++ more.
Lemma good2 {S} P (body : S -> Z -> Z -> pass S) s : (forall s a b, calm P (body s a b)) -> good P (loop2 body s).
Proof.
  intros H bytes. destruct (loop2_total P body H _ bytes s (Nat.lt_succ_diag_r _)) as (ev & E & F). exists ev. split; [exact E|]. split; [exact F|].
  intros n. apply loop2_cut. exact E.
Qed.
Lemma good3 {S} P (body : S -> Z -> Z -> Z -> pass S) s : (forall s a b c, calm P (body s a b c)) -> good P (loop3 body s).
Proof.
  intros H bytes. destruct (loop3_total P body H _ bytes s (Nat.lt_succ_diag_r _)) as (ev & E & F). exists ev. split; [exact E|]. split; [exact F|].
  intros n. apply loop3_cut. exact E.
Qed.
Lemma good4 {S} P (body : S -> Z -> Z -> Z -> Z -> pass S) s : (forall s a b c d, calm P (body s a b c d)) -> good P (loop4 body s).
Proof.
  intros H bytes. destruct (loop4_total P body H _ bytes s (Nat.lt_succ_diag_r _)) as (ev & E & F). exists ev. split; [exact E|]. split; [exact F|].
  intros n. apply loop4_cut. exact E.
Qed.
Lemma good_cuts P loop k : good P loop -> reads_cut (fun file => ended (loop (skipn k file))).
Proof.
  intros H file. destruct (H (skipn k file)) as (ev & E & _ & C). exists (apply_rel 0 0 ev). rewrite E. cbn [ended bindr].
  rewrite apply_rel_end. split; [reflexivity|]. intros n. rewrite cut_skip. destruct (C (n - k)%nat) as (ev' & more & E' & ->).
  exists (apply_rel 0 0 ev'). rewrite E'. cbn [ended bindr]. rewrite apply_rel_end. split; [reflexivity|].
  rewrite apply_rel_app. destruct (needle_after 0 0 (apply_rel 0 0 ev')). eexists. reflexivity.
Qed.
Lemma good_end loop bytes l : good quiet loop -> ended (loop bytes) = Ok l -> one_end l.
Proof.
  intros H E. destruct (H bytes) as (ev & E' & F & _). rewrite E' in E. cbn [ended bindr] in E. rewrite apply_rel_end in E. injection E as <-.
  exists (apply_rel 0 0 ev). split; [reflexivity|]. apply quiet_applied. exact F.
Qed.
Theorem cut_100 : reads_cut a100_read. Proof. apply (good_cuts quiet _ 0 (good4 quiet _ tt a100_calm)). Qed.
Theorem cut_10o : reads_cut a10o_read. Proof. apply (good_cuts quiet _ 0 (good3 quiet _ tt a10o_calm)). Qed.
Theorem cut_fxy : reads_cut fxy_read. Proof. exact (good_cuts quiet _ _ (good3 quiet _ tt dsz_calm)). Qed.
Theorem cut_gt : reads_cut gt_read. Proof. exact (good_cuts quiet _ _ (good3 quiet _ tt dsz_calm)). Qed.
Theorem cut_emd : reads_cut emd_read. Proof. exact (good_cuts quiet _ _ (good2 quiet _ false emd_calm)). Qed.
Theorem cut_inb : reads_cut inb_read. Proof. exact (good_cuts quiet _ _ (good3 quiet _ tt inb_calm)). Qed.
Theorem cut_ksm : reads_cut ksm_read. Proof. exact (good_cuts quiet _ _ (good3 quiet _ _ ksm_calm)). Qed.
Theorem cut_mit : reads_cut mit_read. Proof. apply (good_cuts any _ 0 (good2 any _ (-1) mit_calm)). Qed.
Theorem cut_new : reads_cut new_read. Proof. exact (good_cuts quiet _ _ (good3 quiet _ tt new_calm)). Qed.
Theorem cut_stc : reads_cut stc_read. Proof. exact (good_cuts quiet _ _ (good3 quiet _ tt stc_calm)). Qed.
Theorem cut_dsb : reads_cut dsb_stitches. Proof. apply (good_cuts quiet _ 0 (good3 quiet _ tt dsb_calm)). Qed.
Theorem cut_dsz : reads_cut dsz_stitches. Proof. apply (good_cuts quiet _ 0 (good3 quiet _ tt dsz_calm)). Qed.
Theorem cut_zhs : reads_cut zhs_stitches. Proof. apply (good_cuts quiet _ 0 (good3 quiet _ (0, 0) zhs_calm)). Qed.

(** Exactly one END. *)
Theorem end_100 f l : a100_read f = Ok l -> one_end l. Proof. apply good_end, good4, a100_calm. Qed.
Theorem end_10o f l : a10o_read f = Ok l -> one_end l. Proof. apply good_end, good3, a10o_calm. Qed.
Theorem end_dsb f l h : dsb_read f = Ok (l, h) -> one_end l.
Proof.
  unfold dsb_read. destruct (dst_read_header f) as [h'|e]; [|discriminate]. cbn [bindr].
  destruct (dsb_stitches (skipn 512 f)) as [l'|e] eqn:E; [|discriminate]. cbn [bindr]. intros [= <- <-]. revert E. apply good_end, good3, dsb_calm.
Qed.
Theorem end_dsz f l h : dsz_read f = Ok (l, h) -> one_end l.
Proof.
  unfold dsz_read. destruct (dst_read_header f) as [h'|e]; [|discriminate]. cbn [bindr].
  destruct (dsz_stitches (skipn 512 f)) as [l'|e] eqn:E; [|discriminate]. cbn [bindr]. intros [= <- <-]. revert E. apply good_end, good3, dsz_calm.
Qed.
Theorem end_fxy f l : fxy_read f = Ok l -> one_end l. Proof. apply good_end, good3, dsz_calm. Qed.
Theorem end_gt f l : gt_read f = Ok l -> one_end l. Proof. apply good_end, good3, dsz_calm. Qed.
Theorem end_emd f l : emd_read f = Ok l -> one_end l. Proof. apply good_end, good2, emd_calm. Qed.
Theorem end_inb f l : inb_read f = Ok l -> one_end l. Proof. apply good_end, good3, inb_calm. Qed.
Theorem end_ksm f l : ksm_read f = Ok l -> one_end l. Proof. apply good_end, good3, ksm_calm. Qed.
Theorem end_new f l : new_read f = Ok l -> one_end l. Proof. apply good_end, good3, new_calm. Qed.
Theorem end_stc f l : stc_read f = Ok l -> one_end l. Proof. apply good_end, good3, stc_calm. Qed.
Theorem end_zhs f l : zhs_stitches f = Ok l -> one_end l. Proof. apply good_end, good3, zhs_calm. Qed.
Theorem end_jpx f t l : jpx_read f = Ok (t, l) -> one_end l.
Proof.
  unfold jpx_read. destruct (read_int_32le f) as [start f1]. destruct (read_int_32le (skipn 28 f1)) as [colors f2].
  destruct colors; [|discriminate]. destruct start; [|discriminate].
  destruct (ended _) as [l'|e] eqn:E; [|discriminate]. cbn [bindr]. intros [= <- <-]. revert E. apply good_end, good2, jpx_calm.
Qed.
Theorem end_sew f t l : sew_read f = Ok (t, l) -> one_end l.
Proof.
  unfold sew_read. destruct (read_int_16le f) as [colors f1]. destruct colors; [|discriminate].
  destruct (sew_threads _ _); [|discriminate]. cbn [bindr].
  destruct (ended _) as [l'|e] eqn:E; [|discriminate]. cbn [bindr]. intros [= <- <-]. revert E. apply good_end, good2, sew_calm.
Qed.
Theorem end_zxy f l : zxy_read f = Ok l -> one_end l.
Proof.
  unfold zxy_read. destruct (read_int_16be (skipn 1 f)) as [n f1]. destruct n; [|discriminate]. apply good_end, good3, zxy_calm.
Qed.
Lemma bro_any : forall fuel bytes, (List.length bytes < fuel)%nat ->
  match bro_loop fuel bytes with Ok ev => Forall quiet ev | Err e => e = TypeError end.
Proof.
  induction fuel as [|fuel IH]; intros bytes H; [lia|]. cbn [bro_loop].
  destruct bytes as [|a [|b r]]; [constructor..|]. cbn [List.length] in H.
  assert (G : forall c q, Forall quiet c -> (List.length q < fuel)%nat ->
    match calls_then c (bro_loop fuel q) with Ok ev => Forall quiet ev | Err e => e = TypeError end).
  { intros c q C L. specialize (IH q L). unfold calls_then. destruct (bro_loop fuel q); cbn [bindr]; [apply Forall_app; auto|exact IH]. }
  destruct (negb _); [apply G; [calmly|lia]|].
  destruct r as [|k r]; [reflexivity|]. cbn [read_int_8 firstn skipn]. cbv zeta. cbn [List.length] in H.
  assert (F : forall c, Forall quiet c ->
    match (let '(x, r0) := read_int_16le r in
     match x with None => Err TypeError | Some x => let '(y, r1) := read_int_16le r0 in
       match y with None => Err TypeError | Some y => calls_then (c ++ [mkS (signed16 x) (- signed16 y) JUMP]) (bro_loop fuel r1) end end)
    with Ok ev => Forall quiet ev | Err e => e = TypeError end).
  { intros c C. destruct r as [|a1 [|a2 r]]; [reflexivity..|]. cbn [read_int_16le firstn skipn].
    destruct r as [|a3 [|a4 r]]; [reflexivity..|]. cbn [read_int_16le firstn skipn]. apply G; [|cbn [List.length] in H; lia].
    apply Forall_app. split; [exact C|]. apply Forall_cons; [discriminate|apply Forall_nil]. }
  destruct (k =? 0); [apply IH; lia|]. destruct (k =? 2); [constructor|]. destruct (k =? 0xE0); [constructor|].
  destruct (k =? 0x7E); [apply (F []); constructor|]. destruct (k =? 3); [apply (F []); constructor|].
  destruct (_ && _); [|constructor]. apply F. apply Forall_cons; [apply needle_quiet|apply Forall_nil].
Qed.
Theorem end_bro f l : bro_read f = Ok l -> one_end l.
Proof.
  unfold bro_read. pose proof (bro_any _ (skipn 0x100 f) (Nat.lt_succ_diag_r _)) as H. destruct (bro_loop _ _) as [ev|e]; [|discriminate].
  cbn [ended bindr]. rewrite apply_rel_end. intros [= <-]. exists (apply_rel 0 0 ev). split; [reflexivity|]. apply quiet_applied. exact H.
Qed.

(** Which files raise. *)
Theorem bro_outcome f : (exists l, bro_read f = Ok l) \/ bro_read f = Err TypeError.
Proof.
  unfold bro_read. pose proof (bro_any _ (skipn 0x100 f) (Nat.lt_succ_diag_r _)) as H. destruct (bro_loop _ _) as [ev|e]; cbn [ended bindr]; [eauto|].
  right. congruence.
Qed.
Lemma spx_fits : forall fuel bytes, (List.length bytes < fuel)%nat ->
  if 2 <=? zlen bytes mod 9 then (if zlen bytes mod 9 <=? 6 then spx_loop fuel bytes = Err TypeError else exists ev, spx_loop fuel bytes = Ok ev)
  else exists ev, spx_loop fuel bytes = Ok ev.
Proof.
  induction fuel as [|fuel IH]; intros bytes H; [lia|]. cbn [spx_loop].
  destruct bytes as [|b0 [|b1 [|a [|b [|c [|d [|e [|f [|g r]]]]]]]]]; try (unfold zlen; cbn; eauto; fail).
  unfold read_int_16be, read_int_8. cbn [firstn skipn]. cbn [List.length] in H. specialize (IH r ltac:(lia)).
  replace (zlen (b0 :: b1 :: a :: b :: c :: d :: e :: f :: g :: r) mod 9) with (zlen r mod 9) by (unfold zlen; cbn [List.length]; lia).
  destruct (2 <=? _); [destruct (_ <=? 6)|]; [rewrite IH; reflexivity|destruct IH as (ev & ->); eexists; reflexivity..].
Qed.
Theorem spx_outcome f : let k := (zlen f - 0x11E) mod 9 in
  if (0x11E <? zlen f) && (2 <=? k) && (k <=? 6) then spx_read f = Err TypeError else exists l, spx_read f = Ok l.
Proof.
  cbv zeta. unfold spx_read. pose proof (spx_fits _ (skipn 0x11E f) (Nat.lt_succ_diag_r _)) as H.
  assert (L : zlen (skipn 0x11E f) = Z.max 0 (zlen f - 0x11E)) by (unfold zlen; rewrite skipn_length; lia). rewrite L in H.
  destruct (Z.ltb_spec 0x11E (zlen f)) as [G|G]; cbn [andb].
  - rewrite Z.max_r in H by lia. destruct (2 <=? _); cbn [andb]; [destruct (_ <=? 6)|].
    + rewrite H. reflexivity.
    + destruct H as (ev & ->). eexists. reflexivity.
    + destruct H as (ev & ->). eexists. reflexivity.
  - rewrite Z.max_l in H by lia. change (2 <=? 0 mod 9) with false in H. cbv iota in H. destruct H as (ev & H).
    rewrite H. eexists. reflexivity.
Qed.
Theorem jpx_outcome f : if zlen f <? 36 then jpx_read f = Err TypeError else exists t l, jpx_read f = Ok (t, l).
Proof.
  assert (R : forall g, read_int_32le g = if zlen g <? 4 then (None, skipn 4 g) else (fst (read_int_32le g), skipn 4 g)).
  { intros g. unfold zlen. destruct g as [|a [|b [|c [|d g]]]]; try reflexivity. destruct (_ <? 4) eqn:E; [|reflexivity]. cbn [List.length] in E. lia. }
  assert (R1 : forall g, 4 <= zlen g -> exists v, fst (read_int_32le g) = Some v).
  { intros g. unfold zlen. destruct g as [|a [|b [|c [|d g]]]]; cbn [List.length]; try lia. eexists. reflexivity. }
  unfold jpx_read. rewrite (R f). destruct (Z.ltb_spec (zlen f) 4) as [A|A].
  - destruct (Z.ltb_spec (zlen f) 36); [|lia]. destruct (read_int_32le _) as [[c|] ?]; reflexivity.
  - destruct (R1 f A) as (v & ->). rewrite (R (skipn 28 _)). assert (L : zlen (skipn 28 (skipn 4 f)) = Z.max 0 (zlen f - 32)).
    { unfold zlen. rewrite !skipn_length. lia. }
    rewrite L. destruct (Z.ltb_spec (zlen f) 36) as [B|B].
    + destruct (Z.ltb_spec (Z.max 0 (zlen f - 32)) 4); [reflexivity|lia].
    + destruct (Z.ltb_spec (Z.max 0 (zlen f - 32)) 4); [lia|]. destruct (R1 (skipn 28 (skipn 4 f)) ltac:(lia)) as (w & ->).
      match goal with |- context [ended ?x] => destruct (good2 quiet jpx_body None jpx_calm (skipn (Z.to_nat (Z.min v (zlen f))) f)) as (ev & E & _) end.
      rewrite E. cbn [ended bindr]. eauto.
Qed.
Theorem zxy_outcome f : if zlen f <? 3 then zxy_read f = Err TypeError else exists l, zxy_read f = Ok l.
Proof.
  unfold zxy_read, zlen. destruct f as [|a [|b [|c f]]]; try reflexivity. destruct (_ <? 3) eqn:E; [cbn [List.length] in E; lia|].
  cbn [skipn read_int_16be firstn].
  match goal with |- context [loop3 zxy_body tt ?x] => destruct (good3 quiet zxy_body tt zxy_calm x) as (ev & -> & _) end. eexists. reflexivity.
Qed.
Theorem stx_outcome f : if zlen f <? 24 then stx_read f = Err TypeError else exists l, stx_read f = Ok l.
Proof.
  unfold stx_read, zlen. assert (L : List.length (skipn 0x0C f) = (List.length f - 12)%nat) by apply skipn_length.
  destruct (skipn 0x0C f) as [|a1 [|a2 [|a3 [|a4 [|a5 [|a6 [|a7 [|a8 [|a9 [|aa [|ab [|ac r]]]]]]]]]]]]; cbn [List.length] in L;
    (destruct (Z.ltb_spec (Z.of_nat (List.length f)) 24); [try lia; reflexivity|]; try lia).
  cbn [read_int_32le firstn skipn]. eexists. reflexivity.
Qed.
Lemma sew_threads_any : forall n f, if 2 * Z.of_nat n <=? zlen f then exists t, sew_threads n f = Ok t else sew_threads n f = Err TypeError.
Proof.
  induction n as [|n IH]; intros f; [destruct (Z.leb_spec (2 * Z.of_nat 0) (zlen f)); [eexists; reflexivity|unfold zlen in *; lia]|].
  cbn [sew_threads]. destruct f as [|a [|b f]]; unfold read_int_16le; cbn [firstn skipn].
  1, 2: match goal with |- context [?u <=? ?v] => destruct (Z.leb_spec u v) as [G|G] end; [unfold zlen in G; cbn [List.length] in G; lia|reflexivity].
  specialize (IH f). replace (2 * Z.of_nat (S n) <=? zlen (a :: b :: f)) with (2 * Z.of_nat n <=? zlen f).
  - destruct (_ <=? _); [destruct IH as (t & ->); eexists; reflexivity|rewrite IH; reflexivity].
  - unfold zlen. cbn [List.length]. destruct (Z.leb_spec (2 * Z.of_nat n) (Z.of_nat (List.length f))), (Z.leb_spec (2 * Z.of_nat (S n)) (Z.of_nat (S (S (List.length f))))); lia.
Qed.
(** [n] threads announced. *)
Theorem sew_outcome n r : 0 <= n < 65536 ->
  (if 2 * n <=? zlen r then exists t l, sew_read (le16 n ++ r) = Ok (t, l) else sew_read (le16 n ++ r) = Err TypeError)
  /\ sew_read [] = Err TypeError /\ forall b, sew_read [b] = Err TypeError.
Proof.
  intros H. split; [|split; reflexivity]. unfold sew_read. assert (E : read_int_16le (le16 n ++ r) = (Some n, r)).
  { unfold read_int_16le, le16, two16. cbn [app firstn skipn]. unfold b8. rewrite !land_ff, Z.shiftl_mul_pow2 by lia.
    change (2 ^ 8) with 256. f_equal. f_equal. lia. }
  rewrite E. pose proof (sew_threads_any (Z.to_nat n) r) as T. rewrite Z2Nat.id in T by lia. destruct (_ <=? _).
  - destruct T as (t & ->). cbn [bindr].
    match goal with |- context [loop2 sew_body None ?x] => destruct (good2 quiet sew_body None sew_calm x) as (ev & -> & _) end.
    cbn [ended bindr]. eauto.
  - rewrite T. reflexivity.
Qed.

(** A needle change in a Barudan DAT file. *)
Lemma barudan_needle l bytes n dx dy :
  stores rec_barudan (fun tail => exists r, tail = (0x80 + neg dx 0x20 + pos dy 0x40 + 8 + n) :: Z.abs dy :: Z.abs dx :: r) tt 0 0 l bytes ->
  1 <= n <= 15 -> mag8 dx -> mag8 dy -> dat_read bytes = Err AttributeError.
Proof.
  intros H N A B. enough (G : barudan_loop bytes = Err AttributeError) by (unfold dat_read; rewrite G; reflexivity).
  revert H. generalize tt. generalize 0 at 2. generalize 0. intros px py s H.
  induction H as [s px py tail (r & ->)|s s' px py steps b l bytes R here H IH].
  - cbn [barudan_loop]. assert (I : In n [1; 2; 3; 4; 5; 6; 7; 8; 9; 10; 11; 12; 13; 14; 15]) by (cbn [In]; lia).
    signs dx dy; cbn [In] in I; repeat (destruct I as [<-|I]; [reflexivity|]); contradiction.
  - destruct R as [k steps dx' dy' A' B' I]. cbn [app barudan_loop].
    signs dx' dy'; cbn [In] in I; repeat (destruct I as [I|I]; [injection I as <- <-; cbv zeta; closedb; rewrite IH; reflexivity|]); contradiction.
Qed.
