(** PES files: what is read back. *)
From Coq Require Import Ascii String ZArith QArith List Bool Lia.
From Verif Require Import PyBase EmbConst StreamModel StreamSpec HelperModel HelperProofs NumQ QuantModel
  BitLemmas ThreadModel ThreadProofs Utf8Model Utf8Proofs TextModel TextProofs PatternModel PatternSpec PatternProofs
  Vp3Model Vp3Proofs ColorFileProofs PecModel PecSpec PecProofs PecFileModel PecFileSpec PecGraphicsProofs PecFileProofs
  PesModel PesSpec.
Import ListNotations.
Open Scope Z_scope.

Lemma expand_keeps {T C} : forall (l : list (stitch C)) (ts : list T), (thread_changes l < length ts)%nat ->
  incl ts (expand ts l).
Proof.
  induction l as [|s r IH]; intros ts H; [apply incl_refl|]. cbn [expand]. rewrite thread_changes_cons in H.
  destruct (changes (scmd s)).
  { destruct ts as [|t ts]; [cbn in H; lia|]. cbn [length] in H. intros x [->|Hx]; [left; reflexivity|].
    right. apply IH; [lia|exact Hx]. }
  destruct (cmd_of (scmd s) =? STOP); [|apply IH; lia].
  destruct ts as [|t ts]; [cbn in H; lia|]. intros x Hx. right. apply IH; [lia|exact Hx].
Qed.

Lemma text_eqb_refl : forall t, text_eqb t t = true.
Proof. induction t as [|c t IH]; [reflexivity|]. cbn [text_eqb]. rewrite Z.eqb_refl, IH. reflexivity. Qed.
Lemma otext_eqb_refl t : otext_eqb t t = true.
Proof. destruct t; [apply text_eqb_refl|reflexivity]. Qed.
Lemma thread_eqb_refl t : thread_eqb t t = true.
Proof. unfold thread_eqb. rewrite Z.eqb_refl, !otext_eqb_refl. reflexivity. Qed.

Lemma neighbours_map {A B} (f : A -> B) (teq : B -> B -> bool) l :
  neighbours (fun x y => teq (f x) (f y) = false) l -> neighbours_differ teq (map f l).
Proof.
  intros H a x y b E. apply map_eq_app in E. destruct E as (a' & r & E & _ & Er).
  apply map_eq_cons in Er. destruct Er as (x' & r' & -> & <- & Er). apply map_eq_cons in Er.
  destruct Er as (y' & b' & -> & <- & _). apply (H a' x' y' b'). exact E.
Qed.

(** ** PEC files *)
Lemma palette_facts order l threads : set_order order -> pec_room l threads ->
  let pal := palette_thread (order (expand threads l)) in
  (forall t, In t (expand threads l) -> (palette_index (order (expand threads l)) t < 65)%nat /\
     nth_error pec_threads (palette_index (order (expand threads l)) t) = Some (Some (pal t))) /\
  (forall t, In t threads -> In (Some (pal t)) pec_threads) /\
  (forall a b, In a threads -> In b threads -> (thread_eqb (pal a) (pal b) = true <-> same_color (t_color a) (t_color b))) /\
  (forall a b, In a threads -> In b threads -> (pal a = pal b <-> same_color (t_color a) (t_color b))).
Proof.
  intros Ho (R1 & R2 & (d & Hd & Ld) & R4) pal. set (ts := expand threads l) in *.
  destruct (Ho ts) as (Nd & Inc & Cov).
  assert (L64 : (List.length (order ts) <= 64)%nat).
  { apply Nat.le_trans with (List.length d); [|exact Ld]. apply NoDup_incl_length; [exact Nd|].
    intros t Ht. apply Hd, (expand_incl l threads), Inc, Ht. }
  destruct (palette_index_ok (order ts) ts L64 Cov) as (P1 & P2 & P3).
  pose proof (expand_keeps l threads R1) as K. fold ts in K.
  assert (D : forall a b, In a threads -> In b threads -> thread_eqb (pal a) (pal b) = true -> same_color (t_color a) (t_color b)).
  { intros a b Ha Hb E. apply (P3 a b (K a Ha) (K b Hb)).
    exact (pec_threads_differ _ _ _ _ (proj2 (P2 a (K a Ha))) (proj2 (P2 b (K b Hb))) E). }
  assert (S : forall a b, In a threads -> In b threads -> same_color (t_color a) (t_color b) -> pal a = pal b).
  { intros a b Ha Hb E. apply (P3 a b (K a Ha) (K b Hb)) in E. unfold pal, palette_thread. rewrite E. reflexivity. }
  split; [exact P2|]. split; [|split].
  - intros t Ht. exact (nth_error_In _ _ (proj2 (P2 t (K t Ht)))).
  - intros a b Ha Hb. split; [apply D; assumption|]. intros E. rewrite (S a b Ha Hb E). apply thread_eqb_refl.
  - intros a b Ha Hb. split; [|apply S; assumption]. intros E. apply D; [assumption|assumption|]. rewrite E. apply thread_eqb_refl.
Qed.

Lemma neighbours_impl {A} (R S : A -> A -> Prop) l : (forall x y, In x l -> In y l -> R x y -> S x y) ->
  neighbours R l -> neighbours S l.
Proof.
  intros H N a x y b E. apply H; [| |exact (N a x y b E)]; rewrite E; apply in_or_app; right; cbn; auto.
Qed.

Lemma signature_read (sig : string) rest : zlen (text_of sig) = 8 -> Forall ascii (text_of sig) ->
  read_string_8 (Some 8) (0, text_of sig ++ rest) = (Some (text_of sig), (8, rest)).
Proof.
  intros L A. unfold read_string_8. rewrite (s_read_app _ (text_of sig) _ 8) by (symmetry; exact L).
  destruct (utf8_ascii _ A) as [_ ->]. reflexivity.
Qed.
Lemma sig_ascii (sig : string) : forallb (fun c => (0 <=? c) && (c <? 128)) (text_of sig) = true -> Forall ascii (text_of sig).
Proof.
  intros H. apply Forall_forall. intros c Hc. rewrite forallb_forall in H. specialize (H c Hc).
  rewrite andb_true_iff, Z.leb_le, Z.ltb_lt in H. exact H.
Qed.

Lemma palette_restored order l threads : set_order order -> pec_pattern l -> pec_room l threads ->
  neighbours (fun a b => ~ same_color (t_color a) (t_color b)) threads ->
  interpolate_duplicate_color_as_stop thread_eqb (map cc (pec_kept l))
    (map added (map_pec_colors (map Z.of_nat (map (palette_index (order (expand threads l))) (expand threads l))) []))
  = (pec_kept l, map (palette_thread (order (expand threads l))) threads).
Proof.
  intros Ho P R N. destruct (palette_facts order l threads Ho R) as (F1 & F2 & F3 & F4).
  rewrite colours_read by (intros t Ht; apply F1, Ht). rewrite <- expand_map. apply kept_restored; [exact P|apply thread_eqb_refl| |].
  - rewrite map_length. apply R.
  - apply neighbours_map. apply (neighbours_impl _ _ threads) with (2 := N).
    intros x y Hx Hy D. destruct (thread_eqb _ _) eqn:E; [|reflexivity]. exfalso. apply D, (F3 x y Hx Hy), E.
Qed.

Lemma pec_file filler order name l threads : set_order order -> Forall ascii (label_of name) ->
  pec_pattern l -> pec_room l threads ->
  neighbours (fun a b => ~ same_color (t_color a) (t_color b)) threads ->
  exists file pictures, pec_write filler order name l threads = Ok file /\
  pec_file_read file
  = Ok (pec_kept l, map (palette_thread (order (expand threads l))) threads, name_text name ++ pictures) /\
  (List.length threads = S (thread_changes l) -> forall e, box_of (map cc l) = Some e ->
     pictures = picture_entries 0 (pictures_of e l)
       (None :: map Some (map (palette_thread (order (expand threads l))) (expand threads l)))).
Proof.
  intros Ho Ha P R N. destruct (pec_part filler order name l threads Ho Ha P R) as (pec & idx & W & Rd).
  destruct (Rd (text_of "#PEC0001") [] []) as (pics & E & G). exists (text_of "#PEC0001" ++ pec), pics. split; [|split].
  - unfold pec_write. rewrite prepare_of by apply R. rewrite W. reflexivity.
  - unfold pec_file_read. rewrite signature_read; [|reflexivity|apply sig_ascii; reflexivity].
    rewrite app_nil_r in E. change (zlen (text_of "#PEC0001")) with 8 in E. rewrite E. cbn [bindr finish_read].
    rewrite palette_restored by assumption. reflexivity.
  - intros Hn e Ee. rewrite (G Hn e Ee). f_equal. f_equal. destruct (palette_facts order l threads Ho R) as (F1 & _).
    apply colours_some, F1.
Qed.

(** ** Texts and threads of version 6 *)
Lemma string_of t : ascii_text t -> exists b, write_pes_string_8 t = Ok b /\
  forall pos rest, read_pes_string (pos, b ++ rest) = (stored_text t, (pos + zlen b, rest)).
Proof.
  intros H. destruct t as [t|]; cbn [write_pes_string_8].
  2: { exists [0]. split; [reflexivity|]. intros pos rest. unfold read_pes_string. cbn [app]. rewrite s_byte. reflexivity. }
  assert (Ef : (if 255 <? zlen t then firstn 255 t else t) = firstn 255 t).
  { destruct (Z.ltb_spec 255 (zlen t)); [reflexivity|]. rewrite firstn_all2; [reflexivity|]. unfold zlen in *. lia. }
  cbv zeta. rewrite Ef. set (u := firstn 255 t).
  assert (Hu : Forall ascii u) by (apply Forall_firstn; exact H).
  destruct (utf8_ascii u Hu) as [Ee Ed]. rewrite Ee. cbn [bindr]. eexists. split; [reflexivity|]. intros pos rest.
  assert (Lu : 0 <= zlen u <= 255) by (unfold u, zlen; rewrite firstn_length; lia).
  unfold read_pes_string. rewrite <- app_assoc, byte_8, land_ff, Z.mod_small, s_byte by lia.
  rewrite zlen_app. change (zlen (write_int_8 (zlen u))) with 1.
  destruct (Z.eqb_spec (zlen u) 0) as [E|E].
  - assert (u = []) by (destruct u; [reflexivity|unfold zlen in E; cbn in E; lia]). unfold u in H0.
    destruct t; [|discriminate H0]. cbn [stored_text]. reflexivity.
  - unfold read_string_8. rewrite (s_read_app _ u _ (zlen u)) by reflexivity. rewrite Ed.
    destruct t as [|c r]; [exfalso; apply E; reflexivity|]. cbn [stored_text]. fold u. f_equal. f_equal. lia.
Qed.

Lemma lor_alpha c : 0 <= c < 2 ^ 24 -> Z.lor 0xFF000000 c = 0xFF000000 + c.
Proof.
  intros H. rewrite Z.lor_comm. change 0xFF000000 with (Z.shiftl 0xFF 24). rewrite lor_shiftl_add by lia.
  rewrite Z.shiftl_mul_pow2 by lia. lia.
Qed.
Lemma rgb_bytes c rest : write_int_8 (get_red c) ++ write_int_8 (get_green c) ++ write_int_8 (get_blue c) ++ rest
  = write_int_24be c ++ rest.
Proof.
  rewrite !byte_8, land_get_red, land_get_green, land_get_blue.
  unfold get_red, get_green, get_blue, write_int_24be, sh8. cbn [app]. rewrite ?Z.shiftr_0_r. reflexivity.
Qed.

Lemma thread_of t : ascii_thread t -> exists b, write_pes_thread t = Ok b /\
  forall pos rest, read_pes_thread (pos, b ++ rest) = Ok (stored_thread t, (pos + zlen b, rest)).
Proof.
  intros (Hd & Hc & Hb & Hch). unfold write_pes_thread.
  destruct (string_of _ Hc) as (b1 & -> & R1). destruct (string_of _ Hd) as (b2 & -> & R2).
  destruct (string_of _ Hb) as (b3 & -> & R3). destruct (string_of _ Hch) as (b4 & -> & R4).
  cbn [bindr]. eexists. split; [reflexivity|]. intros pos rest. unfold read_pes_thread.
  rewrite <- !app_assoc, R1, rgb_bytes, s_24be. cbn [some bindr].
  rewrite (app_assoc (write_int_8 0)). rewrite (s_seek_app _ (write_int_8 0 ++ write_int_32le 10) _ 5) by reflexivity.
  rewrite R2, R3, R4. unfold stored_thread. rewrite lor_alpha by (apply Z.mod_pos_bound; lia). f_equal. f_equal. f_equal.
  rewrite !zlen_app. change (zlen (write_int_8 (get_red (t_color t)))) with 1.
  change (zlen (write_int_8 (get_green (t_color t)))) with 1. change (zlen (write_int_8 (get_blue (t_color t)))) with 1.
  change (zlen (write_int_8 0)) with 1. change (zlen (write_int_32le 10)) with 4. lia.
Qed.
Lemma threads_of ts : Forall ascii_thread ts -> exists b, write_pes_threads ts = Ok b /\
  forall pos rest, read_pes_threads (List.length ts) (pos, b ++ rest) = Ok (map stored_thread ts).
Proof.
  induction 1 as [|t ts Ht _ IH]; cbn [write_pes_threads].
  - exists []. split; [reflexivity|]. reflexivity.
  - destruct (thread_of t Ht) as (b1 & -> & R1). destruct IH as (b2 & -> & R2). cbn [bindr].
    eexists. split; [reflexivity|]. intros pos rest. cbn [List.length read_pes_threads].
    rewrite <- app_assoc, R1. cbn [bindr]. rewrite R2. reflexivity.
Qed.

(** ** The metadata of version 6 *)
Definition text_entry (md : meta_source) (key : string) : metadata :=
  match stored_text (md (text_of key)) with Some t => [(text_of key, Meta_text t)] | None => [] end.
Definition text_entries (md : meta_source) : metadata :=
  text_entry md "name" ++ text_entry md "category" ++ text_entry md "author" ++ text_entry md "keywords"
  ++ text_entry md "comments".
Lemma entry_of md key : ascii_text (md (text_of key)) -> exists b, write_pes_string_8 (md (text_of key)) = Ok b /\
  forall pos rest, read_pes_entry key (pos, b ++ rest) = (text_entry md key, (pos + zlen b, rest)).
Proof.
  intros H. destruct (string_of _ H) as (b & E & R). exists b. split; [exact E|]. intros pos rest.
  unfold read_pes_entry. rewrite R. unfold text_entry.
  destruct (md (text_of key)) as [[|c t]|]; reflexivity.
Qed.

Section Version6.
Variable f32 : Q -> list Z.
Hypothesis f32_length : forall v, zlen (f32 v) = 4.

Definition ascii_meta (md : meta_source) : Prop :=
  Forall (fun key => ascii_text (md (text_of key))) ["name"; "category"; "author"; "keywords"; "comments"]%string.

Lemma header_v6 md chart n : ascii_meta md -> Forall ascii_thread chart -> zlen chart < 65536 ->
  exists b, write_pes_header_v6 f32 md chart n = Ok b /\
  forall pos rest, read_pes_header false 36 "image_file" 24 (pos, b ++ rest) = Ok (map stored_thread chart, text_entries md).
Proof.
  intros Hm Hc Hl. unfold ascii_meta in Hm. rewrite !Forall_cons_iff in Hm.
  destruct Hm as (H1 & H2 & H3 & H4 & H5 & _). unfold write_pes_header_v6.
  destruct (entry_of md _ H1) as (b1 & -> & R1). destruct (entry_of md _ H2) as (b2 & -> & R2).
  destruct (entry_of md _ H3) as (b3 & -> & R3). destruct (entry_of md _ H4) as (b4 & -> & R4).
  destruct (entry_of md _ H5) as (b5 & -> & R5). destruct (threads_of chart Hc) as (b6 & -> & R6).
  cbn [bindr]. eexists. split; [reflexivity|]. intros pos rest. unfold read_pes_header.
  rewrite <- !app_assoc. rewrite (app_assoc (write_int_16le 1) [48; 50]).
  rewrite (s_seek_app _ (write_int_16le 1 ++ [48; 50]) _ 4) by reflexivity.
  unfold read_pes_metadata. rewrite R1, R2, R3, R4, R5.
  rewrite (s_seek_app _ (flat_map write_int_16le header_v6_numbers) _ 36) by reflexivity.
  unfold read_pes_entry at 1, read_pes_string at 1. rewrite byte_8. change (Z.land 0 255) with 0. rewrite s_byte. cbn iota beta.
  change (0 =? 0) with true. cbn iota beta.
  set (m := f32 1 ++ f32 0 ++ f32 0 ++ f32 1 ++ f32 0 ++ f32 0).
  match goal with |- context [s_seek 24 (?p, ?l)] => replace l with
    (m ++ write_int_16le 0 ++ write_int_16le 0 ++ write_int_16le 0 ++ write_int_16le (zlen chart) ++ b6 ++ write_int_16le n ++ rest)
    by (unfold m; rewrite <- !app_assoc; reflexivity) end.
  rewrite (s_seek_app _ m _ 24) by (unfold m; rewrite !zlen_app, !f32_length; reflexivity).
  unfold read_pes_counts.
  assert (S16 : forall p v r, s_int read_int_16le (p, write_int_16le v ++ r) = (Some (v mod 2 ^ 16), (p + 2, r))).
  { intros p v r. exact (s_int_of _ _ _ p r (rw_16le v r)). }
  do 4 (rewrite S16; change (0 mod 2 ^ 16) with 0; cbn iota beta).
  rewrite Z.mod_small by (pose proof (zlen_nonneg chart); change (2 ^ 16) with 65536; lia). cbn [some bindr].
  unfold zlen at 1. rewrite Nat2Z.id, R6. cbn [bindr]. f_equal. f_equal. cbn [app]. apply app_nil_r.
Qed.
End Version6.

(** ** The design part is always written *)
Lemma write_segments_ok : forall l first section previous, Forall (fun s : segment => snd (fst s) <> None) l ->
  exists r, write_segments first section previous l = Ok r.
Proof.
  induction l as [|[[points code] flag] r IH]; intros first section previous F; cbn [write_segments]; [eauto|].
  apply Forall_cons_iff in F as [Fc F]. cbn [fst snd] in Fc. destruct code as [c|]; [|congruence].
  destruct (IH false (section + 1) (Some c) F) as [[bytes log] ->]. cbn [bindr]. eauto.
Qed.
Lemma segments_codes (get : Z -> thread) chart ax ay : (forall c, find_nearest_color_index c chart <> None) ->
  forall bs i code stitched, code <> None ->
  Forall (fun s : segment => snd (fst s) <> None) (segments_blocks get chart ax ay i code stitched bs).
Proof.
  intros H. induction bs as [|b bs IH]; intros i code stitched Hc; cbn [segments_blocks]; [constructor|].
  destruct b as [|s b]; [auto|]. destruct (cmd_of (scmd s) =? JUMP); [constructor; auto|].
  destruct (cmd_of (scmd s) =? COLOR_CHANGE); [auto|]. destruct (cmd_of (scmd s) =? STITCH); [constructor; auto|]. auto.
Qed.
Lemma blocks_written f32 get chart e l : (0 < usable chart)%nat -> exists r, write_pes_blocks f32 get chart e l = Ok r.
Proof.
  intros Hu. destruct e as [[[x0 y0] x1] y1]. unfold write_pes_blocks, write_pes_embsewseg_segments, get_as_segments_blocks.
  assert (Hn : forall c, find_nearest_color_index c chart <> None).
  { intros c. destruct (usable_some chart c Hu) as [i ->]. discriminate. }
  match goal with |- context [write_segments true 0 None ?l] => destruct (write_segments_ok l true 0 None) as [[bytes log] E] end.
  { apply segments_codes; [exact Hn|apply Hn]. }
  rewrite E. cbn [bindr]. eauto.
Qed.

(** ** Reading a PES file *)
Lemma s_32le pos v rest : s_int read_int_32le (pos, write_int_32le v ++ rest) = (Some (v mod 2 ^ 32), (pos + 4, rest)).
Proof. exact (s_int_of _ _ _ pos rest (rw_32le v rest)). Qed.
Lemma pes_read_of (sig : string) middle pec post chart m stitches threads m' :
  zlen (text_of sig) = 8 -> Forall ascii (text_of sig) -> text_eqb (text_of sig) (text_of "#PEC0001") = false ->
  let pre := pes_start sig middle in
  zlen (pre ++ pec ++ post) < 2 ^ 32 ->
  read_pes_version (Some (text_of sig)) (12, middle ++ pec ++ post) = Ok (chart, m) ->
  read_pec (pre ++ pec ++ post) (zlen pre, pec ++ post) chart = Ok (stitches, threads, m') ->
  pes_read (pre ++ pec ++ post) = Ok (finish_read (stitches, threads, m ++ m')).
Proof.
  intros Ls As Ns pre Lf Ev Er. unfold pes_read.
  assert (Ep : pre ++ pec ++ post = text_of sig ++ write_int_32le (12 + zlen middle) ++ middle ++ pec ++ post)
    by (unfold pre, pes_start; rewrite <- !app_assoc; reflexivity).
  rewrite Ep at 1. rewrite signature_read by assumption. unfold is_text. rewrite Ns. rewrite s_32le. change (8 + 4) with 12.
  rewrite Ev. cbn [bindr some].
  assert (Lp : zlen pre = 12 + zlen middle).
  { unfold pre, pes_start. rewrite !zlen_app, Ls. change (zlen (write_int_32le (12 + zlen middle))) with 4. lia. }
  rewrite Z.mod_small.
  2: { pose proof (zlen_nonneg middle). rewrite !zlen_app in Lf. pose proof (zlen_nonneg pec). pose proof (zlen_nonneg post). lia. }
  unfold seek_to. rewrite <- Lp, skipn_zapp, Er. reflexivity.
Qed.

Lemma version_1_read f : read_pes_version (Some (text_of "#PES0001")) f = Ok ([], version_entry 10).
Proof. reflexivity. Qed.
Lemma version_6_read f : read_pes_version (Some (text_of "#PES0060")) f
  = do ' (threads, m) <- read_pes_header false 36 "image_file" 24 f; Ok (threads, version_entry 60 ++ m).
Proof. reflexivity. Qed.

(** ** Version 1 *)
Section Files.
Variable f32 : Q -> list Z.
Variables (filler : Z -> thread) (order : list thread -> list thread) (md : meta_source).
Variables (l : list (stitch Q)) (threads : list thread).
Hypothesis Ho : set_order order.
Hypothesis Ha : Forall ascii (label_of (md (text_of "name"))).
Hypothesis P : pec_pattern l.
Hypothesis R : pec_room l threads.

Lemma usable_pec : (0 < usable pec_threads)%nat.
Proof. change (usable pec_threads) with 64%nat. lia. Qed.

Lemma v1_start truncated : exists middle pec,
  pes_write f32 filler order 10 truncated md l threads = Ok (pes_start "#PES0001" middle ++ pec) /\
  forall post, exists pictures,
    read_pec (pes_start "#PES0001" middle ++ pec ++ post) (zlen (pes_start "#PES0001" middle), pec ++ post) []
    = Ok (map cc (pec_kept l),
          map added (map_pec_colors (map Z.of_nat (map (palette_index (order (expand threads l))) (expand threads l))) []),
          name_text (md (text_of "name")) ++ pictures).
Proof.
  destruct (pec_part filler order (md (text_of "name")) l threads Ho Ha P R) as (pec & idx & W & Rd).
  unfold pes_write. rewrite prepare_of by apply R. change (10 =? 10) with true. destruct truncated.
  - exists (repeat 0 10), pec. split.
    + unfold write_truncated_version_1. rewrite W. cbn [bindr]. reflexivity.
    + intros post. destruct (Rd (pes_start "#PES0001" (repeat 0 10)) post []) as (pics & E & _). eauto.
  - assert (M : exists middle, match box_of (map cc l) with
        | None => Ok (write_pes_header_v1 0 ++ write_int_16le 0 ++ write_int_16le 0)
        | Some e => do ' (blocks, _) <- write_pes_blocks f32 (get_thread_or_filler filler (expand threads l)) pec_threads e (map cc l);
            Ok (write_pes_header_v1 1 ++ write_int_16le 0xFFFF ++ write_int_16le 0 ++ blocks)
        end = Ok middle).
    { destruct (box_of (map cc l)) as [e|]; [|eauto].
      destruct (blocks_written f32 (get_thread_or_filler filler (expand threads l)) pec_threads e (map cc l) usable_pec) as [[b log] ->].
      cbn [bindr]. eauto. }
    destruct M as [middle EM]. exists middle, pec. split.
    + unfold write_version_1. rewrite EM. cbn [bindr]. rewrite W. reflexivity.
    + intros post. destruct (Rd (pes_start "#PES0001" middle) post []) as (pics & E & _). eauto.
Qed.

Lemma pes_v1 truncated : neighbours (fun a b => ~ same_color (t_color a) (t_color b)) threads ->
  exists file, pes_write f32 filler order 10 truncated md l threads = Ok file /\
  (zlen file < 2 ^ 32 -> exists pictures, pes_read file
   = Ok (pec_kept l, map (palette_thread (order (expand threads l))) threads,
         version_entry 10 ++ name_text (md (text_of "name")) ++ pictures)).
Proof.
  intros N. destruct (v1_start truncated) as (middle & pec & W & Rd). eexists. split; [exact W|]. intros L.
  destruct (Rd []) as [pics E]. exists pics. rewrite <- (app_nil_r pec) in L |- *.
  rewrite (pes_read_of "#PES0001" middle pec [] [] (version_entry 10) _ _ _ eq_refl
    (sig_ascii "#PES0001" eq_refl) eq_refl L (version_1_read _) E).
  cbn [finish_read]. rewrite palette_restored by assumption. reflexivity.
Qed.

(** ** Version 6 *)
Hypothesis f32_length : forall v, zlen (f32 v) = 4.
Hypothesis Hm : ascii_meta md.
Hypothesis Ht : Forall ascii_thread threads.

Lemma expanded_ascii : Forall ascii_thread (expand threads l).
Proof.
  rewrite Forall_forall in *. intros t H. apply Ht, (expand_incl l threads), H.
Qed.
Lemma expanded_length : List.length (expand threads l) = (List.length threads + stops l)%nat.
Proof. apply expand_length, R. Qed.

Lemma v6_start truncated : exists header rest pec post pictures,
  pes_write f32 filler order 60 truncated md l threads
  = Ok (pes_start "#PES0060" (header ++ rest) ++ pec ++ post) /\
  (forall pos tail, read_pes_header false 36 "image_file" 24 (pos, header ++ tail)
     = Ok (map stored_thread (expand threads l), text_entries md)) /\
  read_pec (pes_start "#PES0060" (header ++ rest) ++ pec ++ post)
    (zlen (pes_start "#PES0060" (header ++ rest)), pec ++ post) (map stored_thread (expand threads l))
  = Ok (map cc (pec_kept l), map stored_thread (expand threads l), name_text (md (text_of "name")) ++ pictures).
Proof.
  destruct (pec_part filler order (md (text_of "name")) l threads Ho Ha P R) as (pec & idx & W & Rd).
  pose proof expanded_length as L. destruct R as (R1 & R2 & _ & _).
  assert (Lz : zlen (expand threads l) < 65536) by (unfold zlen; lia).
  assert (Colours : forall bytes, zlen bytes = zlen (expand threads l) ->
    map added (map_pec_colors bytes (map stored_thread (expand threads l))) = map stored_thread (expand threads l)).
  { intros bytes Lb. unfold map_pec_colors. destruct (map stored_thread (expand threads l)) as [|c ch] eqn:E.
    - apply map_eq_nil in E. rewrite E in L. cbn in L. lia.
    - rewrite <- E. assert (Ez : zlen (map stored_thread (expand threads l)) = zlen (expand threads l))
        by (unfold zlen; rewrite map_length; reflexivity).
      destruct (Z.leb_spec (zlen bytes) (zlen (map stored_thread (expand threads l)))); [|lia].
      rewrite map_map. apply map_id. }
  assert (Lb : zlen (map Z.of_nat (map (palette_index (order (expand threads l))) (expand threads l))) = zlen (expand threads l))
    by (unfold zlen; rewrite !map_length; reflexivity).
  unfold pes_write. rewrite prepare_of by exact R1. change (60 =? 10) with false. change (60 =? 60) with true.
  destruct truncated.
  - destruct (header_v6 f32 f32_length md (expand threads l) 0 Hm expanded_ascii Lz) as (header & EH & RH).
    destruct (Rd (pes_start "#PES0060" (header ++ repeat 0 5 ++ write_int_16le 0 ++ write_int_16le 0))
      (write_pes_addendum [255] [] ++ write_int_16le 0) (map stored_thread (expand threads l))) as (pics & E & _).
    rewrite (Colours _ Lb) in E. do 5 eexists. split; [|split; [exact RH|exact E]].
    unfold write_truncated_version_6. rewrite EH. cbn [bindr]. rewrite W. reflexivity.
  - unfold write_version_6.
    assert (F6 : fix_color_count filler (map cc l) (expand threads l) = expand threads l).
    { apply fix_enough. rewrite changes_cc, L. lia. }
    rewrite F6.
    destruct (box_some (map cc l)) as [e Eb].
    { destruct P as ((b & x & -> & _) & _). rewrite map_app. destruct (map cc b); discriminate. }
    rewrite Eb.
    destruct (header_v6 f32 f32_length md (expand threads l) 1 Hm expanded_ascii Lz) as (header & EH & RH).
    rewrite EH. cbn [bindr].
    destruct (blocks_written f32 (get_thread_or_filler filler (expand threads l)) (map Some (expand threads l)) e (map cc l))
      as [[b log] EBl].
    { unfold usable. rewrite <- (map_length Some) in L.
      assert (Hf : forall ts : list thread, filter (fun v => match v with Some _ => true | None => false end) (map Some ts) = map Some ts).
      { induction ts as [|t ts IH]; [reflexivity|]. cbn [map filter]. rewrite IH. reflexivity. }
      rewrite Hf. lia. }
    rewrite EBl. cbn [bindr]. rewrite W. cbn [bindr].
    match goal with |- context [pes_start "#PES0060" (header ++ ?r)] => set (rest := r) end.
    set (post := write_pes_addendum idx (map t_color (expand threads l)) ++ write_int_16le 0).
    destruct (Rd (pes_start "#PES0060" (header ++ rest)) post (map stored_thread (expand threads l))) as (pics & E & _).
    rewrite (Colours _ Lb) in E. exists header, rest, pec, post, pics. split; [reflexivity|]. split; [exact RH|exact E].
Qed.

Lemma stored_differ_eqb a b : stored_differ a b -> thread_eqb (stored_thread a) (stored_thread b) = false.
Proof.
  intros D. destruct (thread_eqb _ _) eqn:E; [|reflexivity]. exfalso. unfold thread_eqb, stored_thread in E.
  cbn [t_color t_description t_catalog t_details t_brand t_chart t_weight] in E.
  rewrite !andb_true_iff, Z.eqb_eq in E. destruct E as ((((((E1 & E2) & E3) & _) & E4) & E5) & _).
  apply otext_eqb_eq in E2, E3, E4, E5. change 16777215 with (Z.ones 24) in E1. rewrite !Z.land_ones in E1 by lia.
  change 4278190080 with (255 * 2 ^ 24) in E1. rewrite !(Z.add_comm (255 * 2 ^ 24)), !Z_mod_plus_full in E1.
  rewrite !Z.mod_mod in E1 by lia.
  destruct D as [D|[D|[D|[D|D]]]]; contradiction.
Qed.

Lemma pes_v6 truncated : neighbours stored_differ threads ->
  exists file, pes_write f32 filler order 60 truncated md l threads = Ok file /\
  (zlen file < 2 ^ 32 -> exists pictures, pes_read file
   = Ok (pec_kept l, map stored_thread threads,
         version_entry 60 ++ text_entries md ++ name_text (md (text_of "name")) ++ pictures)).
Proof.
  intros N. destruct (v6_start truncated) as (header & rest & pec & post & pics & W & RH & E). eexists. split; [exact W|].
  intros L. exists pics.
  assert (V : read_pes_version (Some (text_of "#PES0060")) (12, (header ++ rest) ++ pec ++ post)
    = Ok (map stored_thread (expand threads l), version_entry 60 ++ text_entries md)).
  { rewrite version_6_read, <- app_assoc, RH. reflexivity. }
  rewrite (pes_read_of "#PES0060" (header ++ rest) pec post _ _ _ _ _ eq_refl (sig_ascii "#PES0060" eq_refl) eq_refl L V E).
  cbn [finish_read]. rewrite <- expand_map, kept_restored; [rewrite <- app_assoc; reflexivity|exact P|apply thread_eqb_refl| |].
  - rewrite map_length. apply R.
  - apply neighbours_map. apply (neighbours_impl _ _ threads) with (2 := N). intros x y _ _. apply stored_differ_eqb.
Qed.
End Files.
