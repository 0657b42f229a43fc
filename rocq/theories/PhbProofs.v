From Coq Require Import Ascii String ZArith QArith List Bool Lia.
From Verif Require Import PyBase EmbConst StreamModel StreamSpec HelperModel NumQ QuantModel BitLemmas ThreadModel Utf8Model TextModel
  ColorFileModel CompressModel PatternModel PatternSpec PatternProofs Vp3Model PecModel PecSpec PecProofs PecFileModel PecFileSpec
  PecFileProofs PesProofs RecordSpec RecordProofs RecordAnyProofs BlockSpec BlockProofs BlockMoreProofs PhbModel PhbSpec.
Import ListNotations.
Open Scope Z_scope.

Lemma holds_seek file o b : holds file o b -> exists r, seek_to file o = (o, b ++ r).
Proof. intros (pre & post & -> & E). exists post. apply seek_to_at, E. Qed.
Lemma ends_seek file o b : ends_with file o b -> seek_to file o = (o, b).
Proof. intros (pre & -> & E). apply seek_to_at, E. Qed.
Lemma int_at rd enc v p r : (forall r, rd (enc ++ r) = (Some v, r)) -> s_int rd (p, enc ++ r) = (Some v, (p + zlen enc, r)).
Proof. intros H. apply s_int_at, H. Qed.
Lemma brother_entry code : 0 <= code -> pec_entry code = brother code.
Proof.
  intros H. unfold pec_entry, brother. change (zlen pec_threads) with 65.
  destruct (nth_error pec_threads (Z.to_nat (code mod 65))) as [t|] eqn:E.
  - rewrite (nth_error_nth _ _ _ E). destruct t; reflexivity.
  - apply nth_error_None in E. change (List.length pec_threads) with 65%nat in E. lia.
Qed.

Lemma phb_threads_of : forall codes p r, Forall (fun c => 0 <= c < 256) codes ->
  phb_threads (List.length codes) (p, codes ++ r) = Ok (map brother codes).
Proof.
  induction codes as [|c codes IH]; intros p r F; [reflexivity|]. apply Forall_cons_iff in F as [Fc F].
  cbn [List.length phb_threads app map]. rewrite s_byte_at. cbn [some bindr]. rewrite IH by exact F. cbn [bindr].
  rewrite brother_entry by lia. reflexivity.
Qed.
Lemma phc_threads_of : forall codes p r, Forall (fun c => 0 <= c < 256) codes ->
  phc_threads (List.length codes) (p, codes ++ r) = (map brother codes, false, (p + zlen codes, r)).
Proof.
  induction codes as [|c codes IH]; intros p r F.
  - cbn [List.length phc_threads app map]. change (zlen (@nil Z)) with 0. rewrite Z.add_0_r. reflexivity.
  - apply Forall_cons_iff in F as [Fc F]. cbn [List.length phc_threads app map]. rewrite s_byte_at, IH by exact F.
    rewrite brother_entry by lia. unfold zlen. cbn [List.length]. eqs.
Qed.

Theorem phb_read_of file codes a b c block : phb_file file codes a b c block -> Forall (fun c => 0 <= c < 256) codes ->
  phb_read file = Ok (finish_read (pec_read block, map brother codes, [])).
Proof.
  intros (Hc & Ha & Hb & Hcc & H1 & H2 & H3 & H4 & n & gap & Hn & Eg & H5) F. unfold unsigned in *.
  change (2 ^ 16) with 65536 in *. unfold phb_read.
  destruct (holds_seek _ _ _ H1) as [r ->]. rewrite <- app_assoc.
  rewrite (s_int_at read_int_16le _ _ (zlen codes)) by (apply le16_count; lia). cbn [some bindr].
  unfold zlen at 1. rewrite Nat2Z.id, phb_threads_of by exact F. cbn [bindr].
  destruct (holds_seek _ _ _ H2) as [r2 ->]. rewrite (s_int_at read_int_32le _ _ a) by (apply le32_read; lia). cbn [fst some bindr].
  destruct (holds_seek _ _ _ H3) as [r3 ->]. rewrite (s_int_at read_int_32le _ _ b) by (apply le32_read; lia). cbn [fst some bindr].
  replace (82 + a + b + 2) with (0x52 + a + b + 2) by reflexivity.
  destruct (holds_seek _ _ _ H4) as [r4 ->]. rewrite (s_int_at read_int_32le _ _ c) by (apply le32_read; lia). cbn [fst some bindr].
  rewrite (ends_seek _ _ _ H5). rewrite s_byte_at. cbn [some bindr]. rewrite s_seek_at by exact Eg. reflexivity.
Qed.

Lemma phc_graphics : forall pics i done values size stride pos rest, Forall (fun p => zlen p = size) pics -> i = zlen done ->
  (List.length pics <= List.length values)%nat ->
  read_pec_graphics (List.length pics) i size stride (done ++ values) (pos, concat pics ++ rest)
  = Ok (phc_pictures i stride pics values).
Proof.
  induction pics as [|p ps IH]; intros i done values size stride pos rest F Ei Hl; [reflexivity|].
  apply Forall_cons_iff in F as [Fp F]. destruct values as [|v vs]; [cbn in Hl; lia|].
  cbn [List.length read_pec_graphics concat phc_pictures]. rewrite <- app_assoc.
  rewrite s_read_at by exact Fp. rewrite (py_index_app _ done) by exact Ei. cbn [bindr].
  specialize (IH (i + 1) (done ++ [v]) vs size stride (pos + size) rest F). rewrite <- app_assoc in IH. cbn [app] in IH.
  rewrite IH; [reflexivity| |cbn in Hl; lia]. rewrite Ei. unfold zlen. rewrite app_length. cbn [List.length]. lia.
Qed.

Theorem phc_read_of file codes stride height pictures block : phc_file file codes stride height pictures block ->
  Forall (fun c => 0 <= c < 256) codes ->
  phc_read file = Ok (finish_read (pec_read block, map brother codes,
    phc_pictures 0 stride pictures (None :: map Some (map brother codes)))).
Proof.
  intros (Hc & Hs & Hh & El & Fp & (u & H1) & add & gap & offset & Ha & Eg & Ho & H2 & bounds & m & sections & n & last & Hb & Hm & Es & Hn & Ela & H3) F.
  unfold unsigned in *. change (2 ^ 16) with 65536 in *. unfold phc_read.
  destruct (holds_seek _ _ _ H1) as [r ->]. cbn [app]. rewrite s_byte_at. rewrite (s_seek_at _ 1 [u] _ eq_refl : s_seek 1 (_, u :: _) = _).
  rewrite s_byte_at. rewrite <- !app_assoc.
  rewrite (s_int_at read_int_16le _ _ (zlen codes)) by (apply le16_count; lia). cbn [some bindr].
  unfold zlen at 1. rewrite Nat2Z.id, phc_threads_of by exact F. cbn [bindr some].
  unfold zlen at 1. rewrite Nat2Z.id, <- El.
  rewrite (phc_graphics pictures 0 [] (None :: map Some (map brother codes)) (stride * height) stride) by
    (try exact Fp; try reflexivity; rewrite El; cbn [List.length]; rewrite !map_length; lia).
  cbn [bindr]. destruct (holds_seek _ _ _ H2) as [r2 ->]. cbn [app]. rewrite s_byte_at. rewrite <- app_assoc.
  rewrite s_seek_at by exact Eg. rewrite (s_int_at read_int_16le _ _ offset) by (apply le16_count; lia). cbn [some bindr].
  rewrite (ends_seek _ _ _ H3). rewrite (s_int_at read_int_16le _ _ (zlen bounds)) by (apply le16_count; lia). cbn [some bindr].
  rewrite s_seek_at by reflexivity. rewrite (s_int_at read_int_32le _ _ m) by (apply le32_read; lia). cbn [some bindr].
  rewrite s_seek_at by exact Es. rewrite s_byte_at. cbn [some bindr]. rewrite s_seek_at by exact Ela. reflexivity.
Qed.

(** A design with stops, each stop stored as a change to the same colour. *)
Lemma design_finished l codes q meta : pec_pattern l -> (thread_changes l < List.length codes)%nat ->
  neighbours_differ thread_eqb (map brother codes) ->
  finish_read (pec_read (pec_encode qz_q (map cc l) ++ 0 :: q), map brother (expand codes l), meta)
  = (pec_kept l, map brother codes, meta).
Proof.
  intros P Hn Nd. unfold finish_read. rewrite pec_read_stitches by exact P.
  rewrite <- expand_map. rewrite kept_restored; [reflexivity|exact P| |rewrite map_length; exact Hn|exact Nd].
  intros t. apply thread_eqb_refl.
Qed.
Lemma expand_bytes l codes : Forall (fun c => 0 <= c < 256) codes -> Forall (fun c => 0 <= c < 256) (@expand Z Q codes l).
Proof.
  intros F. apply Forall_forall. intros c Hc. apply (@expand_incl Z Q l codes) in Hc. rewrite Forall_forall in F. auto.
Qed.

(** ** Any file *)
Lemma phb_threads_any : forall n f, (exists l, phb_threads n f = Ok l) \/ phb_threads n f = Err TypeError.
Proof.
  induction n as [|n IH]; intros f; cbn [phb_threads]; [eauto|].
  destruct (s_int read_int_8 f) as [[i|] f']; cbn [some bindr]; [|tauto].
  destruct (IH f') as [[l ->] | ->]; cbn [bindr]; eauto.
Qed.
Theorem phb_any file : (exists r, phb_read file = Ok r) \/ phb_read file = Err TypeError.
Proof.
  unfold phb_read. destruct (s_int read_int_16le (seek_to file 0x71)) as [[cc|] f]; cbn [some bindr]; [|tauto].
  destruct (phb_threads_any (Z.to_nat cc) f) as [[l ->] | ->]; cbn [bindr]; [|tauto].
  destruct (fst (s_int read_int_32le (seek_to file 0x54))) as [a|]; cbn [some bindr]; [|tauto].
  destruct (fst (s_int read_int_32le (seek_to file (82 + a)))) as [b|]; cbn [some bindr]; [|tauto].
  destruct (fst (s_int read_int_32le (seek_to file (82 + a + b + 2)))) as [c|]; cbn [some bindr]; [|tauto].
  destruct (s_int read_int_8 (seek_to file (82 + a + b + 2 + c + 14))) as [[n|] f']; cbn [some bindr]; [|tauto].
  left. eauto.
Qed.
Lemma phc_threads_any : forall n f l c f', phc_threads n f = (l, c, f') -> c = false -> List.length l = n.
Proof.
  induction n as [|n IH]; intros f l c f' E Ec; cbn [phc_threads] in E.
  - injection E as <- <- <-. reflexivity.
  - destruct (s_int read_int_8 f) as [[i|] g]; [|injection E as <- <- <-; discriminate].
    destruct (phc_threads n g) as [[l' c'] g'] eqn:E'. injection E as <- <- <-. cbn [List.length]. f_equal. eapply IH; eauto.
Qed.
Theorem phc_any file : (exists r, phc_read file = Ok r) \/ phc_read file = Err TypeError.
Proof.
  unfold phc_read. destruct (s_int read_int_8 (seek_to file 0x4A)) as [h f].
  destruct (s_int read_int_8 (s_seek 1 f)) as [st f2].
  destruct (s_int read_int_16le f2) as [[cc|] f3]; cbn [some bindr]; [|tauto].
  destruct (phc_threads (Z.to_nat cc) f3) as [[l c] f4] eqn:ET. destruct c; [left; eauto|].
  destruct st as [st|]; cbn [some bindr]; [|tauto]. destruct h as [h|]; cbn [some bindr]; [|tauto].
  destruct (read_graphics_total (Z.to_nat cc) 0 (st * h) st (None :: map Some l) f4 ltac:(lia)) as [g ->].
  { unfold zlen. cbn [List.length]. rewrite map_length, (phc_threads_any _ _ _ _ _ ET eq_refl). lia. }
  cbn [bindr]. destruct (s_int read_int_8 (seek_to file 0x2B)) as [pa f5].
  destruct (s_int read_int_16le (s_seek 4 f5)) as [po f6].
  destruct pa as [pa|]; cbn [some bindr]; [|tauto]. destruct po as [po|]; cbn [some bindr]; [|tauto].
  destruct (s_int read_int_16le (seek_to file (po + pa))) as [[bs|] f7]; cbn [some bindr]; [|tauto].
  destruct (s_int read_int_32le (s_seek bs f7)) as [[b2|] f8]; cbn [some bindr]; [|tauto].
  destruct (s_int read_int_8 (s_seek (b2 + 10) f8)) as [[c2|] f9]; cbn [some bindr]; [|tauto].
  left. eauto.
Qed.
(** A PHC file that ends among its colour codes. *)
Lemma phc_threads_cut : forall codes n p, Forall (fun c => 0 <= c < 256) codes -> (List.length codes < n)%nat ->
  exists f, phc_threads n (p, codes) = (map brother codes, true, f).
Proof.
  induction codes as [|c codes IH]; intros n p F Hn; (destruct n as [|n]; [cbn in Hn; lia|]); cbn [phc_threads map].
  - unfold s_int. cbn [fst snd read_int_8 firstn]. eexists. reflexivity.
  - apply Forall_cons_iff in F as [Fc F]. rewrite s_byte_at. cbn [List.length] in Hn.
    destruct (IH n (p + 1) F ltac:(lia)) as [f ->]. rewrite brother_entry by lia. eexists. reflexivity.
Qed.
Theorem phc_cut file height u stride count codes : ends_with file 0x4A ([height; u; stride] ++ le16 count ++ codes) ->
  unsigned 16 count -> zlen codes < count -> Forall (fun c => 0 <= c < 256) codes ->
  phc_read file = Ok ([], map brother codes, []).
Proof.
  intros H1 Hc Hl F. unfold unsigned in *. change (2 ^ 16) with 65536 in *. unfold phc_read.
  rewrite (ends_seek _ _ _ H1). cbn [app]. rewrite s_byte_at. rewrite (s_seek_at _ 1 [u] _ eq_refl : s_seek 1 (_, u :: _) = _).
  rewrite s_byte_at. rewrite (s_int_at read_int_16le _ _ count) by (apply le16_count; lia). cbn [some bindr].
  match goal with |- context [phc_threads ?n (?p, codes)] => destruct (phc_threads_cut codes n p F) as [f ->] end.
  { unfold zlen in Hl. lia. }
  reflexivity.
Qed.
