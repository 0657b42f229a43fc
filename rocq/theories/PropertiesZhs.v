(** ZHS files: C168 and C169. *)
From Coq Require Import Ascii String ZArith List Bool Lia.
From Verif Require Import PyBase EmbConst StreamModel StreamSpec HelperModel BitLemmas ThreadModel Utf8Model Utf8Proofs TextModel
  PatternModel Vp3Model PecFileModel RecordModel RecordSpec RecordProofs RecordMoreProofs RecordAnyProofs BlockSpec BlockProofs
  BlockMoreProofs PhbSpec PhbProofs ZhsModel ZhsSpec ZhsProofs.
Import ListNotations.
Open Scope Z_scope.

(** ** C168 *)
Theorem C168_zhs : forall file entries extra stitches l,
  zhs_file file entries extra stitches -> stores rec_zhs stops_zhs (0, 0) 0 0 l stitches ->
  exists threads, zhs_read file = Ok (closed l, threads) /\ Forall2 zhs_means entries threads.
Proof.
  intros file entries extra stitches l H S. exists (map noted entries). split.
  - apply (zhs_read_of _ _ _ _ _ H). apply stitches_zhs, S.
  - destruct H as (start & header & lead & texts & _ & _ & _ & _ & F & _). apply Forall_app in F as [F _].
    induction F; cbn [map]; constructor; auto using noted_means.
Qed.
Print Assumptions C168_zhs.

(** Two threads, one with every text and one with a short number; text for a third that is not there. *)
Definition zhs_one := mkZ 0xFF0000 (text_of "Isacord") (text_of "Rouge") (text_of "1902#1") [text_of "x"; []].
Definition zhs_two := mkZ 0x00FF7F [] (text_of "Green") (text_of "12") [].
Definition zhs_three := mkZ 0 (text_of "none") [] [] [].
Definition zhs_points : list Z := [2; zhs_first 100 (-1); zhs_second 100 (-1); 4; 5; 5; 1; zhs_first (-64) 62; zhs_second (-64) 62].
Definition zhs_words : list Z := match utf8_encode (text_of "!" ++ flat_map zhs_text [zhs_one; zhs_two; zhs_three]) with Ok b => b | _ => [] end.
Definition zhs_sample : list Z :=
  repeat 7 15 ++ le32 (32 + zlen zhs_words) ++ le32 23 ++ [2] ++ be24 0xFF0000 ++ be24 0x00FF7F ++ le16 (zlen zhs_words) ++ zhs_words ++ zhs_points.
Example C168_case : zhs_file zhs_sample [zhs_one; zhs_two] [zhs_three] zhs_points /\
  stores rec_zhs stops_zhs (0, 0) 0 0 [mkS 100 1 STITCH; mkS 100 1 COLOR_CHANGE; mkS 36 (-61) JUMP] zhs_points.
Proof.
  split.
  - exists (32 + zlen zhs_words), 23, (text_of "!"), zhs_words.
    assert (A : forall t, forallb (fun c => (0 <=? c) && (c <? 128) && negb (c =? 38)) t = true -> unmarked t).
    { intros t H. apply Forall_forall. intros c Hc. rewrite forallb_forall in H. specialize (H _ Hc).
      apply andb_prop in H as [H H2]. apply andb_prop in H as [H0 H1]. apply negb_true_iff, Z.eqb_neq in H2. unfold scalar. lia. }
    split; [vm_compute; split; [discriminate|reflexivity]|]. split; [vm_compute; split; [discriminate|reflexivity]|].
    split; [reflexivity|]. split; [apply A; reflexivity|]. split.
    { repeat (apply Forall_cons; [split; [vm_compute; split; [discriminate|reflexivity]|]; repeat (split; [apply A; reflexivity|]);
        repeat (apply Forall_cons; [apply A; reflexivity|]); apply Forall_nil|]). apply Forall_nil. }
    split; [reflexivity|]. split; [reflexivity|]. split; [|split].
    + exists (repeat 7 15), (skipn 23 zhs_sample). split; reflexivity.
    + exists (firstn 23 zhs_sample), zhs_points. split; vm_compute; reflexivity.
    + exists (firstn (List.length zhs_sample - 9) zhs_sample). split; vm_compute; reflexivity.
  - assert (S : exists l bytes, stores rec_zhs stops_zhs (0, 0) 0 0 l bytes /\ bytes = zhs_points
      /\ l = [mkS 100 1 STITCH; mkS 100 1 COLOR_CHANGE; mkS 36 (-61) JUMP]).
    { do 2 eexists. split.
      - eapply stores_record; [apply (rzhs_stitch 0 0 100 (-1)); unfold zhs_fits; lia|].
        eapply stores_record; [apply (rzhs_color 0 0 5 5)|]. eapply stores_record; [apply (rzhs_jump 0 0 (-64) 62); unfold zhs_fits; lia|].
        apply (stores_end _ _ _ _ _ []). left. red. cbn. lia.
      - split; vm_compute; reflexivity. }
    destruct S as (l & bytes & S & -> & ->). exact S.
Qed.
Example C168_read : zhs_read zhs_sample = Ok (closed [mkS 100 1 STITCH; mkS 100 1 COLOR_CHANGE; mkS 36 (-61) JUMP],
  [mkT 0xFF0000 (Some (text_of "Rouge")) (Some (text_of "1902")) None None (Some (text_of "Isacord")) None;
   mkT 0x00FF7F (Some (text_of "Green")) None None None None None]).
Proof. vm_compute. reflexivity. Qed.

(** ** C169 *)
(** The four bytes that say where the header is. *)
Definition header_at (file : list Z) (h : Z) : Prop :=
  exists a b c d, holds file 19 [a; b; c; d] /\ h = a + 256 * b + 65536 * c + 16777216 * d.
Lemma header_found file : bytes_ok file -> 23 <= zlen file -> exists s h p q,
  s_int read_int_32le (seek_to file 15) = (Some s, p) /\ s_int read_int_32le p = (Some h, q) /\ header_at file h /\ 0 <= h.
Proof.
  intros B L. unfold zlen in L.
  assert (L' : (8 <= List.length (skipn 15 file))%nat) by (rewrite skipn_length; lia).
  destruct (skipn 15 file) as [|b0 [|b1 [|b2 [|b3 [|b4 [|b5 [|b6 [|b7 r]]]]]]]] eqn:E; cbn in L'; try lia.
  assert (B' : bytes_ok (b0 :: b1 :: b2 :: b3 :: b4 :: b5 :: b6 :: b7 :: r)).
  { rewrite <- E. apply Forall_forall. intros x Hx. unfold bytes_ok in B. rewrite Forall_forall in B. apply B.
    rewrite <- (firstn_skipn 15 file). apply in_or_app. right. exact Hx. }
  unfold bytes_ok in B'. repeat (apply Forall_cons_iff in B' as [? B']). unfold byte_ok in *.
  unfold seek_to. change (Z.to_nat 15) with 15%nat. rewrite E. unfold s_int. cbn [fst snd read_int_32le firstn skipn].
  eexists _, _, _, _. split; [reflexivity|]. cbn [fst snd read_int_32le firstn skipn]. split; [reflexivity|].
  unfold b8. rewrite !land_ff, !Z.shiftl_mul_pow2 by lia. rewrite !(Z.mod_small b4), !(Z.mod_small b5), !(Z.mod_small b6), !(Z.mod_small b7) by lia.
  change (2 ^ 8) with 256. change (2 ^ 16) with 65536. change (2 ^ 24) with 16777216. split; [|lia].
  exists b4, b5, b6, b7. split; [|lia]. exists (firstn 15 file ++ [b0; b1; b2; b3]), r. split.
  - rewrite <- app_assoc. cbn [app]. rewrite <- E. symmetry. apply firstn_skipn.
  - unfold zlen. rewrite app_length, firstn_length. cbn [List.length]. lia.
Qed.
Lemma header_same file h h' : header_at file h -> header_at file h' -> h = h'.
Proof.
  intros (a & b & c & d & (p & q & -> & E) & ->) (a' & b' & c' & d' & (p' & q' & E' & E2) & ->).
  assert (P : p = p').
  { apply (f_equal (firstn 19)) in E'. unfold zlen in *. rewrite !firstn_app in E'.
    replace (List.length p) with 19%nat in E' by lia. replace (List.length p') with 19%nat in E' by lia. rewrite !Nat.sub_diag, !firstn_O in E'.
    rewrite !app_nil_r, !firstn_all2 in E' by lia. exact E'. }
  subst p'. apply app_inv_head in E'. cbn [app] in E'. injection E' as -> -> -> -> _. reflexivity.
Qed.
Lemma short_file file : zlen file < 23 -> zhs_read file = Err TypeError.
Proof.
  intros L. unfold zhs_read, seek_to, s_int. cbn [fst snd]. change (Z.to_nat 15) with 15%nat.
  assert (L' : (List.length (skipn 15 file) < 8)%nat) by (rewrite skipn_length; unfold zlen in L; lia).
  destruct (skipn 15 file) as [|b0 [|b1 [|b2 [|b3 [|b4 [|b5 [|b6 [|b7 r]]]]]]]]; try reflexivity. cbn in L'. lia.
Qed.

(** No header to read: TypeError. *)
Theorem C169_type_error : forall file, bytes_ok file ->
  (zhs_read file = Err TypeError <-> zlen file < 23 \/ exists h, header_at file h /\ zlen file <= h).
Proof.
  intros file B. destruct (Z.ltb_spec (zlen file) 23) as [L|L].
  { split; intros _; [left; exact L|apply short_file, L]. }
  destruct (header_found file B L) as (s & h & p & q & E1 & E2 & H & Hh).
  unfold zhs_read. rewrite E1, E2. cbn [some bindr].
  unfold zhs_header. destruct (skipn (Z.to_nat h) file) as [|n r] eqn:E.
  - unfold seek_to. rewrite E. cbn. split; [intros _; right|reflexivity]. exists h. split; [exact H|].
    assert (K : List.length (skipn (Z.to_nat h) file) = 0%nat) by (rewrite E; reflexivity). rewrite skipn_length in K. unfold zlen. lia.
  - unfold seek_to at 1. rewrite E, s_byte_at. cbn [some bindr]. destruct (zhs_colors _ _) as [ts f]. destruct (s_int read_int_16le f) as [len g].
    destruct (s_read _ g) as [b g']. split.
    + intros X. exfalso. destruct (utf8_decode b) as [t|]; cbn [bindr] in X; [|discriminate].
      destruct (zhs_stitches_any (snd (seek_to file s))) as (l & El & _). rewrite El in X. discriminate.
    + intros [X|(h' & H' & X)]; [lia|]. rewrite <- (header_same _ _ _ H H') in X.
      assert (K : skipn (Z.to_nat h) file = []) by (apply skipn_all2; unfold zlen in X; lia). rewrite K in E. discriminate.
Qed.
Print Assumptions C169_type_error.
(** Otherwise a pattern with as many threads as counted and one END, or the texts are not UTF-8. *)
Theorem C169_any : forall file, bytes_ok file -> zhs_read file <> Err TypeError ->
  exists h n r, header_at file h /\ skipn (Z.to_nat h) file = n :: r /\
  ((exists l threads, zhs_read file = Ok (l, threads) /\ one_end l /\ zlen threads = n) \/
   (zhs_read file = Err ValueError /\ exists texts, utf8_decode texts = None /\ exists before after, r = before ++ texts ++ after)).
Proof.
  intros file B N. destruct (Z.ltb_spec (zlen file) 23) as [L|L]; [exfalso; apply N, short_file, L|].
  destruct (header_found file B L) as (s & h & p & q & E1 & E2 & H & Hh). exists h.
  revert N. unfold zhs_read. rewrite E1, E2. cbn [some bindr].
  unfold zhs_header. destruct (skipn (Z.to_nat h) file) as [|n r] eqn:E.
  { unfold seek_to. rewrite E. cbn. intros N. exfalso. apply N. reflexivity. }
  intros _. exists n, r. split; [exact H|]. split; [reflexivity|].
  assert (Hn : 0 <= n).
  { unfold bytes_ok in B. rewrite Forall_forall in B. apply (B n). rewrite <- (firstn_skipn (Z.to_nat h) file), E. apply in_or_app. right. left. reflexivity. }
  unfold seek_to at 1. unfold seek_to at 2. rewrite E, s_byte_at. cbn [some bindr]. pose proof (colors_length (Z.to_nat n) (h + 1, r)) as C.
  assert (T1 : forall k f, exists before, snd f = before ++ snd (snd (zhs_colors k f))).
  { induction k as [|k IH]; intros f; cbn [zhs_colors]; [exists []; reflexivity|].
    destruct (s_int read_int_24be f) as [c g] eqn:Eg. specialize (IH g). destruct (zhs_colors k g) as [l g'].
    cbn [snd] in *. destruct IH as [b Eb]. exists (firstn 3 (snd f) ++ b).
    assert (snd g = skipn 3 (snd f)) as G.
    { unfold s_int, read_int_24be in Eg. destruct (snd f) as [|x [|y [|z t]]]; injection Eg as <- <-; reflexivity. }
    rewrite G in Eb. rewrite <- app_assoc, <- Eb. symmetry. apply firstn_skipn. }
  destruct (T1 (Z.to_nat n) (h + 1, r)) as [before T]. destruct (zhs_colors _ _) as [ts f]. cbn [fst snd] in C, T.
  destruct (s_int read_int_16le f) as [len g] eqn:Eg.
  assert (G : snd g = skipn 2 (snd f)).
  { unfold s_int, read_int_16le in Eg. destruct (snd f) as [|x [|y t]]; injection Eg as <- <-; reflexivity. }
  destruct (s_read _ g) as [b g'] eqn:Eb.
  destruct (utf8_decode b) as [t|] eqn:D; cbn [bindr].
  - destruct (zhs_stitches_any (snd (seek_to file s))) as (l & El & O). left. rewrite El. cbn [bindr].
    eexists _, _. split; [reflexivity|]. split; [exact O|]. unfold zlen. rewrite notes_length, C. lia.
  - right. split; [reflexivity|]. exists b. split; [exact D|].
    unfold s_read in Eb. injection Eb as <- _. exists (before ++ firstn 2 (snd f)). eexists. rewrite T, <- app_assoc. f_equal.
    rewrite <- (firstn_skipn 2 (snd f)) at 1. f_equal. rewrite <- G. symmetry. apply firstn_skipn.
Qed.
Print Assumptions C169_any.
Example C169_case : zhs_read (firstn 22 zhs_sample) = Err TypeError
  /\ zhs_read (firstn 23 zhs_sample) = Err TypeError
  /\ zhs_read (firstn 35 zhs_sample ++ [0xFF] ++ skipn 36 zhs_sample) = Err ValueError
  /\ exists l ts, zhs_read (firstn 24 zhs_sample) = Ok (l, ts).
Proof. repeat split; try (vm_compute; reflexivity). eexists _, _. vm_compute. reflexivity. Qed.
