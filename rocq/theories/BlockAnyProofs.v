(** Arbitrary files of PCD, PCM, SHV and HUS. *)
From Coq Require Import ZArith List Bool Lia.
From Verif Require Import PyBase EmbConst StreamModel StreamSpec StreamProofs HelperModel HelperProofs FunctionsModel PatternModel ThreadModel Utf8Model
  TextModel Vp3Model PecFileModel CompressModel CompressProofs RecordModel RecordSpec RecordProofs RecordMoreProofs RecordAnyProofs
  BlockModel BlockSpec BlockProofs BlockMoreProofs BitLemmas.
Import ListNotations.
Open Scope Z_scope.

Lemma shut_cons {C} (p : C * C) s l : s :: shut (sx s, sy s) l = shut p (s :: l).
Proof.
  unfold shut. cbn [app rev fst snd]. f_equal. destruct (rev l) as [|a r] eqn:E; [|reflexivity].
  reflexivity.
Qed.
Section Cut.
Context {C : Type} (scale : Z -> C) (coords : list Z -> Z * Z).
Lemma pc_cut : forall k bytes n p, (List.length bytes < k)%nat -> exists l, pc_loop scale coords p bytes = shut p l /\
  exists l' more, pc_loop scale coords p (firstn n bytes) = shut p l' /\ l = l' ++ more.
Proof.
  induction k as [|k IH]; intros bytes n p Hk; [lia|].
  assert (Stop : forall l, pc_loop scale coords p bytes = shut p l -> pc_loop scale coords p (firstn n bytes) = [here p END] -> exists l, pc_loop scale coords p bytes = shut p l /\
    exists l' more, pc_loop scale coords p (firstn n bytes) = shut p l' /\ l = l' ++ more).
  { intros l E1 E2. exists l. split; [exact E1|]. exists [], l. split; [exact E2|reflexivity]. }
  destruct bytes as [|b0 [|b1 [|b2 [|b3 [|b4 [|b5 [|b6 [|b7 [|c r]]]]]]]]].
  1-9: apply (Stop []); [reflexivity|]; do 9 (destruct n as [|n]; [reflexivity|]); reflexivity.
  cbn [List.length] in Hk.
  assert (W : exists l, pc_loop scale coords p (b0 :: b1 :: b2 :: b3 :: b4 :: b5 :: b6 :: b7 :: c :: r) = shut p l).
  { cbn [pc_loop]. destruct (coords _) as [x y]. cbv zeta. destruct (c =? 0).
    - destruct (IH r 0%nat (scale (signed24 x), scale (- signed24 y)) ltac:(lia)) as (l & -> & _). eexists. exact (shut_cons p (mkS _ _ STITCH) l).
    - destruct (flag c 1); [destruct (IH r 0%nat p ltac:(lia)) as (l & -> & _); eexists; destruct p; exact (shut_cons _ (mkS _ _ COLOR_CHANGE) l)|].
      destruct (flag c 4); [|exists []; reflexivity].
      destruct (IH r 0%nat (scale (signed24 x), scale (- signed24 y)) ltac:(lia)) as (l & -> & _). eexists. exact (shut_cons p (mkS _ _ JUMP) l). }
  destruct W as (lw & W).
  do 9 (destruct n as [|n]; [apply (Stop lw W); reflexivity|]). clear Stop W. cbn [firstn pc_loop]. destruct (coords _) as [x y]. cbv zeta. destruct (c =? 0).
  - destruct (IH r n (scale (signed24 x), scale (- signed24 y)) ltac:(lia)) as (l & -> & l' & more & -> & ->).
    exists (mkS (scale (signed24 x)) (scale (- signed24 y)) STITCH :: l' ++ more). split; [exact (shut_cons p (mkS _ _ STITCH) _)|].
    eexists (_ :: l'), more. split; [exact (shut_cons p (mkS _ _ STITCH) _)|reflexivity].
  - destruct (flag c 1).
    + destruct (IH r n p ltac:(lia)) as (l & -> & l' & more & -> & ->). exists (mkS (fst p) (snd p) COLOR_CHANGE :: l' ++ more).
      destruct p as [px py]. split; [exact (shut_cons (px, py) (mkS _ _ COLOR_CHANGE) _)|].
      eexists (_ :: l'), more. split; [exact (shut_cons (px, py) (mkS _ _ COLOR_CHANGE) _)|reflexivity].
    + destruct (flag c 4); [|exists []; split; [reflexivity|]; exists [], []; split; reflexivity].
      destruct (IH r n (scale (signed24 x), scale (- signed24 y)) ltac:(lia)) as (l & -> & l' & more & -> & ->).
      exists (mkS (scale (signed24 x)) (scale (- signed24 y)) JUMP :: l' ++ more). split; [exact (shut_cons p (mkS _ _ JUMP) _)|].
      eexists (_ :: l'), more. split; [exact (shut_cons p (mkS _ _ JUMP) _)|reflexivity].
Qed.
End Cut.
Lemma read_24be_rest f : snd (read_int_24be f) = skipn 3 f.
Proof. destruct f as [|a [|b [|c f]]]; reflexivity. Qed.
Lemma read_16le_rest f : snd (read_int_16le f) = skipn 2 f.
Proof. destruct f as [|a [|b f]]; reflexivity. Qed.
Lemma pcd_threads_rest : forall n f, List.length (fst (pcd_threads n f)) = n /\ snd (pcd_threads n f) = skipn (4 * n) f.
Proof.
  induction n as [|n IH]; intros f; [split; reflexivity|]. cbn [pcd_threads]. pose proof (read_24be_rest f) as R. destruct (read_int_24be f) as [c r]. cbn [snd] in R. subst r.
  destruct (IH (skipn 1 (skipn 3 f))) as [A B]. destruct (pcd_threads n _) as [l q]. cbn [fst snd List.length] in *. split; [congruence|]. rewrite B.
  clear. replace (4 * S n)%nat with (4 + 4 * n)%nat by lia.
  assert (G : forall a b (l : list Z), skipn a (skipn b l) = skipn (b + a) l).
  { intros a b. induction b as [|b IHb]; intros l; [reflexivity|]. destruct l; [rewrite !skipn_nil; reflexivity|]. apply IHb. }
  rewrite !G. reflexivity.
Qed.
(** A PCD file cut anywhere after its first four bytes. *)
Theorem cut_pcd {C} (scale : Z -> C) file n t s : (4 <= n)%nat -> pcd_read scale file = Ok (t, s) ->
  exists l, s = shut (scale 0, scale 0) l /\
  exists t' l' more, pcd_read scale (firstn n file) = Ok (t', shut (scale 0, scale 0) l') /\ l = l' ++ more /\ List.length t' = List.length t.
Proof.
  intros Hn H. destruct file as [|a [|b [|c [|d f]]]]; try discriminate. do 4 (destruct n as [|n]; [lia|]). clear Hn.
  cbn [firstn]. unfold pcd_read in *. cbn [read_int_8 read_int_16le firstn skipn] in *. set (k := Z.to_nat _) in *.
  destruct (pcd_threads_rest k f) as [A B]. destruct (pcd_threads_rest k (firstn n f)) as [A' B']. destruct (pcd_threads k f) as [t1 r]. destruct (pcd_threads k (firstn n f)) as [t2 r2].
  cbn [fst snd] in *. pose proof (read_16le_rest r) as R. pose proof (read_16le_rest r2) as R2. destruct (read_int_16le r) as [v q]. destruct (read_int_16le r2) as [v2 q2].
  cbn [snd] in R, R2. subst q q2. subst r2. rewrite cut_skip, <- B, cut_skip.
  destruct (pc_cut scale pcd_coords _ (skipn 2 r) (n - 4 * k - 2)%nat (scale 0, scale 0) (Nat.lt_succ_diag_r _)) as (l & E & l' & more & E' & ->).
  rewrite E in H. injection H as <- <-. exists (l' ++ more). split; [reflexivity|]. exists t2, l', more. rewrite E'. split; [reflexivity|]. split; [reflexivity|congruence].
Qed.
(** A PCM file cut in its stitches. *)
Theorem cut_pcm {C} (scale : Z -> C) h0 h1 indices c0 c1 bytes n : Forall (fun i => 0 <= i < 16) indices -> zlen indices < 65536 ->
  let head := [h0; h1] ++ be16 (zlen indices) ++ flat_map be16 indices ++ [c0; c1] in
  exists t l, pcm_read scale (head ++ bytes) = Ok (t, shut (scale 0, scale 0) l) /\
  exists l' more, pcm_read scale (head ++ firstn n bytes) = Ok (t, shut (scale 0, scale 0) l') /\ l = l' ++ more.
Proof.
  intros T N head. assert (G : forall rest, pcm_read scale (head ++ rest) = Ok (map (fun i => nth (Z.to_nat i) pcm_palette 0) indices, pc_loop scale pcm_coords (scale 0, scale 0) rest)).
  { intros rest. unfold head, pcm_read. rewrite <- !app_assoc. cbn [app skipn]. assert (0 <= zlen indices) by (unfold zlen; lia).
    rewrite be16_count by lia. replace (Z.to_nat (zlen indices)) with (List.length indices) by (unfold zlen; lia).
    rewrite pcm_threads_read by exact T. reflexivity. }
  rewrite !G. destruct (pc_cut scale pcm_coords _ bytes n (scale 0, scale 0) (Nat.lt_succ_diag_r _)) as (l & E & l' & more & E' & ->).
  do 2 eexists. split; [rewrite E; reflexivity|]. exists l', more. rewrite E'. split; reflexivity.
Qed.

(** SHV *)
Lemma shv_any : forall fuel bytes j since max others, (List.length bytes < fuel)%nat ->
  match shv_loop fuel j since max others bytes with Ok l => Forall quiet l | Err e => e = TypeError end.
Proof.
  induction fuel as [|fuel IH]; intros bytes j since max others H; [lia|]. cbn [shv_loop].
  destruct bytes as [|b0 [|b1 r]]; [constructor|constructor|]. cbn [List.length] in H. cbv zeta.
  assert (Then : forall calls j' s' m' o' r', Forall quiet calls -> (List.length r' < fuel)%nat ->
    match calls_then calls (shv_loop fuel j' s' m' o' r') with Ok l => Forall quiet l | Err e => e = TypeError end).
  { intros calls j' s' m' o' r' Q L. specialize (IH r' j' s' m' o' L). destruct (shv_loop fuel j' s' m' o' r'); cbn [calls_then bindr]; [apply Forall_app; split; assumption|assumption]. }
  assert (QC : Forall quiet (if max <=? since then [mkS 0 0 COLOR_CHANGE] else [])) by (destruct (_ <=? _); repeat constructor; discriminate).
  assert (QS : forall b : bool, quiet (mkS (signed8 b0) (signed8 b1) (if b then JUMP else STITCH))) by (intros []; discriminate).
  destruct (b0 =? 128); [|apply Then; [apply Forall_app; split; [exact QC|constructor; [apply QS|constructor]]|lia]].
  destruct (b1 =? 3); [apply Then; [exact QC|lia]|]. destruct (b1 =? 2); [apply Then; [exact QC|lia]|].
  destruct (b1 =? 1); [|apply Then; [apply Forall_app; split; [exact QC|constructor; [apply QS|constructor]]|lia]].
  destruct r as [|a [|b r]]; [reflexivity..|]. cbn [read_int_16be firstn skipn].
  destruct r as [|a' [|b' r]]; [reflexivity..|]. cbn [read_int_16be firstn skipn]. cbn [List.length] in H.
  apply Then; [apply Forall_app; split; [exact QC|constructor; [discriminate|constructor]]|lia].
Qed.
Lemma shv_colors_any : forall n f, match shv_colors n f with Ok (l, _) => List.length l = n | Err e => e = TypeError end.
Proof.
  induction n as [|n IH]; intros f; [reflexivity|]. cbn [shv_colors]. destruct (s_int read_int_32be f) as [c f1]. destruct (s_int read_int_8 f1) as [d f2].
  destruct d; [|reflexivity]. destruct c; [|reflexivity]. specialize (IH (s_seek 9 f2)). destruct (shv_colors n _) as [[l q]|e]; cbn [bindr]; [cbn [List.length]; congruence|exact IH].
Qed.
Theorem shv_outcome f : (exists n t l, shv_read f = Ok (n, t, l) /\ one_end l) \/ shv_read f = Err TypeError \/ shv_read f = Err KeyError.
Proof.
  unfold shv_read. destruct (s_int read_int_8 _) as [len f1]. destruct (read_string_8 len f1) as [name f2].
  destruct (s_int read_int_8 f2) as [w f3]. destruct (s_int read_int_8 f3) as [h f4].
  destruct h as [h|]; [|right; left; reflexivity]. destruct w as [w|]; [|right; left; reflexivity]. cbn [some bindr].
  destruct (s_int read_int_8 _) as [c f5]. destruct c as [c|]; [|right; left; reflexivity]. cbn [some bindr].
  pose proof (shv_colors_any (Z.to_nat c) (s_seek 18 f5)) as HC. destruct (shv_colors _ _) as [[table f6]|e]; cbn [bindr]; [|right; left; congruence].
  destruct (map snd table) as [|first others]; [right; right; reflexivity|].
  set (bytes := snd _). pose proof (shv_any (S (List.length bytes)) bytes false 0 first others (Nat.lt_succ_diag_r _)) as HL.
  destruct (shv_loop _ _ _ _ _ _) as [l|e]; cbn [ended bindr]; [|right; left; congruence].
  left. do 3 eexists. split; [reflexivity|]. rewrite apply_rel_end. eexists. split; [reflexivity|]. apply quiet_applied. exact HL.
Qed.
