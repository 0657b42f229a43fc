(** Threads that compare equal are written the same. *)
From Coq Require Import Ascii String ZArith QArith List Bool Lia.
From Verif Require Import PyBase EmbConst HelperModel NumQ BitLemmas ThreadModel Utf8Model TextModel PatternModel NameModel
  ColorFileModel CsvModel ValueModel JsonModel GcodeModel DstFileModel Vp3Model XxxModel WholeModel JefModel JefThreads
  PecModel PecFileModel PesModel PngModel TextOutModel.
Import ListNotations.
Open Scope Z_scope.

(** a == b, and a list of threads that compare equal one by one. *)
Definition same (a b : thread) : Prop := thread_eqb a b = true.
Definition sames : list thread -> list thread -> Prop := Forall2 same.
Definition low (a b : Z) : Prop := Z.land a 0xFFFFFF = Z.land b 0xFFFFFF.

Lemma text_eqb_eq : forall a b, text_eqb a b = true -> a = b.
Proof.
  induction a as [|x a IH]; intros [|y b]; cbn [text_eqb]; intros H; try discriminate; [reflexivity|].
  apply andb_true_iff in H. destruct H as [H1 H2]. apply Z.eqb_eq in H1. f_equal; auto.
Qed.
Lemma otext_eqb_eq a b : otext_eqb a b = true -> a = b.
Proof. destruct a, b; cbn [otext_eqb]; intros H; try discriminate; [|reflexivity]. f_equal. apply text_eqb_eq, H. Qed.
Lemma same_inv a b : same a b -> low (t_color a) (t_color b) /\
  b = mkT (t_color b) (t_description a) (t_catalog a) (t_details a) (t_brand a) (t_chart a) (t_weight a).
Proof.
  unfold same, thread_eqb. rewrite !andb_true_iff, Z.eqb_eq. intros ((((((H1 & H2) & H3) & H4) & H5) & H6) & H7).
  apply otext_eqb_eq in H2, H3, H4, H5, H6, H7. split; [exact H1|]. destruct b. cbn in *. congruence.
Qed.
Lemma text_refl : forall a, text_eqb a a = true.
Proof. induction a as [|x a IH]; cbn [text_eqb]; [reflexivity|]. rewrite Z.eqb_refl, IH. reflexivity. Qed.
Lemma same_refl a : same a a.
Proof.
  unfold same, thread_eqb. rewrite Z.eqb_refl.
  assert (H : forall o, otext_eqb o o = true) by (intros [t|]; cbn [otext_eqb]; [apply text_refl|reflexivity]).
  rewrite !H. reflexivity.
Qed.
(** Colours with the same low 24 bits. *)
Lemma low_sh a b k : low a b -> 0 <= k <= 16 -> Z.land (Z.shiftr a k) 0xFF = Z.land (Z.shiftr b k) 0xFF.
Proof.
  intros H K. assert (E : forall c, Z.land (Z.shiftr c k) 0xFF = Z.land (Z.shiftr (Z.land c 0xFFFFFF) k) 0xFF).
  { intros c. rewrite Z.shiftr_land, <- Z.land_assoc. f_equal. apply Z.bits_inj'. intros n Hn.
    rewrite Z.land_spec, Z.shiftr_spec by lia. change 0xFF with (Z.ones 8). change 0xFFFFFF with (Z.ones 24).
    destruct (Z.ltb_spec n 8).
    - rewrite !Z.ones_spec_low by lia. reflexivity.
    - rewrite Z.ones_spec_high by lia. rewrite andb_false_r. reflexivity. }
  rewrite (E a), (E b), H. reflexivity.
Qed.
Lemma low_red a b : low a b -> get_red a = get_red b. Proof. intros H. apply (low_sh a b 16 H). lia. Qed.
Lemma low_green a b : low a b -> get_green a = get_green b. Proof. intros H. apply (low_sh a b 8 H). lia. Qed.
Lemma low_blue a b : low a b -> get_blue a = get_blue b.
Proof. intros H. pose proof (low_sh a b 0 H) as K. rewrite !Z.shiftr_0_r in K. apply K. lia. Qed.
Lemma low_hex a b : low a b -> hex_color a = hex_color b.
Proof. intros H. unfold hex_color. rewrite (low_red a b H), (low_green a b H), (low_blue a b H). reflexivity. Qed.
Lemma low_sh8 a b k : low a b -> 0 <= k <= 16 -> sh8 a k = sh8 b k.
Proof. apply low_sh. Qed.
Lemma low_24be a b : low a b -> write_int_24be a = write_int_24be b.
Proof. intros H. unfold write_int_24be. rewrite !(low_sh8 a b) by (assumption || lia). reflexivity. Qed.
Lemma low_24le a b : low a b -> write_int_24le a = write_int_24le b.
Proof. intros H. unfold write_int_24le. rewrite !(low_sh8 a b) by (assumption || lia). reflexivity. Qed.
(** The search for the nearest colour. *)
Definition osame (a b : option thread) : Prop := match a, b with Some a, Some b => low (t_color a) (t_color b) | None, None => True | _, _ => False end.
Lemma osame_refl : forall l, Forall2 osame l l.
Proof. induction l as [|[t|] l IH]; constructor; auto; cbn; reflexivity. Qed.
Lemma nearest_low a b : low a b -> forall l l', Forall2 osame l l' -> forall i best, nearest_loop a i best l = nearest_loop b i best l'.
Proof.
  intros H. induction 1 as [|[t|] [t'|] l l' T F IH]; intros i best; cbn [nearest_loop osame] in *; try contradiction; [reflexivity| |apply IH].
  assert (D : distance a (t_color t) = distance b (t_color t')).
  { unfold distance. rewrite (low_red a b H), (low_green a b H), (low_blue a b H), (low_red _ _ T), (low_green _ _ T), (low_blue _ _ T). reflexivity. }
  rewrite D. destruct best as [[d j]|]; [destruct (_ <=? d)|]; apply IH.
Qed.
Lemma index_low a b l l' : low a b -> Forall2 osame l l' -> find_nearest_color_index a l = find_nearest_color_index b l'.
Proof. intros H F. unfold find_nearest_color_index. rewrite (nearest_low a b H l l' F). reflexivity. Qed.
Lemma set_nth_low : forall i x y l l', osame x y -> Forall2 osame l l' -> Forall2 osame (set_nth i x l) (set_nth i y l').
Proof.
  induction i as [|i IH]; intros x y l l' H F; destruct F as [|u v l l' U F]; cbn [set_nth]; constructor; auto.
Qed.
Lemma same_low a b : same a b -> low (t_color a) (t_color b).
Proof. intros H. apply same_inv, H. Qed.
Lemma chart_low : forall o o', sames o o' -> forall p c c', Forall2 osame c c' -> Forall2 osame (fill_chart o p c) (fill_chart o' p c').
Proof.
  induction 1 as [|a b o o' H F IH]; intros p c c' C; cbn [fill_chart]; [exact C|].
  rewrite (index_low (t_color a) (t_color b) p p (same_low _ _ H) (osame_refl p)).
  destruct (find_nearest_color_index (t_color b) p) as [i|]; [|exact C]. apply IH. apply set_nth_low; [apply same_low, H|exact C].
Qed.
Lemma palette_low o o' p l l' : sames o o' -> sames l l' -> build_unique_palette o p l = build_unique_palette o' p l'.
Proof.
  intros O F. unfold build_unique_palette. pose proof (chart_low o o' O p _ _ (osame_refl (repeat None (List.length p)))) as C.
  induction F as [|a b l l' H F IH]; cbn [map]; [reflexivity|]. rewrite IH. f_equal. apply index_low; [apply same_low, H|exact C].
Qed.

(** ** Lists of threads *)
Ltac open_same := match goal with H : same ?a ?b |- _ => let L := fresh "L" in let E := fresh "E" in
  destruct (same_inv a b H) as [L E]; rewrite E; cbn [t_color t_description t_catalog t_details t_brand t_chart t_weight] end.
Lemma sames_len l l' : sames l l' -> List.length l = List.length l'.
Proof. induction 1; cbn [List.length]; congruence. Qed.
Lemma sames_zlen l l' : sames l l' -> zlen l = zlen l'.
Proof. intros H. unfold zlen. rewrite (sames_len l l' H). reflexivity. Qed.
Lemma sames_refl l : sames l l.
Proof. induction l; constructor; auto using same_refl. Qed.
Lemma edr_same l l' : sames l l' -> edr_write l = edr_write l'.
Proof.
  unfold edr_write. induction 1 as [|a b l l' H F IH]; cbn [flat_map]; [reflexivity|]. rewrite IH. open_same.
  rewrite (low_red _ _ L), (low_green _ _ L), (low_blue _ _ L). reflexivity.
Qed.
Lemma col_lines_same l l' : sames l l' -> forall i, col_lines i l = col_lines i l'.
Proof.
  induction 1 as [|a b l l' H F IH]; intros i; cbn [col_lines]; [reflexivity|]. rewrite IH. open_same.
  rewrite (low_red _ _ L), (low_green _ _ L), (low_blue _ _ L). reflexivity.
Qed.
Lemma col_same l l' : sames l l' -> col_write l = col_write l'.
Proof. intros H. unfold col_write. rewrite (col_lines_same l l' H), (sames_zlen l l' H). reflexivity. Qed.
Lemma inf_records_same l l' : sames l l' -> forall i, inf_records i l = inf_records i l'.
Proof.
  induction 1 as [|a b l l' H F IH]; intros i; cbn [inf_records]; [reflexivity|]. rewrite IH. open_same.
  rewrite (low_red _ _ L), (low_green _ _ L), (low_blue _ _ L). reflexivity.
Qed.
Lemma inf_same l l' : sames l l' -> inf_write l = inf_write l'.
Proof. intros H. unfold inf_write. rewrite (inf_records_same l l' H), (sames_zlen l l' H). reflexivity. Qed.
Lemma csv_rows_same l l' : sames l l' -> forall i, csv_thread_rows i l = csv_thread_rows i l'.
Proof.
  induction 1 as [|a b l l' H F IH]; intros i; cbn [csv_thread_rows]; [reflexivity|]. rewrite IH. open_same. rewrite (low_hex _ _ L). reflexivity.
Qed.
Lemma csv_threads_same l l' : sames l l' -> csv_threads l = csv_threads l'.
Proof. intros H. unfold csv_threads. rewrite (csv_rows_same l l' H). destruct H; reflexivity. Qed.
Lemma json_same l l' : sames l l' -> map json_thread l = map json_thread l'.
Proof.
  induction 1 as [|a b l l' H F IH]; cbn [map]; [reflexivity|]. rewrite IH. f_equal. unfold json_thread. open_same. rewrite (low_hex _ _ L). reflexivity.
Qed.
Lemma gcode_threads_same l l' : sames l l' -> forall i, gcode_threads i l = gcode_threads i l'.
Proof.
  induction 1 as [|a b l l' H F IH]; intros i; cbn [gcode_threads]; [reflexivity|]. rewrite IH. open_same. rewrite (low_hex _ _ L). reflexivity.
Qed.
Lemma dst_lines_same l l' : sames l l' -> flat_map thread_line l = flat_map thread_line l'.
Proof.
  induction 1 as [|a b l l' H F IH]; cbn [flat_map]; [reflexivity|]. rewrite IH. f_equal. unfold thread_line. open_same. rewrite (low_hex _ _ L). reflexivity.
Qed.
Lemma colors_low l l' : sames l l' -> Forall2 low (map t_color l) (map t_color l').
Proof. induction 1; cbn [map]; constructor; auto using same_low. Qed.
Lemma tbf_low c c' : Forall2 low c c' -> flat_map tbf_thread c = flat_map tbf_thread c'.
Proof.
  induction 1 as [|a b c c' H F IH]; cbn [flat_map]; [reflexivity|]. rewrite IH. f_equal. unfold tbf_thread.
  rewrite !(low_sh8 a b) by (assumption || lia). reflexivity.
Qed.
Lemma low_len c c' : Forall2 low c c' -> List.length c = List.length c'.
Proof. induction 1; cbn [List.length]; congruence. Qed.
Lemma xxx_low c c' : Forall2 low c c' -> xxx_colors c = xxx_colors c'.
Proof.
  intros H. unfold xxx_colors. rewrite (low_len c c' H). f_equal. f_equal.
  induction H as [|a b c c' H F IH]; cbn [flat_map]; [reflexivity|]. rewrite IH. rewrite !(low_sh8 a b) by (assumption || lia). reflexivity.
Qed.
Lemma xxx_same c c' s : Forall2 low c c' -> xxx_write c s = xxx_write c' s.
Proof.
  intros H. unfold xxx_write, xxx_header, xxx_tail. rewrite (xxx_low c c' H).
  assert (E : zlen c = zlen c') by (unfold zlen; rewrite (low_len c c' H); reflexivity). rewrite E. reflexivity.
Qed.
(** ** Blocks *)
Definition gets (g g' : Z -> thread) : Prop := forall i, same (g i) (g' i).
Lemma nth_same : forall n l l', sames l l' -> match nth_error l n, nth_error l' n with Some a, Some b => same a b | None, None => True | _, _ => False end.
Proof. induction n as [|n IH]; intros l l' H; destruct H; cbn [nth_error]; auto. apply IH; assumption. Qed.
Lemma get_same filler l l' : sames l l' -> gets (get_thread_or_filler filler l) (get_thread_or_filler filler l').
Proof.
  intros H i. unfold get_thread_or_filler. pose proof (nth_same (Z.to_nat i) l l' H) as K.
  destruct (nth_error l _), (nth_error l' _); try contradiction; [exact K|apply same_refl].
Qed.
Lemma fillers_same filler : forall n l l', sames l l' -> sames (add_fillers filler n l) (add_fillers filler n l').
Proof.
  induction n as [|n IH]; intros l l' H; cbn [add_fillers]; [exact H|]. apply IH. apply Forall2_app; [exact H|].
  constructor; [|constructor]. rewrite (sames_zlen l l' H). apply get_same, H.
Qed.
Lemma fix_same {C} filler (s : list (stitch C)) l l' : sames l l' -> sames (fix_color_count filler s l) (fix_color_count filler s l').
Proof. intros H. unfold fix_color_count. rewrite (sames_zlen l l' H). apply fillers_same, H. Qed.
Definition bsame {A} (a b : A * thread) : Prop := fst a = fst b /\ same (snd a) (snd b).
Lemma stitchblocks_same {C} g g' : gets g g' -> forall (l : list (stitch C)) blk t t' i, same t t' ->
  Forall2 bsame (stitchblocks g blk t i l) (stitchblocks g' blk t' i l).
Proof.
  intros G. induction l as [|s l IH]; intros blk t t' i H; cbn [stitchblocks].
  - destruct (_ <? _); constructor; [split; [reflexivity|exact H]|constructor].
  - destruct (_ =? STITCH); [apply IH, H|]. apply Forall2_app.
    + destruct (_ <? _); constructor; [split; [reflexivity|exact H]|constructor].
    + destruct (_ =? COLOR_CHANGE); apply IH; [apply G|exact H].
Qed.
Lemma vp3_blocks_same g g' : gets g g' -> forall l i blk, Forall2 bsame (vp3_blocks g i blk l) (vp3_blocks g' i blk l).
Proof.
  intros G. induction l as [|s l IH]; intros i blk; cbn [vp3_blocks].
  - constructor; [split; [reflexivity|apply G]|constructor].
  - destruct (_ =? COLOR_CHANGE); [|apply IH]. constructor; [split; [reflexivity|apply G]|apply IH].
Qed.
Lemma vp3_thread_same a b : same a b -> vp3_thread a = vp3_thread b.
Proof. intros H. unfold vp3_thread. open_same. rewrite (low_hex _ _ L), (low_24be _ _ L). reflexivity. Qed.
Lemma vp3_colorblocks_same : forall bs bs', Forall2 bsame bs bs' -> forall first x y, vp3_colorblocks first x y bs = vp3_colorblocks first x y bs'.
Proof.
  induction 1 as [|[l a] [l' b] bs bs' [E H] F IH]; intros first x y; cbn [vp3_colorblocks]; [reflexivity|]. cbn [fst snd] in *. subst l'.
  unfold vp3_colorblock. rewrite (vp3_thread_same a b H). destruct (vp3_thread b); cbn [bindr]; [|reflexivity]. rewrite IH. reflexivity.
Qed.
Lemma blocks_len {A} (bs bs' : list (A * thread)) : Forall2 bsame bs bs' -> List.length bs = List.length bs'.
Proof. induction 1; cbn [List.length]; congruence. Qed.
Lemma vp3_same filler s l l' : sames l l' -> vp3_write filler s l = vp3_write filler s l'.
Proof.
  intros H. unfold vp3_write. pose proof (vp3_blocks_same _ _ (get_same filler _ _ (fix_same filler s l l' H)) s 0 []) as B.
  assert (E : vp3_file s (vp3_blocks (get_thread_or_filler filler (fix_color_count filler s l)) 0 [] s)
            = vp3_file s (vp3_blocks (get_thread_or_filler filler (fix_color_count filler s l')) 0 [] s)); [|rewrite E; reflexivity].
  unfold vp3_file, vp3_design_block. destruct (extents s) as [[[[x0 y0] x1] y1]|]; [|reflexivity].
  rewrite (vp3_colorblocks_same _ _ B). unfold zlen. rewrite (blocks_len _ _ B). reflexivity.
Qed.
(** ** JEF *)
Lemma near_same a b : same a b -> jef_near a = jef_near b.
Proof. intros H. unfold jef_near. rewrite (index_low _ _ _ _ (same_low _ _ H) (osame_refl jef_threads)). reflexivity. Qed.
Lemma near2_same a b i : same a b -> jef_near2 a i = jef_near2 b i.
Proof. intros H. unfold jef_near2. rewrite (index_low _ _ _ _ (same_low _ _ H) (osame_refl _)). reflexivity. Qed.
Lemma eqb_same a a' b b' : same a a' -> same b b' -> thread_eqb a b = thread_eqb a' b'.
Proof.
  intros A B. destruct (same_inv a a' A) as [LA ->], (same_inv b b' B) as [LB ->]. unfold thread_eqb, low in *.
  cbn [t_color t_description t_catalog t_details t_brand t_chart t_weight]. rewrite LA, LB. reflexivity.
Qed.
Definition last_same (a b : option (Z * thread)) : Prop :=
  match a, b with Some (i, a), Some (j, b) => i = j /\ same a b | None, None => True | _, _ => False end.
Lemma jef_palette_same : forall cmds l l' last last' toggled started, sames l l' -> last_same last last' ->
  jef_palette thread_eqb jef_near jef_near2 last toggled l started cmds = jef_palette thread_eqb jef_near jef_near2 last' toggled l' started cmds.
Proof.
  induction cmds as [|c cmds IH]; intros l l' last last' toggled started H La; cbn [jef_palette]; [reflexivity|].
  destruct (_ || _).
  - destruct H as [|a b l l' H F]; [reflexivity|].
    assert (E : match last with Some (li, lt) => if (li =? jef_near a) && negb (thread_eqb lt a) then jef_near2 a (jef_near a) else jef_near a | None => jef_near a end
              = match last' with Some (li, lt) => if (li =? jef_near b) && negb (thread_eqb lt b) then jef_near2 b (jef_near b) else jef_near b | None => jef_near b end).
    { rewrite <- (near_same a b H). destruct last as [[i u]|], last' as [[j v]|]; cbn [last_same] in La; try contradiction; [|reflexivity].
      destruct La as [-> U]. rewrite (eqb_same u v a b U H), (near2_same a b _ H). reflexivity. }
    rewrite E. set (i := match last' with Some _ => _ | None => _ end).
    destruct (c =? STOP); (rewrite (IH l l' (Some (i, a)) (Some (i, b)) _ true F); [reflexivity|split; [reflexivity|exact H]]).
  - destruct (c =? STOP); [|apply IH; assumption]. rewrite (IH l l' last last' _ _ H La).
    assert (E : match last with Some (i, _) => i | None => 0 end = match last' with Some (i, _) => i | None => 0 end).
    { destruct last as [[i u]|], last' as [[j v]|]; cbn [last_same] in La; try contradiction; [apply La|reflexivity]. }
    rewrite E. reflexivity.
Qed.
(** ** PEC and PES *)
Lemma insert_same i a b l l' : same a b -> sames l l' -> sames (py_insert i a l) (py_insert i b l').
Proof.
  intros H F. unfold py_insert. revert l l' F. induction (Z.to_nat i) as [|n IH]; intros l l' F.
  - cbn [firstn skipn app]. constructor; assumption.
  - destruct F as [|u v l l' U F]; cbn [firstn skipn app]; [constructor; [assumption|constructor]|]. constructor; [exact U|apply IH, F].
Qed.
Lemma duplicate_same {C} cc : forall r (ss : list (stitch C)) l l' i p, sames l l' ->
  fst (stop_as_duplicate cc ss l i p r) = fst (stop_as_duplicate cc ss l' i p r) /\
  sames (snd (stop_as_duplicate cc ss l i p r)) (snd (stop_as_duplicate cc ss l' i p r)).
Proof.
  induction r as [|s r IH]; intros ss l l' i p H; cbn [stop_as_duplicate]; [split; [reflexivity|exact H]|].
  destruct (sews _); [apply IH, H|]. destruct (changes _); [apply IH, H|]. destruct (_ =? STOP); [|apply IH, H].
  unfold py_index. destruct (i <? 0); [split; [reflexivity|exact H]|].
  pose proof (nth_same (Z.to_nat i) l l' H) as K. destruct (nth_error l _), (nth_error l' _); try contradiction; [|split; [reflexivity|exact H]].
  apply IH, insert_same; assumption.
Qed.
Lemma prepare_same filler s l l' : sames l l' ->
  fst (pec_prepare filler s l) = fst (pec_prepare filler s l') /\ sames (snd (pec_prepare filler s l)) (snd (pec_prepare filler s l')).
Proof. intros H. apply duplicate_same, fix_same, H. Qed.
Section Ordered.
(** set() of equal threads is enumerated alike: their hashes are the same (EmbThread.py 170-171) and so are
    the comparisons made. *)
Variable order : list thread -> list thread.
Hypothesis order_same : forall l l', sames l l' -> sames (order l) (order l').
Lemma header_same name l l' : sames l l' -> write_pec_header order name l = write_pec_header order name l'.
Proof. intros H. unfold write_pec_header. rewrite (palette_low _ _ pec_threads l l' (order_same l l' H) H). reflexivity. Qed.
Definition wsame (a b : res (list Z * list Z * list thread)) : Prop :=
  match a, b with Ok (x, y, l), Ok (x', y', l') => x = x' /\ y = y' /\ sames l l' | Err e, Err e' => e = e' | _, _ => False end.
Lemma pec_same filler name s l l' : sames l l' -> wsame (write_pec filler order name s l) (write_pec filler order name s l').
Proof.
  intros H. unfold write_pec. pose proof (fix_same filler s l l' H) as F. rewrite (header_same name _ _ F).
  destruct (write_pec_header order name _) as [[h i]|e]; cbn [bindr]; [|reflexivity].
  destruct (write_pec_block _ s) as [b|e]; cbn [bindr]; [|reflexivity]. repeat split. exact F.
Qed.
Lemma pec_write_same filler name s l l' : sames l l' -> pec_write filler order name s l = pec_write filler order name s l'.
Proof.
  intros H. unfold pec_write. destruct (prepare_same filler s l l' H) as [E F].
  destruct (pec_prepare filler s l) as [s1 l1], (pec_prepare filler s l') as [s2 l2]. cbn [fst snd] in *. subst s2.
  pose proof (pec_same filler name s1 l1 l2 F) as W.
  destruct (write_pec filler order name s1 l1) as [[[a b] c]|e], (write_pec filler order name s1 l2) as [[[a' b'] c']|e']; cbn [wsame bindr] in *; try contradiction; [|congruence].
  destruct W as [-> _]. reflexivity.
Qed.
Lemma pes_threads_same l l' : sames l l' -> write_pes_threads l = write_pes_threads l'.
Proof.
  induction 1 as [|a b l l' H F IH]; cbn [write_pes_threads]; [reflexivity|]. rewrite IH.
  assert (E : write_pes_thread a = write_pes_thread b); [|rewrite E; reflexivity].
  unfold write_pes_thread. open_same. rewrite (low_red _ _ L), (low_green _ _ L), (low_blue _ _ L). reflexivity.
Qed.
Lemma v6_same f32 md n l l' : sames l l' -> write_pes_header_v6 f32 md l n = write_pes_header_v6 f32 md l' n.
Proof. intros H. unfold write_pes_header_v6. rewrite (pes_threads_same l l' H), (sames_zlen l l' H). reflexivity. Qed.
Lemma segments_same g g' c c' ax ay : gets g g' -> Forall2 osame c c' -> forall bs i code at_, 
  segments_blocks g c ax ay i code at_ bs = segments_blocks g' c' ax ay i code at_ bs.
Proof.
  intros G F. induction bs as [|b bs IH]; intros i code at_; cbn [segments_blocks]; [reflexivity|].
  destruct b as [|s b]; [apply IH|]. rewrite (index_low _ _ c c' (same_low _ _ (G i)) F). rewrite !IH. reflexivity.
Qed.
Lemma pes_blocks_same f32 g g' c c' e s : gets g g' -> Forall2 osame c c' -> write_pes_blocks f32 g c e s = write_pes_blocks f32 g' c' e s.
Proof.
  intros G F. unfold write_pes_blocks, write_pes_embsewseg_segments, get_as_segments_blocks.
  rewrite (index_low _ _ c c' (same_low _ _ (G 0)) F). destruct e as [[[x0 y0] x1] y1]. rewrite (segments_same g g' c c' _ _ G F). reflexivity.
Qed.
Lemma somes l l' : sames l l' -> Forall2 osame (map Some l) (map Some l').
Proof. induction 1; cbn [map]; constructor; auto. cbn. apply same_low. assumption. Qed.
Lemma addendum_same i l l' : sames l l' -> write_pes_addendum i (map t_color l) = write_pes_addendum i (map t_color l').
Proof.
  intros H. apply colors_low in H. unfold write_pes_addendum. f_equal. f_equal.
  assert (E : flat_map (fun _ : Z => repeat 0 144) (map t_color l) = flat_map (fun _ : Z => repeat 0 144) (map t_color l')).
  { clear -H. induction H as [|a b c c' H F IH]; cbn [flat_map]; [reflexivity|]. rewrite IH. reflexivity. }
  rewrite E. f_equal. clear -H. induction H as [|a b c c' H F IH]; cbn [flat_map]; [reflexivity|]. rewrite IH, (low_24le a b H). reflexivity.
Qed.
Lemma pes_same f32 filler version truncated md s l l' : sames l l' ->
  pes_write f32 filler order version truncated md s l = pes_write f32 filler order version truncated md s l'.
Proof.
  intros H. unfold pes_write. destruct (prepare_same filler s l l' H) as [E F].
  destruct (pec_prepare filler s l) as [s1 l1], (pec_prepare filler s l') as [s2 l2]. cbn [fst snd] in *. subst s2.
  assert (P : forall k : list Z -> list Z -> list thread -> res (list Z), (forall x y a b, sames a b -> k x y a = k x y b) -> forall l1 l2, sames l1 l2 ->
    (do ' (p, i, t) <- write_pec filler order (md (text_of "name")) s1 l1; k p i t) = (do ' (p, i, t) <- write_pec filler order (md (text_of "name")) s1 l2; k p i t)).
  { intros k K u v U. pose proof (pec_same filler (md (text_of "name")) s1 u v U) as W.
    destruct (write_pec filler order _ s1 u) as [[[a b] c]|e], (write_pec filler order _ s1 v) as [[[a' b'] c']|e']; cbn [wsame bindr] in *; try contradiction; [|congruence].
    destruct W as (-> & -> & W). apply K, W. }
  destruct truncated.
  - destruct (version =? 10); [unfold write_truncated_version_1; apply P; [reflexivity|exact F]|].
    destruct (version =? 60); [|reflexivity]. unfold write_truncated_version_6. rewrite (v6_same f32 md 0 l1 l2 F).
    destruct (write_pes_header_v6 _ _ _ _) as [hd|]; cbn [bindr]; [|reflexivity]. apply P; [reflexivity|exact F].
  - destruct (version =? 10).
    + unfold write_version_1.
      assert (B : forall e, write_pes_blocks f32 (get_thread_or_filler filler l1) pec_threads e s1 = write_pes_blocks f32 (get_thread_or_filler filler l2) pec_threads e s1).
      { intros e. apply pes_blocks_same; [apply get_same, F|apply osame_refl]. }
      destruct (box_of s1) as [e|]; [rewrite (B e); destruct (write_pes_blocks _ _ _ _ _) as [[u v]|]; cbn [bindr]; [|reflexivity]|cbn [bindr]];
        (apply P; [reflexivity|exact F]).
    + destruct (version =? 60); [|reflexivity]. unfold write_version_6. pose proof (fix_same filler s1 l1 l2 F) as F2.
      rewrite !(v6_same f32 md _ _ _ F2).
      assert (B : forall e, write_pes_blocks f32 (get_thread_or_filler filler (fix_color_count filler s1 l1)) (map Some (fix_color_count filler s1 l1)) e s1
                          = write_pes_blocks f32 (get_thread_or_filler filler (fix_color_count filler s1 l2)) (map Some (fix_color_count filler s1 l2)) e s1).
      { intros e. apply pes_blocks_same; [apply get_same, F2|apply somes, F2]. }
      destruct (box_of s1) as [e|].
      * destruct (write_pes_header_v6 _ _ _ _) as [hd|]; cbn [bindr]; [|reflexivity]. rewrite (B e). destruct (write_pes_blocks _ _ _ _ _) as [[u v]|]; cbn [bindr]; [|reflexivity].
        apply P; [|exact F2]. intros x y a b K. rewrite (addendum_same y a b K). reflexivity.
      * destruct (write_pes_header_v6 _ _ _ _) as [hd|]; cbn [bindr]; [|reflexivity].
        apply P; [|exact F2]. intros x y a b K. rewrite (addendum_same y a b K). reflexivity.
Qed.
End Ordered.
(** ** SVG and PNG *)
Lemma svg_same g g' l : gets g g' -> svg_paths g l = svg_paths g' l.
Proof.
  intros G. unfold svg_paths, get_as_stitchblock. pose proof (stitchblocks_same g g' G l [] _ _ 1 (G 0)) as B.
  induction B as [|[x a] [y b] bs bs' [E H] F IH]; cbn [map]; [reflexivity|]. cbn [fst snd] in *. subst y. rewrite IH, (low_hex _ _ (same_low _ _ H)). reflexivity.
Qed.
Lemma stitchblocks_map {C} (g : Z -> thread) : forall (l : list (stitch C)) blk t i,
  stitchblocks (fun i => t_color (g i)) blk (t_color t) i l = map (fun b => (fst b, t_color (snd b))) (stitchblocks g blk t i l).
Proof.
  induction l as [|s l IH]; intros blk t i; cbn [stitchblocks].
  - destruct (_ <? _); reflexivity.
  - destruct (_ =? STITCH); [apply IH|]. rewrite map_app. f_equal; [destruct (_ <? _); reflexivity|]. destruct (_ =? COLOR_CHANGE); apply IH.
Qed.
Lemma draw_same fancy w : forall bs bs' : list (list (stitch Q) * thread), Forall2 bsame bs bs' -> forall c,
  draw_blocks fancy w (map (fun b => (fst b, t_color (snd b))) bs) c = draw_blocks fancy w (map (fun b => (fst b, t_color (snd b))) bs') c.
Proof.
  induction 1 as [|[x a] [y b] bs bs' [E H] F IH]; intros c; cbn [map draw_blocks fst snd] in *; [reflexivity|]. subst y.
  pose proof (same_low _ _ H) as L. rewrite (low_red _ _ L), (low_green _ _ L), (low_blue _ _ L).
  destruct (draw_block _ _ _ _ _ _); cbn [bindr]; [apply IH|reflexivity].
Qed.
Lemma png_same st g g' l : gets g g' -> png_picture st (fun i => t_color (g i)) l = png_picture st (fun i => t_color (g' i)) l.
Proof.
  intros G. unfold png_picture. destruct (bounds l) as [[[[x0|] [y0|]] [x1|]] [y1|]]; try reflexivity.
  destruct (new_canvas _ _) as [c|]; cbn [bindr]; [|reflexivity]. unfold get_as_stitchblock. rewrite !stitchblocks_map.
  rewrite (draw_same _ _ _ _ (stitchblocks_same g g' G (translate (- x0) (- y0) l) [] _ _ 1 (G 0))). reflexivity.
Qed.
