(** The VP3 writer on integers and the one on rationals write the same files. *)
From Coq Require Import ZArith QArith Qabs List Bool Lia Lqa.
From Verif Require Import PyBase EmbConst HelperModel BitLemmas HelperProofs ThreadModel
  PatternModel PatternProofs StreamModel DstFileModel Vp3Model Vp3Spec Vp3Proofs Vp3FileSpec Vp3FileProofs Vp3QModel Vp3QProofs.
Import ListNotations.
Open Scope Z_scope.

Lemma cut_minus a b : q_cut (inject_Z a - inject_Z b) = a - b.
Proof. rewrite (q_cut_compat _ (inject_Z (a - b))); [apply q_cut_int|]. unfold Z.sub. rewrite inject_Z_plus, inject_Z_opp. reflexivity. Qed.
Lemma cut_half a q : (q * 2 == inject_Z a)%Q -> q_cut q = Z.quot a 2.
Proof.
  intros H. rewrite (q_cut_compat q (a # 2)); [reflexivity|].
  unfold Qeq in *. cbn [Qnum Qden Qmult inject_Z] in *. lia.
Qed.
Lemma stitches_int : forall l x y x' y', (x' == inject_Z x)%Q -> (y' == inject_Z y)%Q ->
  vp3_stitches_q x' y' (map of_int l) = vp3_stitches x y l.
Proof.
  induction l as [|s r IH]; intros x y x' y' Hx Hy; [reflexivity|]. cbn [map vp3_stitches_q vp3_stitches]. cbn [of_int scmd sx sy].
  assert (D1 : q_cut (inject_Z (sx s) - x') = sx s - x) by (rewrite (q_cut_compat _ (inject_Z (sx s) - inject_Z x)); [apply cut_minus|rewrite Hx; reflexivity]).
  assert (D2 : q_cut (inject_Z (sy s) - y') = sy s - y) by (rewrite (q_cut_compat _ (inject_Z (sy s) - inject_Z y)); [apply cut_minus|rewrite Hy; reflexivity]).
  rewrite D1, D2. cbv zeta.
  rewrite (IH x y x' y' Hx Hy).
  rewrite (IH (x + (sx s - x)) (y + (sy s - y)) (x' + inject_Z (sx s - x))%Q (y' + inject_Z (sy s - y))%Q);
    [|rewrite inject_Z_plus, Hx; reflexivity|rewrite inject_Z_plus, Hy; reflexivity].
  reflexivity.
Qed.
Definition of_block {T} (b : list (stitch Z) * T) : list (stitch Q) * T := (map of_int (fst b), snd b).
Lemma blocks_int {T} (get : Z -> T) : forall l i b,
  vp3_blocks_q get i (map of_int b) (map of_int l) = map of_block (vp3_blocks get i b l).
Proof.
  induction l as [|s r IH]; intros i b; [reflexivity|]. cbn [map vp3_blocks_q vp3_blocks]. cbn [of_int scmd].
  destruct (_ =? COLOR_CHANGE).
  - cbn [map]. f_equal. apply (IH (i + 1) [s]).
  - rewrite <- IH, map_app. reflexivity.
Qed.
Lemma colorblock_int first sumx sumy cx cy l t : (cx * 2 == inject_Z sumx)%Q -> (cy * 2 == inject_Z sumy)%Q ->
  vp3_colorblock_q first cx cy (map of_int l) t = vp3_colorblock first sumx sumy l t.
Proof.
  intros Hx Hy. unfold vp3_colorblock_q, vp3_colorblock. destruct (vp3_thread t) as [th|]; [|reflexivity]. cbn [bindr].
  set (fp := match l with [] => (0, 0) | s :: _ => if first then (0, 0) else (sx s, sy s) end).
  set (lp := match rev l with [] => (0, 0) | s :: _ => (sx s, sy s) end).
  replace (match map of_int l with [] => (0%Q, 0%Q) | s :: _ => if first then (0%Q, 0%Q) else (sx s, sy s) end)
    with (inject_Z (fst fp), inject_Z (snd fp)) by (unfold fp; destruct l; [reflexivity|destruct first; reflexivity]).
  replace (match rev (map of_int l) with [] => (0%Q, 0%Q) | s :: _ => (sx s, sy s) end)
    with (inject_Z (fst lp), inject_Z (snd lp)) by (unfold lp; rewrite <- map_rev; destruct (rev l); reflexivity).
  cbn [fst snd].
  rewrite (cut_half (2 * fst fp - sumx)) by (unfold Z.sub; rewrite inject_Z_plus, inject_Z_mult, inject_Z_opp, <- Hx; change (inject_Z 2) with 2%Q; ring).
  rewrite (cut_half (- (2 * snd fp - sumy))) by (unfold Z.sub; rewrite inject_Z_opp, inject_Z_plus, inject_Z_mult, inject_Z_opp, <- Hy; change (inject_Z 2) with 2%Q; ring).
  rewrite cut_minus. rewrite q_cut_opp, cut_minus.
  unfold vp3_stitches_block_q, vp3_stitches_block. rewrite (stitches_int l (fst fp) (snd fp)) by reflexivity.
  reflexivity.
Qed.
Lemma colorblocks_int sumx sumy cx cy : (cx * 2 == inject_Z sumx)%Q -> (cy * 2 == inject_Z sumy)%Q ->
  forall bs first, vp3_colorblocks_q first cx cy (map of_block bs) = vp3_colorblocks first sumx sumy bs.
Proof.
  intros Hx Hy. induction bs as [|[b t] r IH]; intros first; [reflexivity|]. cbn [map of_block fst snd vp3_colorblocks_q vp3_colorblocks].
  rewrite (colorblock_int first sumx sumy) by assumption. destruct (vp3_colorblock _ _ _ _ _); [|reflexivity]. cbn [bindr]. rewrite IH. reflexivity.
Qed.
Lemma bounds_int l : l <> [] -> exists x0 y0 x1 y1, extents l = Some (x0, y0, x1, y1) /\
  bounds (map of_int l) = (Some (inject_Z x0), Some (inject_Z y0), Some (inject_Z x1), Some (inject_Z y1)).
Proof.
  intros N. pose proof (bounds_covers (map of_int l)) as H. destruct (bounds (map of_int l)) as [[[x0 y0] x1] y1].
  unfold covers in H. destruct x0 as [x0|], y0 as [y0|], x1 as [x1|], y1 as [y1|]; try contradiction; [|destruct l; [contradiction|discriminate]].
  destruct H as (F & (a & A1 & <-) & (b & B1 & <-) & (c & C1 & <-) & (d & D1 & <-)).
  apply in_map_iff in A1, B1, C1, D1. destruct A1 as (a' & <- & A1), B1 as (b' & <- & B1), C1 as (c' & <- & C1), D1 as (d' & <- & D1).
  exists (sx a'), (sy b'), (sx c'), (sy d'). split; [|reflexivity]. apply extents_box. unfold box_of, box.
  assert (G : forall s, In s l -> (sx a' <= sx s <= sx c') /\ (sy b' <= sy s <= sy d')).
  { intros s I. rewrite Forall_forall in F. specialize (F (of_int s) (in_map _ _ _ I)). cbn [of_int sx sy] in F. rewrite <- !Zle_Qle in F. exact F. }
  split; (split; [intros s I; destruct (G s I); lia|]); split; eauto.
Qed.
Lemma count_int k : forall l, count_stitch_commands k (map of_int l) = count_stitch_commands k l.
Proof. intros l. unfold count_stitch_commands. generalize 0. induction l as [|s r IH]; intros n; [reflexivity|]. cbn [map fold_left]. rewrite IH. reflexivity. Qed.
Lemma sections_int : forall l n b, count_sections n b (map of_int l) = count_sections n b l.
Proof. induction l as [|s r IH]; intros n b; [reflexivity|]. cbn [map count_sections]. cbn [of_int scmd]. rewrite !IH. reflexivity. Qed.
Lemma vp3_write_int filler l threads : vp3_write_q filler (map of_int l) threads = vp3_write filler l threads.
Proof.
  unfold vp3_write_q, vp3_write. assert (E : fix_color_count filler (map of_int l) threads = fix_color_count filler l threads).
  { unfold fix_color_count. rewrite sections_int. reflexivity. }
  rewrite E. change (@nil (stitch Q)) with (map of_int []). rewrite blocks_int.
  set (bs := vp3_blocks _ 0 [] l). unfold vp3_file_q, vp3_file.
  destruct l as [|s0 r0]; [reflexivity|]. destruct (bounds_int (s0 :: r0) ltac:(discriminate)) as (x0 & y0 & x1 & y1 & -> & ->).
  set (l := s0 :: r0). unfold vp3_design_block_q, vp3_design_block. cbv zeta.
  assert (M : forall a b, ((inject_Z b - (inject_Z b - inject_Z a) / 2) * 2 == inject_Z (a + b))%Q).
  { intros a b. rewrite inject_Z_plus. unfold Qdiv. change (/ 2)%Q with (1 # 2)%Q. ring. }
  assert (W : forall a b, ((inject_Z b - inject_Z a) / 2 * 2 == inject_Z (b - a))%Q).
  { intros a b. unfold Z.sub. rewrite inject_Z_plus, inject_Z_opp. unfold Qdiv. change (/ 2)%Q with (1 # 2)%Q. ring. }
  rewrite (colorblocks_int (x0 + x1) (y0 + y1)) by apply M.
  rewrite !(cut_half _ _ (M _ _)), !(cut_half _ _ (W _ _)), !cut_minus.
  assert (B : forall a k, q_cut (inject_Z a * inject_Z k) = a * k) by (intros a k; rewrite <- inject_Z_mult; apply q_cut_int).
  change 100%Q with (inject_Z 100). change (-100)%Q with (inject_Z (-100)). rewrite !B.
  assert (L : zlen (map of_block bs) = zlen bs) by (unfold zlen; rewrite map_length; reflexivity).
  assert (L' : zlen (map of_int l) = zlen l) by (unfold zlen; rewrite map_length; reflexivity).
  rewrite L, L', count_int. reflexivity.
Qed.
