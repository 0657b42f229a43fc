(** VP3 files of patterns with any extents and any starts of sections. *)
From Coq Require Import ZArith List Bool Lia.
From Verif Require Import PyBase EmbConst HelperModel BitLemmas HelperProofs ThreadModel Utf8Model Utf8Proofs
  PatternModel StreamModel JefSpec Vp3Model Vp3Spec Vp3Proofs EncoderSpec EncoderColorSpec.
Import ListNotations.
Open Scope Z_scope.

(** How far a start at [x] is moved by rounding, [sum] being twice the middle. *)
Definition drift (sum x : Z) : Z := Z.quot (2 * x - sum) 2 + Z.quot sum 2 - x.
Lemma quot2 a : Z.quot a 2 = if a <? 0 then - ((- a) / 2) else a / 2.
Proof.
  destruct (a <? 0) eqn:E; [apply Z.ltb_lt in E|apply Z.ltb_ge in E].
  - rewrite <- (Z.opp_involutive a) at 1. rewrite Z.quot_opp_l by lia. rewrite Z.quot_div_nonneg by lia. reflexivity.
  - apply Z.quot_div_nonneg; lia.
Qed.
Lemma drift_one sum x : Z.abs (drift sum x) <= 1.
Proof.
  unfold drift. rewrite !quot2. destruct (2 * x - sum <? 0) eqn:E1, (sum <? 0) eqn:E2;
    try apply Z.ltb_lt in E1; try apply Z.ltb_ge in E1; try apply Z.ltb_lt in E2; try apply Z.ltb_ge in E2; lia.
Qed.
Lemma drift_zero sum : drift sum 0 = 0.
Proof.
  unfold drift. replace (2 * 0 - sum) with (- sum) by lia. rewrite Z.quot_opp_l by lia. lia.
Qed.

Definition shifted (ex ey : Z) (l : list (stitch Z)) : list (stitch Z) := map (fun s => mkS (sx s + ex) (sy s + ey) (scmd s)) l.
Lemma shifted_app ex ey a b : shifted ex ey (a ++ b) = shifted ex ey a ++ shifted ex ey b.
Proof. apply map_app. Qed.

Lemma out_rel_shifted : forall l px py ex ey acc, block_ok px py l ->
  fold_left out_rel (block_events px py l) (100 * (px + ex), 100 * (py + ey), acc)
  = (100 * (fst (block_last px py l) + ex), 100 * (snd (block_last px py l) + ey),
     acc ++ in_hundredths (shifted ex ey (block_view px py l))).
Proof.
  induction l as [|s r IH]; intros px py ex ey acc H; [cbn; rewrite app_nil_r; reflexivity|].
  cbn [block_ok] in H. cbn [block_events block_view block_last].
  destruct H as [(Ec & _ & Hr) | [[Ec|Ec] Hr]].
  - rewrite Ec. cbn [Z.eqb STITCH]. cbn [fold_left]. unfold out_rel at 2, out_abs. cbn [sx sy scmd snd].
    replace (100 * (px + ex) + 100 * (sx s - px)) with (100 * (sx s + ex)) by lia.
    replace (100 * (py + ey) + 100 * (sy s - py)) with (100 * (sy s + ey)) by lia.
    rewrite IH by assumption. cbn [in_hundredths shifted map sx sy scmd]. rewrite <- app_assoc. reflexivity.
  - rewrite Ec. cbn [Z.eqb STITCH TRIM Pos.eqb]. cbn [fold_left]. unfold out_rel at 2, out_abs. cbn [sx sy scmd snd].
    rewrite !Z.mul_0_r, !Z.add_0_r.
    rewrite IH by assumption. cbn [in_hundredths shifted map sx sy scmd]. rewrite <- app_assoc. reflexivity.
  - destruct Ec as [Ec | [Ec | [Ec | [Ec | []]]]]; rewrite <- Ec; cbn [Z.eqb STITCH TRIM Pos.eqb JUMP STOP SEQUIN_MODE SEQUIN_EJECT];
      apply IH; assumption.
Qed.

Lemma read_colorblock_any first sumx sumy l t fx fy ev :
  start_of first l = (fx, fy) -> plain_texts t ->
  Z.abs sumx <= 20000000 -> Z.abs sumy <= 20000000 -> Z.abs fx <= 10000000 -> Z.abs fy <= 10000000 ->
  vp3_decode (map signed8 (vp3_stitches fx fy l ++ [0])) = Ok ev ->
  exists b, vp3_colorblock first sumx sumy l t = Ok b /\
    (zlen b < 2 ^ 32 -> forall pos rest o,
     vp3_read_colorblock (100 * Z.quot sumx 2) (100 * Z.quot sumy 2) (pos, b ++ rest) o
     = Ok (thread_kept t, (pos + zlen b, rest), fold_left out_rel ev (moved (fx + drift sumx fx) (fy + drift sumy fy) o))).
Proof.
  intros Hs Ht Hcx Hcy Hfx Hfy Hd.
  destruct (read_thread_of t Ht) as (tb & Et & Rt).
  unfold vp3_colorblock. change (match l with [] => (0, 0) | s :: _ => if first then (0, 0) else (sx s, sy s) end) with (start_of first l).
  rewrite Hs, Et. cbn [bindr fst snd].
  set (lp := match rev l with [] => (0, 0) | s :: _ => (sx s, sy s) end).
  eexists. split; [reflexivity|].
  pose proof (drift_one sumx fx) as Dx. pose proof (drift_one sumy fy) as Dy.
  assert (Ex : Z.quot (2 * fx - sumx) 2 = fx + drift sumx fx - Z.quot sumx 2) by (unfold drift; lia).
  assert (Ey : Z.quot (- (2 * fy - sumy)) 2 = - (fy + drift sumy fy - Z.quot sumy 2)) by (rewrite Z.quot_opp_l by lia; unfold drift; lia).
  assert (Bx : Z.abs (Z.quot sumx 2) <= 10000000).
  { rewrite quot2. destruct (sumx <? 0) eqn:E; [apply Z.ltb_lt in E|apply Z.ltb_ge in E]; lia. }
  assert (By : Z.abs (Z.quot sumy 2) <= 10000000).
  { rewrite quot2. destruct (sumy <? 0) eqn:E; [apply Z.ltb_lt in E|apply Z.ltb_ge in E]; lia. }
  rewrite Ex, Ey. set (gx := fx + drift sumx fx) in *. set (gy := fy + drift sumy fy) in *.
  set (cx := Z.quot sumx 2) in *. set (cy := Z.quot sumy 2) in *.
  unfold vp3_stitches_block, patched.
  set (sb := vp3_stitches fx fy l) in *.
  set (w1 := write_int_32be ((gx - cx) * 100)). set (w2 := write_int_32be (- (gy - cy) * 100)).
  set (w3 := write_int_32be ((fst lp - fx) * 100)). set (w4 := write_int_32be (- (snd lp - fy) * 100)).
  set (inner := [10; 246; 0] ++ sb).
  set (body := w1 ++ w2 ++ tb ++ w3 ++ w4 ++ ([0; 1; 0] ++ write_int_32be (zlen inner) ++ inner) ++ [0]).
  intros Hlen pos rest o.
  assert (Hbody : 0 <= zlen body < 2 ^ 32) by (pose proof (zlen_nonneg body); zlens; lia).
  unfold vp3_read_colorblock. rewrite <- !app_assoc.
  rewrite s_read_app by reflexivity. rewrite s_32be. cbn [some bindr fst].
  rewrite (Z.mod_small (zlen body)) by exact Hbody.
  unfold body at 1. rewrite <- !app_assoc.
  unfold w1 at 1. rewrite s_32be. cbn [some bindr].
  unfold w2 at 1. rewrite s_32be. cbn [some bindr].
  rewrite Rt. cbn [bindr].
  rewrite (app_assoc [0; 1; 0]). rewrite (app_assoc w4). rewrite (app_assoc w3).
  rewrite s_seek_app by reflexivity. unfold inner at 1. rewrite <- !app_assoc.
  rewrite s_read_app by reflexivity. cbn [fst].
  rewrite (app_assoc sb).
  rewrite s_read_app by (unfold body, inner, w1, w2, w3, w4; zlens; lia).
  rewrite Hd. cbn [bindr].
  rewrite !signed32_small by lia.
  replace ((gx - cx) * 100 + 100 * cx) with (100 * gx) by lia.
  replace (- (- (gy - cy) * 100) + 100 * cy) with (100 * gy) by lia.
  f_equal. f_equal; [f_equal|].
  - f_equal. unfold body, inner, w1, w2, w3, w4. zlens. lia.
  - f_equal. unfold moved, off_axes.
    replace (100 * gx =? 0) with (gx =? 0) by (destruct (Z.eqb_spec gx 0), (Z.eqb_spec (100 * gx) 0); lia).
    replace (100 * gy =? 0) with (gy =? 0) by (destruct (Z.eqb_spec gy 0), (Z.eqb_spec (100 * gy) 0); lia).
    reflexivity.
Qed.

Section Any.
Variables sumx sumy : Z.
(** How far a section that starts at (fx, fy) is moved, the reader being at (qx, qy). *)
Definition section_shift (fx fy qx qy : Z) : Z * Z :=
  if off_axes (fx + drift sumx fx) (fy + drift sumy fy) then (drift sumx fx, drift sumy fy) else (qx - fx, qy - fy).
Definition jump_near (fx fy : Z) : list (stitch Z) :=
  let gx := fx + drift sumx fx in let gy := fy + drift sumy fy in if off_axes gx gy then [mkS gx gy JUMP] else [].
Lemma moved_any fx fy qx qy acc e : section_shift fx fy qx qy = e ->
  moved (fx + drift sumx fx) (fy + drift sumy fy) (100 * qx, 100 * qy, acc)
  = (100 * (fx + fst e), 100 * (fy + snd e), acc ++ in_hundredths (jump_near fx fy)).
Proof.
  intros <-. unfold moved, section_shift, jump_near, out_abs. cbv zeta. destruct (off_axes _ _); cbn [fst snd].
  - reflexivity.
  - cbn [in_hundredths map]. rewrite app_nil_r. replace (fx + (qx - fx)) with qx by lia. replace (fy + (qy - fy)) with qy by lia. reflexivity.
Qed.

(** What is read; the section began with the shift (ex, ey). *)
Fixpoint any_view (ex ey px py : Z) (l : list (stitch Z)) : list (stitch Z) :=
  match l with
  | [] => [mkS (px + ex) (py + ey) END]
  | s :: r =>
      if cmd_of (scmd s) =? STITCH then mkS (sx s + ex) (sy s + ey) STITCH :: any_view ex ey (sx s) (sy s) r
      else if cmd_of (scmd s) =? TRIM then mkS (px + ex) (py + ey) TRIM :: any_view ex ey px py r
      else if cmd_of (scmd s) =? END then [mkS (px + ex) (py + ey) TRIM; mkS (px + ex) (py + ey) END]
      else if cmd_of (scmd s) =? COLOR_CHANGE then
        mkS (px + ex) (py + ey) COLOR_CHANGE :: jump_near (sx s) (sy s)
        ++ (let e := section_shift (sx s) (sy s) (px + ex) (py + ey) in any_view (fst e) (snd e) (sx s) (sy s) r)
      else any_view ex ey px py r
  end.

Lemma read_blocks_any (get : Z -> thread) :
  Z.abs sumx <= 20000000 -> Z.abs sumy <= 20000000 -> (forall i, plain_texts (get i)) ->
  forall l first hd b i fx fy qx qy e,
  heads first hd fx fy -> Z.abs fx <= 10000000 -> Z.abs fy <= 10000000 -> Forall small l ->
  block_ok fx fy b -> vp3_steps (fst (block_last fx fy b)) (snd (block_last fx fy b)) l ->
  section_shift fx fy qx qy = e ->
  exists bytes, vp3_colorblocks first sumx sumy (vp3_blocks get i (hd ++ b) l) = Ok bytes /\
    (zlen bytes < 2 ^ 32 -> forall pos rest acc ths, exists o,
      vp3_read_blocks (length (vp3_blocks get i (hd ++ b) l)) (100 * Z.quot sumx 2) (100 * Z.quot sumy 2) (pos, bytes ++ rest)
        (100 * qx, 100 * qy, acc) ths
      = Ok (o, ths ++ map (fun lt => thread_kept (snd lt)) (vp3_blocks get i (hd ++ b) l)) /\
      snd (out_rel o (mkS 0 0 END)) = acc ++ in_hundredths (jump_near fx fy ++ shifted (fst e) (snd e) (block_view fx fy b)
        ++ any_view (fst e) (snd e) (fst (block_last fx fy b)) (snd (block_last fx fy b)) l)).
Proof.
  intros Hcx Hcy Hget. induction l as [|s r IH]; intros first hd b i fx fy qx qy e Hh Hfx Hfy Hl Hb Hv Hq.
  - cbn [vp3_blocks vp3_colorblocks].
    destruct (read_colorblock_any first sumx sumy (hd ++ b) (get i) fx fy (block_events fx fy b)) as (bs & E & R);
      [apply heads_start; assumption|apply Hget|assumption..| |].
    { rewrite (heads_stitches _ _ _ _ _ Hh). apply decode_closed. assumption. }
    rewrite E. cbn [bindr]. exists (bs ++ []). split; [reflexivity|]. rewrite app_nil_r.
    intros Hlen pos rest acc ths. eexists. split.
    + cbn [length vp3_read_blocks]. rewrite R by assumption. cbn [bindr]. reflexivity.
    + rewrite (moved_any _ _ _ _ _ _ Hq). rewrite out_rel_shifted by assumption.
      cbn [any_view]. cbn [out_rel out_abs sx sy scmd snd]. rewrite !in_hundredths_app, !app_assoc.
      rewrite !Z.mul_0_r, !Z.add_0_r. reflexivity.
  - inversion Hl as [|? ? Hs Hr]; subst. cbn [vp3_steps] in Hv.
    assert (Same : cmd_of (scmd s) <> COLOR_CHANGE ->
                   vp3_blocks get i (hd ++ b) (s :: r) = vp3_blocks get i (hd ++ (b ++ [s])) r).
    { intros N. cbn [vp3_blocks]. destruct (Z.eqb_spec (cmd_of (scmd s)) COLOR_CHANGE); [contradiction|].
      rewrite <- app_assoc. reflexivity. }
    remember (section_shift fx fy qx qy) as e eqn:Hq. symmetry in Hq.
    destruct Hv as [(Ec & Hst & Hv) | [(Ec & Hv) | [(Ec & Hv) | (Ec & ->)]]].
    + rewrite Same by (rewrite Ec; discriminate).
      assert (Hb' : block_ok fx fy (b ++ [s])).
      { apply block_ok_snoc; [assumption|]. left. split; [exact Ec|]. split; [exact Hst|exact I]. }
      destruct (IH first hd (b ++ [s]) i fx fy qx qy e Hh Hfx Hfy Hr Hb') as (bs & E & R); [|exact Hq|].
      { rewrite block_last_snoc, Ec. exact Hv. }
      exists bs. split; [exact E|]. intros Hlen pos rest acc ths.
      destruct (R Hlen pos rest acc ths) as (o & R1 & R2). exists o. split; [exact R1|]. rewrite R2.
      rewrite block_view_snoc, block_last_snoc. cbn [any_view block_view]. rewrite Ec. cbn [Z.eqb STITCH].
      cbn [fst snd]. rewrite shifted_app. cbn [shifted map]. rewrite <- !app_assoc. reflexivity.
    + assert (N : cmd_of (scmd s) <> COLOR_CHANGE /\ cmd_of (scmd s) <> STITCH /\ cmd_of (scmd s) <> END).
      { destruct Ec as [Ec|Ec]; [rewrite Ec; repeat split; discriminate|].
        destruct Ec as [Ec | [Ec | [Ec | [Ec | []]]]]; rewrite <- Ec; repeat split; discriminate. }
      destruct N as (N1 & N2 & N3).
      rewrite Same by assumption.
      assert (Hb' : block_ok fx fy (b ++ [s])).
      { apply block_ok_snoc; [assumption|]. right. split; [exact Ec|exact I]. }
      apply Z.eqb_neq in N2. apply Z.eqb_neq in N1. apply Z.eqb_neq in N3.
      destruct (IH first hd (b ++ [s]) i fx fy qx qy e Hh Hfx Hfy Hr Hb') as (bs & E & R); [|exact Hq|].
      { rewrite block_last_snoc, N2. exact Hv. }
      exists bs. split; [exact E|]. intros Hlen pos rest acc ths.
      destruct (R Hlen pos rest acc ths) as (o & R1 & R2). exists o. split; [exact R1|]. rewrite R2.
      rewrite block_view_snoc, block_last_snoc. cbn [any_view block_view]. rewrite N2, N3, N1.
      rewrite shifted_app. destruct (cmd_of (scmd s) =? TRIM); cbn [shifted map]; rewrite <- !app_assoc; reflexivity.
    + cbn [vp3_blocks]. rewrite Ec. cbn [Z.eqb Pos.eqb COLOR_CHANGE].
      destruct (read_colorblock_any first sumx sumy (hd ++ b) (get i) fx fy (block_events fx fy b)) as (bs & E & R);
        [apply heads_start; assumption|apply Hget|assumption..| |].
      { rewrite (heads_stitches _ _ _ _ _ Hh). apply decode_closed. assumption. }
      assert (Hh' : heads false [s] (sx s) (sy s)) by (exists s; repeat split; assumption).
      destruct Hs as [Hsx Hsy].
      destruct (IH false [s] [] (i + 1) (sx s) (sy s) (fst (block_last fx fy b) + fst e) (snd (block_last fx fy b) + snd e) _
                   Hh' Hsx Hsy Hr I Hv eq_refl) as (bs2 & E2 & R2).
      rewrite app_nil_r in E2, R2.
      cbn [vp3_colorblocks]. rewrite E. cbn [bindr]. rewrite E2. cbn [bindr].
      exists (bs ++ bs2). split; [reflexivity|]. intros Hlen pos rest acc ths.
      rewrite zlen_app in Hlen. pose proof (zlen_nonneg bs). pose proof (zlen_nonneg bs2).
      cbn [length vp3_read_blocks]. rewrite <- app_assoc. rewrite R by lia. cbn [bindr].
      rewrite (moved_any _ _ _ _ _ _ Hq). rewrite out_rel_shifted by assumption.
      destruct (vp3_blocks get (i + 1) [s] r) as [|blk blks] eqn:Eb.
      { exfalso. clear -Eb. revert Eb. generalize [s]. generalize (i + 1).
        induction r as [|a r IHr]; intros j l E; [discriminate|].
        cbn [vp3_blocks] in E. destruct (cmd_of (scmd a) =? COLOR_CHANGE); [discriminate|]. eapply IHr; exact E. }
      cbn [length] in *.
      unfold out_rel at 1, out_abs at 1. cbn [sx sy scmd snd]. rewrite !Z.mul_0_r, !Z.add_0_r.
      match goal with |- context [vp3_read_blocks _ _ _ _ (_, _, ?a) ?t] => destruct (R2 ltac:(lia) (pos + zlen bs) rest a t) as (o & R3 & R4) end.
      exists o. split.
      * rewrite R3. cbn [map snd]. rewrite <- app_assoc. reflexivity.
      * rewrite R4. cbn [block_view block_last fst snd app shifted map]. cbn [any_view]. rewrite Ec.
        cbn [Z.eqb Pos.eqb COLOR_CHANGE STITCH TRIM END].
        rewrite <- !app_assoc, !in_hundredths_app. do 3 f_equal. cbn [app in_hundredths map sx sy scmd]. f_equal.
        fold (in_hundredths). rewrite <- in_hundredths_app. reflexivity.
    + rewrite Same by (rewrite Ec; discriminate). cbn [vp3_blocks vp3_colorblocks].
      destruct (read_colorblock_any first sumx sumy (hd ++ (b ++ [s])) (get i) fx fy (block_events fx fy b ++ [mkS 0 0 TRIM]))
        as (bs & E & R);
        [apply heads_start; assumption|apply Hget|assumption..| |].
      { rewrite (heads_stitches _ _ _ _ _ Hh). apply decode_ended; assumption. }
      rewrite E. cbn [bindr]. exists (bs ++ []). split; [reflexivity|]. rewrite app_nil_r.
      intros Hlen pos rest acc ths. eexists. split.
      * cbn [length vp3_read_blocks]. rewrite R by assumption. cbn [bindr]. reflexivity.
      * rewrite (moved_any _ _ _ _ _ _ Hq). rewrite fold_left_app, out_rel_shifted by assumption.
        cbn [any_view]. rewrite Ec. cbn [Z.eqb Pos.eqb COLOR_CHANGE STITCH TRIM END].
        cbn [fold_left out_rel out_abs sx sy scmd snd]. rewrite !in_hundredths_app, !app_assoc.
        rewrite !Z.mul_0_r, !Z.add_0_r. cbn [in_hundredths map]. rewrite <- !app_assoc. reflexivity.
Qed.
End Any.

Lemma extents_any l : l <> [] -> small_coordinates l -> exists x0 y0 x1 y1, extents l = Some (x0, y0, x1, y1) /\
  Z.abs x0 <= 10000000 /\ Z.abs y0 <= 10000000 /\ Z.abs x1 <= 10000000 /\ Z.abs y1 <= 10000000.
Proof.
  intros Hn Hs. destruct l as [|s r]; [contradiction|]. unfold extents.
  assert (G : forall r a b c d, (forall s, In s r -> Z.abs (sx s) <= 10000000 /\ Z.abs (sy s) <= 10000000) ->
    Z.abs a <= 10000000 -> Z.abs b <= 10000000 -> Z.abs c <= 10000000 -> Z.abs d <= 10000000 ->
    exists x0 y0 x1 y1, fold_left (fun b s => match b with (x0, y0, x1, y1) =>
      (Z.min x0 (sx s), Z.min y0 (sy s), Z.max x1 (sx s), Z.max y1 (sy s)) end) r (a, b, c, d) = (x0, y0, x1, y1) /\
    Z.abs x0 <= 10000000 /\ Z.abs y0 <= 10000000 /\ Z.abs x1 <= 10000000 /\ Z.abs y1 <= 10000000).
  { clear. induction r as [|s r IH]; intros a b c d H Ha Hb Hc Hd; [exists a, b, c, d; auto|].
    cbn [fold_left]. destruct (H s (or_introl eq_refl)). apply IH; [intros x I; apply H; right; exact I|lia..]. }
  destruct (Hs s (or_introl eq_refl)).
  destruct (G r (sx s) (sy s) (sx s) (sy s)) as (x0 & y0 & x1 & y1 & -> & B); [intros x I; apply Hs; right; exact I|assumption..|].
  exists x0, y0, x1, y1. auto.
Qed.

Lemma vp3_roundtrip_any filler threads l :
  l <> [] -> vp3_steps 0 0 l -> small_coordinates l ->
  Z.of_nat (color_changes l) < 65535 ->
  Forall plain_texts threads -> (forall i, plain_texts (filler i)) ->
  exists file sumx sumy, vp3_write filler l threads = Ok file /\
    (zlen file < 2 ^ 32 ->
     vp3_read file = Ok (in_hundredths (any_view sumx sumy 0 0 0 0 l),
                         map thread_kept (block_threads filler threads (S (color_changes l))))).
Proof.
  intros Hne Hv Hs Hn Ht Hf.
  destruct (extents_any l Hne Hs) as (x0 & y0 & x1 & y1 & Ee & B1 & B2 & B3 & B4).
  unfold vp3_write. set (get := get_thread_or_filler filler (fix_color_count filler l threads)).
  assert (Hget : forall i, plain_texts (get i)).
  { intros i. unfold get, get_thread_or_filler.
    destruct (nth_error (fix_color_count filler l threads) (Z.to_nat i)) as [t|] eqn:E; [|apply Hf].
    destruct (Z.le_gt_cases 0 i) as [Hi|Hi].
    - assert (G : get_thread_or_filler filler (fix_color_count filler l threads) i = t)
        by (unfold get_thread_or_filler; rewrite E; reflexivity).
      unfold fix_color_count in G. rewrite add_fillers_get in G by assumption.
      unfold get_thread_or_filler in G. destruct (nth_error threads (Z.to_nat i)) as [u|] eqn:E'; [|subst t; apply Hf].
      subst u. rewrite Forall_forall in Ht. apply Ht. eapply nth_error_In. exact E'.
    - assert (Z.to_nat i = Z.to_nat 0) as Ei by lia. rewrite Ei in E.
      assert (G : get_thread_or_filler filler (fix_color_count filler l threads) 0 = t)
        by (unfold get_thread_or_filler; rewrite E; reflexivity).
      unfold fix_color_count in G. rewrite add_fillers_get in G by lia.
      unfold get_thread_or_filler in G. destruct (nth_error threads (Z.to_nat 0)) as [u|] eqn:E'; [|subst t; apply Hf].
      subst u. rewrite Forall_forall in Ht. apply Ht. eapply nth_error_In. exact E'. }
  assert (F0 : section_shift (x0 + x1) (y0 + y1) 0 0 0 0 = (0, 0)) by (unfold section_shift; rewrite !drift_zero; reflexivity).
  assert (J0 : jump_near (x0 + x1) (y0 + y1) 0 0 = []) by (unfold jump_near; rewrite !drift_zero; reflexivity).
  assert (Sx : Z.abs (Z.quot (x0 + x1) 2) <= 10000000).
  { rewrite quot2. destruct (x0 + x1 <? 0) eqn:E; [apply Z.ltb_lt in E|apply Z.ltb_ge in E]; lia. }
  assert (Sy : Z.abs (Z.quot (y0 + y1) 2) <= 10000000).
  { rewrite quot2. destruct (y0 + y1 <? 0) eqn:E; [apply Z.ltb_lt in E|apply Z.ltb_ge in E]; lia. }
  destruct (read_blocks_any (x0 + x1) (y0 + y1) get ltac:(lia) ltac:(lia) Hget l true [] [] 0 0 0 0 0 (0, 0)) as (cb & Ecb & Rcb);
    [repeat split|lia|lia|rewrite Forall_forall; exact Hs|exact I|exact Hv|exact F0|].
  rewrite J0 in Rcb. cbn [app] in Ecb, Rcb.
  assert (Tk : map (fun lt : list (stitch Z) * thread => thread_kept (snd lt)) (vp3_blocks get 0 [] l)
               = map thread_kept (block_threads filler threads (S (color_changes l)))).
  { rewrite <- (map_map snd thread_kept), vp3_blocks_threads. f_equal. unfold block_threads. apply map_ext.
    intros k. unfold get, fix_color_count. rewrite add_fillers_get by lia. unfold get_thread_or_filler.
    cbn [Z.add]. rewrite Nat2Z.id. reflexivity. }
  assert (Ln : length (vp3_blocks get 0 [] l) = S (color_changes l)).
  { rewrite <- (map_length snd), vp3_blocks_threads, map_length, seq_length. reflexivity. }
  set (bs := vp3_blocks get 0 [] l) in *.
  unfold vp3_file. rewrite Ee. unfold vp3_design_block.
  rewrite Ecb. cbn [bindr]. unfold patched.
  match goal with |- context [[0; 3; 0] ++ write_int_32be (zlen ?d) ++ _] => set (design := d) end.
  cbn [bindr].
  match goal with |- context [[0; 2; 0] ++ write_int_32be (zlen ?d) ++ _] => set (fbody := d) end.
  eexists. exists (x0 + x1), (y0 + y1). split; [reflexivity|]. intros Hlen.
  assert (Hcb : zlen cb < 2 ^ 32).
  { pose proof (zlen_nonneg (vp3_string_16 produced)). revert Hlen. unfold fbody. rewrite !zlen_app.
    unfold design. rewrite !zlen_app. intros Hlen.
    repeat match type of Hlen with context [zlen ?x] =>
      lazymatch x with cb => fail | _ => let z := fresh "z" in pose proof (zlen_nonneg x); set (z := zlen x) in * end end.
    lia. }
  unfold vp3_read.
  change ([37; 118; 115; 109; 37] ++ write_int_8 0 ++ vp3_string_16 produced ++ [0; 2; 0] ++ write_int_32be (zlen fbody) ++ fbody)
    with ([37; 118; 115; 109; 37; 0] ++ vp3_string_16 produced ++ [0; 2; 0] ++ write_int_32be (zlen fbody) ++ fbody).
  rewrite s_read_app by reflexivity. rewrite skip_string_16 by reflexivity. cbn [bindr].
  rewrite (app_assoc [0; 2; 0]). rewrite s_seek_app by reflexivity.
  unfold fbody. rewrite skip_string_16 by reflexivity. cbn [bindr].
  match goal with |- context [s_seek 32 (?p, ?a ++ ?b ++ ?c ++ ?d ++ ?e ++ ?g ++ ?i ++ ?j ++ ?k ++ ?m ++ ?n ++ ?q ++ ?r)] =>
    replace (a ++ b ++ c ++ d ++ e ++ g ++ i ++ j ++ k ++ m ++ n ++ q ++ r) with
      ((a ++ b ++ c ++ d ++ e ++ g ++ i ++ j ++ k ++ m ++ n ++ q) ++ r) by (rewrite <- !app_assoc; reflexivity) end.
  rewrite s_seek_app by reflexivity.
  unfold design. rewrite s_32be. cbn [some bindr]. rewrite s_32be. cbn [some bindr].
  match goal with |- context [s_seek 27 (?p, ?a ++ ?b ++ ?c ++ ?d ++ ?e ++ ?g ++ ?i ++ ?r)] =>
    replace (a ++ b ++ c ++ d ++ e ++ g ++ i ++ r) with
      ((a ++ b ++ c ++ d ++ e ++ g ++ i) ++ r) by (rewrite <- !app_assoc; reflexivity) end.
  rewrite s_seek_app by reflexivity.
  rewrite skip_string_16 by reflexivity. cbn [bindr].
  match goal with |- context [s_seek 24 (?p, ?a ++ ?b ++ ?c ++ ?d ++ ?e ++ ?g ++ ?r)] =>
    replace (a ++ b ++ c ++ d ++ e ++ g ++ r) with
      ((a ++ b ++ c ++ d ++ e ++ g) ++ r) by (rewrite <- !app_assoc; reflexivity) end.
  rewrite s_seek_app by reflexivity.
  rewrite skip_string_16 by reflexivity. cbn [bindr].
  rewrite s_16be. cbn [some bindr].
  rewrite (Z.mod_small (zlen bs)) by (unfold zlen; rewrite Ln; change (2 ^ 16) with 65536; lia).
  unfold zlen at 1. rewrite Nat2Z.id.
  rewrite !signed32_small by lia.
  replace (Z.quot (x0 + x1) 2 * 100) with (100 * Z.quot (x0 + x1) 2) by lia. replace (- (Z.quot (y0 + y1) 2 * -100)) with (100 * Z.quot (y0 + y1) 2) by lia.
  rewrite <- (app_nil_r cb).
  destruct (Rcb Hcb (0 + 6 + 2 + 2 * zlen produced + 7 + 2 + 2 * zlen (@nil Z) + 32 + 4 + 4 + 27 + 2 + 2 * zlen (@nil Z) + 24 + 2 + 2 * zlen produced + 2)
              [] [] []) as (o & R1 & R2).
  change (100 * 0) with 0 in R1. cbn [app] in R1. rewrite R1. cbn [bindr].
  rewrite R2, Tk. cbn [block_view shifted map app fst snd block_last]. reflexivity.
Qed.

(** ** Sections of what is read *)
Definition put_by (shift : nat -> Z * Z) (p : nat * (Z * Z)) : nat * (Z * Z) :=
  (fst p, (fst (snd p) + fst (shift (fst p)), snd (snd p) + snd (shift (fst p)))).
Lemma put_from shift shift' n (l : list (stitch Z)) : (forall k, (n <= k)%nat -> shift k = shift' k) ->
  map (put_by shift) (coloured n l) = map (put_by shift') (coloured n l).
Proof.
  intros H. revert n H. induction l as [|a r IH]; intros n H; [reflexivity|]. cbn [coloured].
  destruct (is_cmd COLOR_CHANGE a); [apply IH; intros k Hk; apply H; lia|].
  destruct (is_cmd STITCH a); [|apply IH; exact H]. cbn [map]. f_equal; [|apply IH; exact H].
  unfold put_by. cbn [fst]. rewrite H by lia. reflexivity.
Qed.
Lemma any_sections sumx sumy : forall l n ex ey px py, vp3_steps px py l ->
  exists shift, shift n = (ex, ey) /\ coloured n (any_view sumx sumy ex ey px py l) = map (put_by shift) (coloured n l) /\
    (near_changes px py l -> Z.abs ex <= 1 -> Z.abs ey <= 1 -> forall k, Z.abs (fst (shift k)) <= 1 /\ Z.abs (snd (shift k)) <= 1).
Proof.
  induction l as [|s r IH]; intros n ex ey px py H.
  - exists (fun _ => (ex, ey)). split; [reflexivity|]. split; [reflexivity|]. cbn [fst snd]. auto.
  - cbn [vp3_steps] in H. cbn [any_view coloured near_changes]. unfold is_cmd. change (Z.land (scmd s) 255) with (cmd_of (scmd s)). destruct H as [(Ec & _ & H) | [(Ec & H) | [(Ec & H) | (Ec & ->)]]].
    + rewrite Ec. cbn [Z.eqb Pos.eqb STITCH COLOR_CHANGE]. destruct (IH n ex ey (sx s) (sy s) H) as (shift & S1 & S2 & S3).
      exists shift. split; [exact S1|]. split; [|exact S3]. cbn [coloured]. unfold is_cmd. cbn [scmd sx sy].
      change (Z.land STITCH 255 =? COLOR_CHANGE) with false. change (Z.land STITCH 255 =? STITCH) with true. cbn [map]. rewrite S2.
      assert (P : put_by shift (n, (sx s, sy s)) = (n, (sx s + ex, sy s + ey))) by (unfold put_by; cbn [fst snd]; rewrite S1; reflexivity).
      rewrite P. reflexivity.
    + destruct (IH n ex ey px py H) as (shift & S1 & S2 & S3). exists shift. split; [exact S1|].
      destruct Ec as [Ec|Ec].
      * rewrite Ec. cbn [Z.eqb Pos.eqb STITCH COLOR_CHANGE TRIM]. split; [exact S2|exact S3].
      * destruct Ec as [Ec | [Ec | [Ec | [Ec | []]]]]; rewrite <- Ec; cbn [Z.eqb Pos.eqb STITCH COLOR_CHANGE TRIM END JUMP STOP SEQUIN_MODE SEQUIN_EJECT];
          split; assumption.
    + rewrite Ec. cbn [Z.eqb Pos.eqb STITCH COLOR_CHANGE TRIM END]. set (e := section_shift sumx sumy (sx s) (sy s) (px + ex) (py + ey)).
      destruct (IH (S n) (fst e) (snd e) (sx s) (sy s) H) as (shift & S1 & S2 & S3).
      exists (fun k => if (k =? n)%nat then (ex, ey) else shift k). split; [rewrite Nat.eqb_refl; reflexivity|]. split.
      * cbn [coloured]. unfold is_cmd at 1. cbn [scmd]. change (Z.land COLOR_CHANGE 255 =? COLOR_CHANGE) with true. cbn match.
        transitivity (coloured (S n) (any_view sumx sumy (fst e) (snd e) (sx s) (sy s) r)).
        { unfold jump_near. cbv zeta. destruct (off_axes _ _); reflexivity. }
        rewrite S2. apply put_from. intros k Hk. destruct (Nat.eqb_spec k n); [lia|reflexivity].
      * intros [Hn Hr] Hx Hy k. destruct (Nat.eqb_spec k n); [split; assumption|]. apply S3; [exact Hr| |];
          unfold e, section_shift; pose proof (drift_one sumx (sx s)); pose proof (drift_one sumy (sy s));
          destruct (off_axes _ _) eqn:Eo; cbn [fst snd]; try assumption;
          (destruct Hn as [[N1 N2]|[N1 N2]]; [|lia]);
          unfold off_axes in Eo; apply andb_false_iff in Eo; destruct Eo as [Eo|Eo]; apply negb_false_iff in Eo; apply Z.eqb_eq in Eo; lia.
    + rewrite Ec. exists (fun _ => (ex, ey)). split; [reflexivity|]. split; [reflexivity|]. cbn [fst snd]. auto.
Qed.
