(** Proofs for C178 and C179. *)
From Coq Require Import ZArith List Bool Lia.
From Verif Require Import PyBase EmbConst HelperModel BitLemmas HelperProofs ThreadModel Utf8Model Utf8Proofs
  PatternModel StreamModel JefSpec Vp3Model Vp3Spec Vp3FileSpec Vp3Proofs Vp3AnyProofs.
Import ListNotations.
Open Scope Z_scope.

(** ** Readers *)
Definition runs {A} (r : reader A) (w : list Z) (a : A) : Prop := forall rest, r (w ++ rest) = Some (a, rest).
Definition ends {A} (r : reader A) (w : list Z) (a : A) : Prop := r w = Some (a, []).
Lemma runs_give {A} (a : A) : runs (give a) [] a.
Proof. intros rest. reflexivity. Qed.
Lemma runs_then {A B} (r : reader A) (k : A -> reader B) w w' a b :
  runs r w a -> runs (k a) w' b -> runs (andthen r k) (w ++ w') b.
Proof. intros H K rest. unfold andthen. rewrite <- app_assoc, H. apply K. Qed.
Lemma ends_then {A B} (r : reader A) (k : A -> reader B) w w' a b :
  runs r w a -> ends (k a) w' b -> ends (andthen r k) (w ++ w') b.
Proof. intros H K. unfold ends, andthen. rewrite H. exact K. Qed.
Lemma ends_runs {A} (r : reader A) w a : runs r w a -> ends r w a.
Proof. intros H. unfold ends. rewrite <- (app_nil_r w) at 1. apply H. Qed.
Lemma runs_bytes : forall w, runs (bytes (length w)) w w.
Proof.
  induction w as [|x w IH]; intros rest; [reflexivity|]. cbn [length bytes app]. unfold andthen.
  rewrite IH. reflexivity.
Qed.
Lemma runs_exactly : forall w, runs (exactly w) w tt.
Proof. induction w as [|x w IH]; intros rest; [reflexivity|]. cbn [exactly app]. rewrite Z.eqb_refl. apply IH. Qed.
Lemma runs_number n w v : length w = n -> value w = v -> runs (number n) w v.
Proof. intros <- <- rest. unfold number, andthen. rewrite runs_bytes. reflexivity. Qed.
Lemma runs_32 v : runs (number 4) (write_int_32be v) (v mod 2 ^ 32).
Proof.
  apply runs_number; [reflexivity|]. unfold write_int_32be, value. cbn [fold_left]. rewrite !sh8_spec by lia.
  rewrite <- combine4. lia.
Qed.
Lemma runs_24 v : runs (number 3) (write_int_24be v) (v mod 2 ^ 24).
Proof.
  apply runs_number; [reflexivity|]. unfold write_int_24be, value. cbn [fold_left]. rewrite !sh8_spec by lia.
  rewrite <- combine3. lia.
Qed.
Lemma runs_16 v : runs (number 2) (write_int_16be v) (v mod 2 ^ 16).
Proof.
  apply runs_number; [reflexivity|]. unfold write_int_16be, value. cbn [fold_left]. rewrite !sh8_spec by lia.
  rewrite <- combine2. lia.
Qed.
Lemma runs_8 v : runs (number 1) (write_int_8 v) (v mod 256).
Proof. apply runs_number; [reflexivity|]. unfold write_int_8, value. cbn [fold_left]. rewrite land_ff. lia. Qed.
Lemma runs_s32 v : -2147483648 <= v <= 2147483647 -> runs (signed 4) (write_int_32be v) v.
Proof.
  intros H. unfold signed. rewrite <- (app_nil_r (write_int_32be v)). eapply runs_then; [apply runs_32|].
  change (8 * Z.of_nat 4 - 1) with 31. change (8 * Z.of_nat 4) with 32.
  change (2 ^ 31) with 2147483648. change (2 ^ 32) with 4294967296.
  intros rest. unfold give. cbn [app]. do 2 f_equal. destruct (Z.ltb_spec (v mod 4294967296) 2147483648); lia.
Qed.
Lemma runs_pair x y : -2147483648 <= x <= 2147483647 -> -2147483648 <= y <= 2147483647 ->
  runs (pair_of 4) (write_int_32be x ++ write_int_32be y) (x, y).
Proof.
  intros Hx Hy. unfold pair_of. eapply runs_then; [apply runs_s32; exact Hx|].
  rewrite <- (app_nil_r (write_int_32be y)). eapply runs_then; [apply runs_s32; exact Hy|]. apply runs_give.
Qed.
Lemma runs_string w : zlen w < 65536 -> runs string (write_int_16be (zlen w) ++ w) w.
Proof.
  intros H. unfold string. eapply runs_then; [apply runs_16|]. pose proof (zlen_nonneg w).
  rewrite Z.mod_small by (change (2 ^ 16) with 65536; lia). unfold zlen. rewrite Nat2Z.id. apply runs_bytes.
Qed.
Lemma runs_block {A} kind (r : reader A) body a : ends r body a -> zlen body < 2 ^ 32 ->
  runs (block kind r) ([0; kind; 0] ++ patched body) a.
Proof.
  intros H L. unfold block, patched. eapply runs_then; [apply runs_exactly|]. cbv beta.
  eapply runs_then; [apply runs_32|]. rewrite Z.mod_small by (pose proof (zlen_nonneg body); lia).
  unfold zlen. rewrite Nat2Z.id. rewrite <- (app_nil_r body) at 2. eapply runs_then; [apply runs_bytes|].
  intros rest. rewrite H. reflexivity.
Qed.
Lemma runs_times {A} (r : reader A) : forall ws l, Forall2 (runs r) ws l -> runs (times (length l) r) (concat ws) l.
Proof.
  intros ws l H. induction H as [|w a ws l Hw H IH]; [apply runs_give|]. cbn [length times concat].
  eapply runs_then; [exact Hw|]. rewrite <- (app_nil_r (concat ws)). eapply runs_then; [exact IH|]. apply runs_give.
Qed.

(** ** Stitches *)
Lemma signed_value_8 v : -128 <= v <= 127 -> signed_value [Z.land v 0xFF] = v.
Proof.
  intros H. unfold signed_value, value. cbn [fold_left length]. rewrite land_ff.
  change (8 * Z.of_nat 1 - 1) with 7. change (8 * Z.of_nat 1) with 8. change (2 ^ 7) with 128. change (2 ^ 8) with 256.
  destruct (Z.ltb_spec (256 * 0 + v mod 256) 128); lia.
Qed.
Lemma signed_value_16 v : -32768 <= v <= 32767 -> signed_value (write_int_16be v) = v.
Proof.
  intros H. unfold signed_value, value, write_int_16be. cbn [fold_left length]. rewrite !sh8_spec by lia.
  change (8 * Z.of_nat 2 - 1) with 15. change (8 * Z.of_nat 2) with 16. change (2 ^ 15) with 32768. change (2 ^ 16) with 65536.
  change (2 ^ 8) with 256. rewrite Z.pow_0_r, Z.div_1_r.
  match goal with |- context [?a <? ?b] => destruct (Z.ltb_spec a b) end; lia.
Qed.
Lemma marks_stitches : forall l px py, Forall known l -> Forall fits (section_marks px py l) ->
  marks (vp3_stitches px py l) = Some (section_marks px py l).
Proof.
  induction l as [|s r IH]; intros px py K F; [reflexivity|]. inversion K as [|s' r' Ks Kr]; subst.
  cbn [vp3_stitches section_marks] in *. cbv zeta. unfold known in Ks. cbn [In] in Ks.
  destruct Ks as [E|[E|[E|[E|[E|[E|[E|[E|[]]]]]]]]]; rewrite <- E in *; cbn [Z.eqb Pos.eqb STITCH TRIM END COLOR_CHANGE SEQUIN_MODE SEQUIN_EJECT STOP JUMP] in *;
    try (apply IH; assumption); try reflexivity.
  - pose proof (Forall_inv F) as [Fx Fy]. pose proof (Forall_inv_tail F) as Fr.
    replace (px + (sx s - px)) with (sx s) by lia. replace (py + (sy s - py)) with (sy s) by lia.
    match goal with |- context [if ?b then _ else _] => destruct b eqn:Eb end.
    + rewrite !andb_true_iff, !Z.leb_le in Eb. destruct Eb as [[[[E1 E2] E3] E4] _].
      cbn [write_int_8 app marks]. rewrite !signed_value_8 by lia. rewrite IH by assumption.
      assert (N : (Z.land (sx s - px) 255 =? 128) = false) by (apply Z.eqb_neq; rewrite land_ff; lia).
      rewrite N. reflexivity.
    + rewrite <- !app_assoc.
      change ([0x80; 0x01] ++ write_int_16be (sx s - px) ++ write_int_16be (sy s - py) ++ [0x80; 0x02] ++ vp3_stitches (sx s) (sy s) r)
        with (0x80 :: 0x01 :: sh8 (sx s - px) 8 :: sh8 (sx s - px) 0 :: sh8 (sy s - py) 8 :: sh8 (sy s - py) 0 :: 0x80 :: 0x02 :: vp3_stitches (sx s) (sy s) r).
      cbn [marks]. cbn [Z.eqb Pos.eqb negb andb]. rewrite IH by assumption. cbn [option_map].
      change [sh8 (sx s - px) 8; sh8 (sx s - px) 0] with (write_int_16be (sx s - px)).
      change [sh8 (sy s - py) 8; sh8 (sy s - py) 0] with (write_int_16be (sy s - py)).
      rewrite !signed_value_16 by lia. reflexivity.
  - pose proof (Forall_inv_tail F) as Fr. cbn [app marks]. cbn [Z.eqb Pos.eqb negb]. rewrite IH by assumption. reflexivity.
Qed.

(** ** Sections *)
Definition kept_text (o : option text) : list Z := match o with Some t => t | None => [] end.
Definition kept_name (t : thread) : list Z := match t_description t with Some s => s | None => hex_color (t_color t) end.
Definition end_of (l : list (stitch Z)) : Z * Z := match rev l with [] => (0, 0) | s :: _ => (sx s, sy s) end.
Definition shown (first : bool) (sumx sumy : Z) (l : list (stitch Z)) (t : thread) : section :=
  let f := start_of first l in
  mkSection (Z.quot (2 * fst f - sumx) 2 * 100, Z.quot (- (2 * snd f - sumy)) 2 * 100)
    (t_color t mod 2 ^ 24) (kept_text (t_catalog t)) (kept_name t) (kept_text (t_brand t))
    ((fst (end_of l) - fst f) * 100, - (snd (end_of l) - snd f) * 100)
    (vp3_stitches (fst f) (snd f) l).

Lemma quot_bound a b : Z.abs a <= 2 * b -> Z.abs (Z.quot a 2) <= b.
Proof. intros H. rewrite quot2. destruct (a <? 0) eqn:E; [apply Z.ltb_lt in E|apply Z.ltb_ge in E]; lia. Qed.
Lemma text_ok o : plain_text o -> short_ascii (kept_text o).
Proof. destruct o; [auto|intros _; exact empty_ascii]. Qed.
Lemma name_ok t : plain_texts t -> short_ascii (kept_name t).
Proof. intros (_ & H & _). unfold kept_name. destruct (t_description t); [exact H|apply hex_color_ascii]. Qed.

Lemma colorblock_shown first sumx sumy l t : plain_texts t -> Z.abs sumx <= 20000000 -> Z.abs sumy <= 20000000 ->
  Forall small l ->
  exists w, vp3_colorblock first sumx sumy l t = Ok w /\ (zlen w < 2 ^ 32 -> runs colour_block w (shown first sumx sumy l t)).
Proof.
  intros Ht Hx Hy Hl. assert (Tn := name_ok t Ht). destruct Ht as (Tc & Td & Tb).
  assert (Fp : match l with [] => (0, 0) | s :: _ => if first then (0, 0) else (sx s, sy s) end = start_of first l) by reflexivity.
  assert (Fb : Z.abs (fst (start_of first l)) <= 10000000 /\ Z.abs (snd (start_of first l)) <= 10000000).
  { unfold start_of. destruct l as [|s r]; [cbn; lia|]. inversion Hl as [|? ? [? ?] ?]; subst. destruct first; cbn; lia. }
  assert (Eb : Z.abs (fst (end_of l)) <= 10000000 /\ Z.abs (snd (end_of l)) <= 10000000).
  { unfold end_of. destruct (rev l) as [|s r] eqn:E; [cbn; lia|]. assert (I : In s l) by (rewrite in_rev, E; left; reflexivity).
    rewrite Forall_forall in Hl. exact (Hl s I). }
  unfold vp3_colorblock. rewrite Fp. cbv zeta. change (match rev l with [] => (0, 0) | s :: _ => (sx s, sy s) end) with (end_of l).
  change (vp3_thread t) with (do c <- vp3_string_8 (kept_text (t_catalog t)); do d <- vp3_string_8 (kept_name t); do b <- vp3_string_8 (kept_text (t_brand t));
    Ok ([1; 0] ++ write_int_24be (t_color t) ++ [0; 0; 0; 5; 0x28] ++ c ++ d ++ b)).
  rewrite (proj1 (read_string_8 0 _ [] (text_ok _ Tc))), (proj1 (read_string_8 0 _ [] Tn)), (proj1 (read_string_8 0 _ [] (text_ok _ Tb))).
  cbn [bindr]. eexists. split; [reflexivity|]. intros L.
  assert (B1 := quot_bound (2 * fst (start_of first l) - sumx) 20000000 ltac:(lia)).
  assert (B2 := quot_bound (- (2 * snd (start_of first l) - sumy)) 20000000 ltac:(lia)).
  apply runs_block.
  2:{ revert L. unfold patched at 1. rewrite !(zlen_app [0; 5; 0]), (zlen_app (write_int_32be _)). rewrite zlen_32.
      change (zlen [0; 5; 0]) with 3. lia. }
  rewrite app_assoc. eapply ends_then; [apply runs_pair; lia|]. cbv beta. rewrite <- !app_assoc.
  eapply ends_then; [apply runs_exactly|]. cbv beta. eapply ends_then; [apply runs_24|]. cbv beta.
  eapply ends_then; [apply runs_exactly|]. cbv beta. rewrite (app_assoc (write_int_16be (zlen (kept_text (t_catalog t))))).
  eapply ends_then; [apply runs_string; exact (proj2 (text_ok _ Tc))|]. cbv beta.
  rewrite (app_assoc (write_int_16be (zlen (kept_name t)))).
  eapply ends_then; [apply runs_string; exact (proj2 Tn)|]. cbv beta.
  rewrite (app_assoc (write_int_16be (zlen (kept_text (t_brand t))))).
  eapply ends_then; [apply runs_string; exact (proj2 (text_ok _ Tb))|]. cbv beta.
  rewrite (app_assoc (write_int_32be ((fst (end_of l) - fst (start_of first l)) * 100))).
  eapply ends_then; [apply runs_pair; lia|]. cbv beta.
  eapply ends_then; [apply runs_block|].
  { eapply ends_then; [apply runs_exactly|]. reflexivity. }
  { revert L. unfold vp3_stitches_block, patched. rewrite !zlen_app.
    repeat match goal with |- context [zlen (?a ++ ?b)] => rewrite (zlen_app a b) end. intros L.
    repeat match type of L with context [zlen ?x] =>
      lazymatch x with vp3_stitches _ _ _ => fail | _ => let z := fresh "z" in pose proof (zlen_nonneg x); set (z := zlen x) in * end end.
    change (zlen [10; 246; 0]) with 3 in *. lia. }
  reflexivity.
Qed.

Fixpoint all_shown (first : bool) (sumx sumy : Z) (bs : list (list (stitch Z) * thread)) : list section :=
  match bs with [] => [] | (l, t) :: r => shown first sumx sumy l t :: all_shown false sumx sumy r end.
Lemma all_shown_length sumx sumy : forall bs first, length (all_shown first sumx sumy bs) = length bs.
Proof. induction bs as [|[l t] r IH]; intros first; [reflexivity|]. cbn. rewrite IH. reflexivity. Qed.
Lemma colorblocks_shown sumx sumy : Z.abs sumx <= 20000000 -> Z.abs sumy <= 20000000 ->
  forall bs first, Forall (fun b => Forall small (fst b) /\ plain_texts (snd b)) bs ->
  exists w, vp3_colorblocks first sumx sumy bs = Ok w /\
    (zlen w < 2 ^ 32 -> runs (times (length bs) colour_block) w (all_shown first sumx sumy bs)).
Proof.
  intros Hx Hy. induction bs as [|[l t] r IH]; intros first H.
  - exists []. split; [reflexivity|]. intros _. apply runs_give.
  - inversion H as [|? ? [Hl Ht] Hr]; subst. cbn [fst snd] in *.
    destruct (colorblock_shown first sumx sumy l t Ht Hx Hy Hl) as (w & E & R).
    destruct (IH false Hr) as (ws & Es & Rs). exists (w ++ ws). cbn [vp3_colorblocks]. rewrite E, Es. cbn [bindr].
    split; [reflexivity|]. intros L. rewrite zlen_app in L. pose proof (zlen_nonneg w). pose proof (zlen_nonneg ws).
    cbn [length times all_shown]. eapply runs_then; [apply R; lia|]. rewrite <- (app_nil_r ws).
    eapply runs_then; [apply Rs; lia|]. apply runs_give.
Qed.

(** ** Blocks are sections *)
Lemma sections_some {C} (l : list (stitch C)) : colour_sections l <> [].
Proof.
  induction l as [|s r IH]; [discriminate|]. cbn [colour_sections]. destruct (colour_sections r); [contradiction|].
  destruct (cmd_of (scmd s) =? COLOR_CHANGE); discriminate.
Qed.
Lemma blocks_sections {T} (get : Z -> T) : forall l i b,
  map fst (vp3_blocks get i b l) = match colour_sections l with [] => [] | h :: t => (b ++ h) :: t end.
Proof.
  induction l as [|s r IH]; intros i b; cbn [vp3_blocks colour_sections].
  - cbn [map fst]. rewrite app_nil_r. reflexivity.
  - pose proof (sections_some r) as N. destruct (cmd_of (scmd s) =? COLOR_CHANGE).
    + cbn [map fst]. rewrite IH. destruct (colour_sections r) as [|h t]; [contradiction|]. rewrite app_nil_r. reflexivity.
    + rewrite IH. destruct (colour_sections r) as [|h t]; [contradiction|]. rewrite <- app_assoc. reflexivity.
Qed.
Lemma sections_in {C} (l : list (stitch C)) sec s : In sec (colour_sections l) -> In s sec -> In s l.
Proof.
  revert sec. induction l as [|a r IH]; intros sec H I; [destruct H as [<-|[]]; exact I|].
  cbn [colour_sections] in H. destruct (colour_sections r) as [|h t]; [destruct H|].
  destruct (cmd_of (scmd a) =? COLOR_CHANGE).
  - destruct H as [<-|[<-|H]]; [destruct I| |].
    + destruct I as [<-|I]; [left; reflexivity|]. right. apply (IH h); [left; reflexivity|exact I].
    + right. apply (IH sec); [right; exact H|exact I].
  - destruct H as [<-|H].
    + destruct I as [<-|I]; [left; reflexivity|]. right. apply (IH h); [left; reflexivity|exact I].
    + right. apply (IH sec); [right; exact H|exact I].
Qed.
Lemma sections_length {C} (l : list (stitch C)) : length (colour_sections l) = S (color_changes l).
Proof.
  induction l as [|s r IH]; [reflexivity|]. cbn [colour_sections]. unfold color_changes in *. cbn [filter].
  destruct (colour_sections r) as [|h t]; [discriminate|]. destruct (cmd_of (scmd s) =? COLOR_CHANGE); cbn [length] in *; lia.
Qed.

Definition box_of (l : list (stitch Z)) (x0 y0 x1 y1 : Z) : Prop := box l sx x0 x1 /\ box l sy y0 y1.
Lemma extents_box l x0 y0 x1 y1 : box_of l x0 y0 x1 y1 -> extents l = Some (x0, y0, x1, y1).
Proof.
  intros [(X & (a & Ia & Ea) & (b & Ib & Eb)) (Y & (c & Ic & Ec) & (d & Id & Ed))].
  destruct l as [|s r]; [destruct Ia|]. unfold extents. f_equal. rewrite fold_extents.
  assert (Lo : forall (f : stitch Z -> Z) m, (forall s', In s' (s :: r) -> m <= f s') -> (exists s', In s' (s :: r) /\ f s' = m) ->
            fold_left (fun a s => Z.min a (f s)) r (f s) = m).
  { intros f m H (s' & I & E). apply fold_min; [intros; apply H; right; assumption|apply H; left; reflexivity|].
    destruct I as [<-|I]; [left; exact E|right; exists s'; split; assumption]. }
  assert (Hi : forall (f : stitch Z -> Z) m, (forall s', In s' (s :: r) -> f s' <= m) -> (exists s', In s' (s :: r) /\ f s' = m) ->
            fold_left (fun a s => Z.max a (f s)) r (f s) = m).
  { intros f m H (s' & I & E). apply fold_max; [intros; apply H; right; assumption|apply H; left; reflexivity|].
    destruct I as [<-|I]; [left; exact E|right; exists s'; split; assumption]. }
  rewrite (Lo sx x0), (Lo sy y0), (Hi sx x1), (Hi sy y1); eauto; intros s' I; first [apply X|apply Y]; exact I.
Qed.

(** ** The whole file *)
Lemma all_shown_nth sumx sumy : forall bs first k l t, nth_error bs k = Some (l, t) ->
  nth_error (all_shown first sumx sumy bs) k = Some (shown (match k with O => first | S _ => false end) sumx sumy l t).
Proof.
  induction bs as [|[l' t'] r IH]; intros first k l t H; [destruct k; discriminate|]. destruct k as [|k]; cbn [nth_error all_shown] in *.
  - injection H as -> ->. reflexivity.
  - rewrite (IH false k l t H). destruct k; reflexivity.
Qed.
Lemma first_start k sec : start_of (match k with O => true | S _ => false end) sec = first_place k sec.
Proof. destruct k, sec; reflexivity. Qed.

Lemma filter_less {A} (f : A -> bool) l : (length (filter f l) <= length l)%nat.
Proof. induction l as [|a l IH]; [reflexivity|]. cbn [filter]. destruct (f a); cbn [length]; lia. Qed.
Lemma count_commands {C} c : forall (l : list (stitch C)) n,
  fold_left (fun n s => if cmd_of (scmd s) =? c then n + 1 else n) l n
  = n + zlen l - zlen (filter (fun s => negb (cmd_of (scmd s) =? c)) l).
Proof.
  induction l as [|s r IH]; intros n; [cbn; lia|]. cbn [fold_left filter]. rewrite IH.
  destruct (cmd_of (scmd s) =? c); cbn [negb]; rewrite ?zlen_cons; lia.
Qed.

Lemma document_shown filler threads l x0 y0 x1 y1 :
  box_of l x0 y0 x1 y1 -> small_coordinates l -> Z.of_nat (length l) < 2 ^ 31 ->
  Z.of_nat (color_changes l) < 65535 ->
  Forall plain_texts threads -> (forall i, plain_texts (filler i)) ->
  exists file bs, vp3_write filler l threads = Ok file /\
    map fst bs = colour_sections l /\ map snd bs = block_threads filler threads (S (color_changes l)) /\
    (zlen file < 2 ^ 32 ->
     vp3_document file = Some (mkDocument (x1 * 100) (y0 * -100) (x0 * 100) (y1 * -100)
       (zlen (filter (fun s => negb (cmd_of (scmd s) =? END)) l)) (Z.of_nat (S (color_changes l)) mod 256)
       (Z.quot (x0 + x1) 2 * 100, Z.quot (y0 + y1) 2 * -100)
       [Z.quot (x1 - x0) 2 * -100; Z.quot (x1 - x0) 2 * 100; Z.quot (y1 - y0) 2 * -100; Z.quot (y1 - y0) 2 * 100]
       ((x1 - x0) * 100) ((y1 - y0) * 100)
       (all_shown true (x0 + x1) (y0 + y1) bs))).
Proof.
  intros Hb Hs Hz Hn Ht Hf. pose proof (extents_box _ _ _ _ _ Hb) as Ee.
  unfold vp3_write. set (get := get_thread_or_filler filler (fix_color_count filler l threads)).
  set (bs := vp3_blocks get 0 [] l).
  assert (Sec : map fst bs = colour_sections l).
  { unfold bs. rewrite blocks_sections. pose proof (sections_some l). destruct (colour_sections l); [contradiction|reflexivity]. }
  assert (Thr : map snd bs = block_threads filler threads (S (color_changes l))).
  { unfold bs. rewrite vp3_blocks_threads. unfold block_threads. apply map_ext. intros k. unfold get, fix_color_count.
    rewrite add_fillers_get by lia. unfold get_thread_or_filler. cbn [Z.add]. rewrite Nat2Z.id. reflexivity. }
  assert (Ln : length bs = S (color_changes l)) by (rewrite <- (map_length fst), Sec; apply sections_length).
  assert (Bb : Z.abs x0 <= 10000000 /\ Z.abs x1 <= 10000000 /\ Z.abs y0 <= 10000000 /\ Z.abs y1 <= 10000000).
  { destruct Hb as [(_ & (a & Ia & <-) & (b & Ib & <-)) (_ & (c & Ic & <-) & (d & Id & <-))].
    pose proof (Hs a Ia). pose proof (Hs b Ib). pose proof (Hs c Ic). pose proof (Hs d Id). lia. }
  destruct (colorblocks_shown (x0 + x1) (y0 + y1) ltac:(lia) ltac:(lia) bs true) as (cb & Ecb & Rcb).
  { apply Forall_forall. intros [sec t] I. cbn [fst snd]. split.
    - apply Forall_forall. intros s Is. apply Hs. apply (sections_in l sec); [|exact Is]. rewrite <- Sec.
      apply in_map_iff. exists (sec, t). auto.
    - assert (It : In t (map snd bs)) by (apply in_map_iff; exists (sec, t); auto). rewrite Thr in It. unfold block_threads in It.
      apply in_map_iff in It. destruct It as (k & <- & _). destruct (nth_error threads k) as [u|] eqn:E; [|apply Hf].
      rewrite Forall_forall in Ht. apply Ht. eapply nth_error_In. exact E. }
  assert (Qx := quot_bound (x0 + x1) 10000000 ltac:(lia)). assert (Qy := quot_bound (y0 + y1) 10000000 ltac:(lia)).
  assert (Qw := quot_bound (x1 - x0) 10000000 ltac:(lia)). assert (Qh := quot_bound (y1 - y0) 10000000 ltac:(lia)).
  assert (Cn : zlen l - count_stitch_commands END l = zlen (filter (fun s => negb (cmd_of (scmd s) =? END)) l)).
  { unfold count_stitch_commands. rewrite count_commands. lia. }
  assert (Cb : 0 <= zlen (filter (fun s => negb (cmd_of (scmd s) =? END)) l) < 2 ^ 31).
  { split; [apply zlen_nonneg|]. unfold zlen. pose proof (filter_less (fun s => negb (cmd_of (scmd s) =? END)) l). lia. }
  unfold vp3_file. rewrite Ee. unfold vp3_design_block. rewrite Ecb. cbn [bindr]. rewrite Cn.
  exists ([37; 118; 115; 109; 37] ++ write_int_8 0 ++ vp3_string_16 produced ++ 
     [0; 2; 0] ++ patched (vp3_string_16 []
            ++ write_int_32be (x1 * 100) ++ write_int_32be (y0 * -100)
            ++ write_int_32be (x0 * 100) ++ write_int_32be (y1 * -100)
            ++ write_int_32be (zlen (filter (fun s => negb (cmd_of (scmd s) =? END)) l))
            ++ write_int_8 0 ++ write_int_8 (zlen bs) ++ write_int_8 12 ++ write_int_8 0
            ++ write_int_8 1
            ++ [0; 3; 0] ++ patched
       (write_int_32be (Z.quot (x0 + x1) 2 * 100)
        ++ write_int_32be (Z.quot (y0 + y1) 2 * -100)
        ++ [0; 0; 0]
        ++ write_int_32be (Z.quot (x1 - x0) 2 * -100) ++ write_int_32be (Z.quot (x1 - x0) 2 * 100)
        ++ write_int_32be (Z.quot (y1 - y0) 2 * -100) ++ write_int_32be (Z.quot (y1 - y0) 2 * 100)
        ++ write_int_32be ((x1 - x0) * 100) ++ write_int_32be ((y1 - y0) * 100)
        ++ vp3_string_16 []
        ++ [0x64; 0x64]
        ++ write_int_32be 4096 ++ write_int_32be 0 ++ write_int_32be 0 ++ write_int_32be 4096
        ++ [120; 120; 80; 80; 1; 0]
        ++ vp3_string_16 produced
        ++ write_int_16be (zlen bs)
        ++ cb))). exists bs.
  split; [reflexivity|]. split; [exact Sec|]. split; [exact Thr|]. intros L.
  match type of L with context [patched (vp3_string_16 [] ++ ?r)] => set (body := vp3_string_16 [] ++ r) in * end.
  assert (Lb : zlen body < 2 ^ 32).
  { revert L. unfold patched at 1. rewrite !zlen_app. intros L.
    repeat match type of L with context [zlen ?x] =>
      lazymatch x with body => fail | _ => let z := fresh "z" in pose proof (zlen_nonneg x); set (z := zlen x) in * end end. lia. }
  match type of body with _ => let b := eval unfold body in body in match b with context [patched ?d] => set (design := d) in * end end.
  assert (Ld : zlen design < 2 ^ 32).
  { revert Lb. unfold body. unfold patched. rewrite !zlen_app. intros Lb.
    repeat match type of Lb with context [zlen ?x] =>
      lazymatch x with design => fail | _ => let z := fresh "z" in pose proof (zlen_nonneg x); set (z := zlen x) in * end end. lia. }
  assert (Lc : zlen cb < 2 ^ 32).
  { revert Ld. unfold design. rewrite !zlen_app. intros Ld.
    repeat match type of Ld with context [zlen ?x] =>
      lazymatch x with cb => fail | _ => let z := fresh "z" in pose proof (zlen_nonneg x); set (z := zlen x) in * end end. lia. }
  specialize (Rcb Lc).
  assert (St : forall t, 2 * zlen t < 65536 -> runs string (vp3_string_16 t) (flat_map (fun c => [0; c]) t)).
  { intros t H. unfold vp3_string_16. assert (E : 2 * zlen t = zlen (flat_map (fun c => [0; c]) t)).
    { clear. induction t as [|c t IH]; [reflexivity|]. cbn [flat_map app]. rewrite !zlen_cons. lia. }
    rewrite E in *. apply runs_string. exact H. }
  assert (De : ends (centre <~ pair_of 4;; _ <~ exactly [0; 0; 0];;
     halves <~ times 4 (signed 4);; width <~ signed 4;; height <~ signed 4;;
     _ <~ string;; _ <~ bytes 24;; _ <~ string;;
     n <~ number 2;; sections <~ times (Z.to_nat n) colour_block;;
     give (centre, halves, width, height, sections)) design
     (Z.quot (x0 + x1) 2 * 100, Z.quot (y0 + y1) 2 * -100,
      [Z.quot (x1 - x0) 2 * -100; Z.quot (x1 - x0) 2 * 100; Z.quot (y1 - y0) 2 * -100; Z.quot (y1 - y0) 2 * 100],
       (x1 - x0) * 100, (y1 - y0) * 100, all_shown true (x0 + x1) (y0 + y1) bs)).
  { unfold design. rewrite app_assoc. eapply ends_then; [apply runs_pair; lia|]. cbv beta.
    eapply ends_then; [apply runs_exactly|]. cbv beta.
    match goal with |- ends _ (?a ++ ?b ++ ?c ++ ?d ++ ?r) _ =>
      replace (a ++ b ++ c ++ d ++ r) with (concat [a; b; c; d] ++ r) by (cbn [concat]; rewrite <- !app_assoc; reflexivity) end.
    eapply ends_then.
    { apply (runs_times (signed 4) _ [Z.quot (x1 - x0) 2 * -100; Z.quot (x1 - x0) 2 * 100; Z.quot (y1 - y0) 2 * -100; Z.quot (y1 - y0) 2 * 100]).
      repeat constructor; apply runs_s32; lia. }
    cbv beta. eapply ends_then; [apply runs_s32; lia|]. cbv beta. eapply ends_then; [apply runs_s32; lia|]. cbv beta.
    eapply ends_then; [apply St; reflexivity|]. cbv beta.
    match goal with |- ends _ (?a ++ ?b ++ ?c ++ ?d ++ ?e ++ ?g ++ ?r) _ =>
      replace (a ++ b ++ c ++ d ++ e ++ g ++ r) with ((a ++ b ++ c ++ d ++ e ++ g) ++ r) by (rewrite <- !app_assoc; reflexivity) end.
    eapply ends_then; [match goal with |- runs _ ?w _ => exact (runs_bytes w) end|]. cbv beta.
    eapply ends_then; [apply St; reflexivity|]. cbv beta.
    eapply ends_then; [apply runs_16|]. cbv beta.
    rewrite (Z.mod_small (zlen bs)) by (unfold zlen; rewrite Ln; change (2 ^ 16) with 65536; lia).
    unfold zlen. rewrite Nat2Z.id. apply ends_runs. rewrite <- (app_nil_r cb). eapply runs_then; [exact Rcb|]. apply runs_give. }
  unfold vp3_document.
  assert (W : ends whole ([37; 118; 115; 109; 37] ++ write_int_8 0 ++ vp3_string_16 produced ++ [0; 2; 0] ++ patched body)
    (mkDocument (x1 * 100) (y0 * -100) (x0 * 100) (y1 * -100)
       (zlen (filter (fun s => negb (cmd_of (scmd s) =? END)) l)) (Z.of_nat (S (color_changes l)) mod 256)
       (Z.quot (x0 + x1) 2 * 100, Z.quot (y0 + y1) 2 * -100)
       [Z.quot (x1 - x0) 2 * -100; Z.quot (x1 - x0) 2 * 100; Z.quot (y1 - y0) 2 * -100; Z.quot (y1 - y0) 2 * 100]
       ((x1 - x0) * 100) ((y1 - y0) * 100)
       (all_shown true (x0 + x1) (y0 + y1) bs))).
  { change ([37; 118; 115; 109; 37] ++ write_int_8 0 ++ vp3_string_16 produced ++ [0; 2; 0] ++ patched body)
      with ([37; 118; 115; 109; 37; 0] ++ vp3_string_16 produced ++ [0; 2; 0] ++ patched body).
    unfold whole. eapply ends_then; [apply runs_exactly|]. cbv beta. eapply ends_then; [apply St; reflexivity|]. cbv beta.
    apply ends_runs. apply runs_block; [|exact Lb]. unfold body.
    eapply ends_then; [apply St; reflexivity|]. cbv beta.
    do 4 (eapply ends_then; [apply runs_s32; lia|]; cbv beta).
    change (2 ^ 31) with 2147483648 in Cb. eapply ends_then; [apply runs_s32; lia|]; cbv beta.
    change (write_int_8 0) with [0]. eapply ends_then; [apply runs_exactly|]. cbv beta.
    eapply ends_then; [apply runs_8|]. cbv beta.
    match goal with |- ends _ (?a ++ ?b ++ ?r) _ => rewrite (app_assoc a b r) end.
    change (write_int_8 12 ++ [0]) with [12; 0]. eapply ends_then; [apply runs_exactly|]. cbv beta.
    change (write_int_8 1) with [1]. eapply ends_then; [apply runs_exactly|]. cbv beta.
    rewrite <- (app_nil_r ([0; 3; 0] ++ patched design)).
    eapply ends_then; [apply runs_block; [exact De|exact Ld]|]. cbv beta iota. unfold zlen at 2. rewrite Ln. reflexivity. }
  rewrite W. reflexivity.
Qed.
