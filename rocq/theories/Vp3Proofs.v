From Coq Require Import ZArith List Bool Lia.
From Verif Require Import PyBase EmbConst HelperModel BitLemmas HelperProofs ThreadModel Utf8Model Utf8Proofs
  PatternModel StreamModel JefSpec Vp3Model Vp3Spec.
Import ListNotations.
Open Scope Z_scope.

(** ** Stitch bytes *)

Lemma signed16_of_bytes v : -32768 <= v <= 32767 ->
  signed16_of (signed8 (sh8 v 8)) (signed8 (sh8 v 0)) = v.
Proof.
  intros H. unfold signed16_of. rewrite !land_ff, !sh8_spec by lia.
  assert (E : forall b, 0 <= b < 256 -> signed8 b mod 256 = b).
  { intros b Hb. unfold signed8. destruct (Z.gtb_spec b 127); lia. }
  rewrite !E by (apply Z.mod_pos_bound; lia).
  rewrite Z.lor_comm, lor_shiftl_add by (try lia; apply Z.mod_pos_bound; lia).
  rewrite Z.pow_0_r, Z.div_1_r.
  match goal with |- context [?a >? ?b] => destruct (Z.gtb_spec a b) end; lia.
Qed.

Fixpoint block_events (px py : Z) (l : list (stitch Z)) : list (stitch Z) :=
  match l with
  | [] => []
  | s :: r =>
      if cmd_of (scmd s) =? STITCH then mkS (sx s - px) (sy s - py) STITCH :: block_events (sx s) (sy s) r
      else if cmd_of (scmd s) =? TRIM then mkS 0 0 TRIM :: block_events px py r
      else block_events px py r
  end.

Ltac known H := rewrite H; cbn [Z.eqb Pos.eqb STITCH TRIM END COLOR_CHANGE SEQUIN_MODE SEQUIN_EJECT STOP JUMP].

Lemma vp3_decode_block : forall l px py tail, block_ok px py l ->
  vp3_decode (map signed8 (vp3_stitches px py l) ++ tail)
  = do t <- vp3_decode tail; Ok (block_events px py l ++ t).
Proof.
  induction l as [|s r IH]; intros px py tail H.
  - cbn [vp3_stitches map app block_events]. destruct (vp3_decode tail); reflexivity.
  - cbn [block_ok] in H. destruct H as [(Ec & [Hx Hy] & Hr) | [[Ec|Ec] Hr]].
    + cbn [vp3_stitches block_events]. cbv zeta. rewrite Ec. cbn [Z.eqb Pos.eqb STITCH TRIM END COLOR_CHANGE SEQUIN_MODE SEQUIN_EJECT STOP JUMP].
      replace (px + (sx s - px)) with (sx s) by lia. replace (py + (sy s - py)) with (sy s) by lia.
      destruct ((-127 <=? sx s - px) && (sx s - px <=? 127) && (-127 <=? sy s - py) && (sy s - py <=? 127)
                && (Z.land (scmd s) FLAGS_MASK =? 0)) eqn:E.
      * rewrite !andb_true_iff, !Z.leb_le in E. destruct E as [[[[E1 E2] E3] E4] _].
        rewrite map_app, <- app_assoc. cbn [write_int_8 map app vp3_decode].
        rewrite !signed8_small by lia.
        destruct (Z.eqb_spec (Z.land (sx s - px) 255) 128) as [E'|E'].
        { rewrite land_ff in E'. lia. }
        cbn [negb]. rewrite IH by assumption. destruct (vp3_decode tail); reflexivity.
      * rewrite map_app, <- app_assoc. cbn [write_int_16be map app].
        change (signed8 128) with (-128). change (signed8 1) with 1. change (signed8 2) with 2.
        cbn [vp3_decode]. change (Z.land (-128) 255 =? 128) with true. cbn [negb Z.eqb Pos.eqb].
        rewrite !signed16_of_bytes by lia. rewrite IH by assumption.
        destruct (vp3_decode tail); reflexivity.
    + cbn [vp3_stitches block_events]. cbv zeta. rewrite Ec. cbn [Z.eqb Pos.eqb STITCH TRIM END COLOR_CHANGE SEQUIN_MODE SEQUIN_EJECT STOP JUMP].
      cbn [app map]. change (signed8 128) with (-128). change (signed8 3) with 3.
      cbn [vp3_decode]. change (Z.land (-128) 255 =? 128) with true. cbn [negb Z.eqb Pos.eqb].
      rewrite IH by assumption. destruct (vp3_decode tail); reflexivity.
    + cbn [vp3_stitches block_events]. cbv zeta.
      destruct Ec as [Ec | [Ec | [Ec | [Ec | []]]]]; rewrite <- Ec; cbn [Z.eqb Pos.eqb STITCH TRIM END COLOR_CHANGE SEQUIN_MODE SEQUIN_EJECT STOP JUMP];
        apply IH; assumption.
Qed.

Lemma block_events_rel : forall l px py, block_ok px py l ->
  apply_rel px py (block_events px py l) = block_view px py l.
Proof.
  induction l as [|s r IH]; intros px py H; [reflexivity|].
  cbn [block_ok] in H. cbn [block_events block_view].
  destruct H as [(Ec & _ & Hr) | [[Ec|Ec] Hr]].
  - rewrite Ec. cbn [Z.eqb STITCH]. cbn [apply_rel sx sy scmd].
    replace (px + (sx s - px)) with (sx s) by lia. replace (py + (sy s - py)) with (sy s) by lia.
    rewrite IH by assumption. reflexivity.
  - rewrite Ec. cbn [Z.eqb STITCH TRIM Pos.eqb]. cbn [apply_rel sx sy scmd]. rewrite !Z.add_0_r.
    rewrite IH by assumption. reflexivity.
  - destruct Ec as [Ec | [Ec | [Ec | [Ec | []]]]]; rewrite <- Ec; cbn [Z.eqb STITCH TRIM Pos.eqb JUMP STOP SEQUIN_MODE SEQUIN_EJECT];
      apply IH; assumption.
Qed.

(** The last penetration after a block. *)
Fixpoint block_last (px py : Z) (l : list (stitch Z)) : Z * Z :=
  match l with
  | [] => (px, py)
  | s :: r => if cmd_of (scmd s) =? STITCH then block_last (sx s) (sy s) r else block_last px py r
  end.

Lemma out_rel_block : forall l px py acc, block_ok px py l ->
  fold_left out_rel (block_events px py l) (100 * px, 100 * py, acc)
  = (100 * fst (block_last px py l), 100 * snd (block_last px py l),
     acc ++ in_hundredths (block_view px py l)).
Proof.
  induction l as [|s r IH]; intros px py acc H; [cbn; rewrite app_nil_r; reflexivity|].
  cbn [block_ok] in H. cbn [block_events block_view block_last].
  destruct H as [(Ec & _ & Hr) | [[Ec|Ec] Hr]].
  - rewrite Ec. cbn [Z.eqb STITCH]. cbn [fold_left]. unfold out_rel at 2, out_abs. cbn [sx sy scmd snd].
    replace (100 * px + 100 * (sx s - px)) with (100 * sx s) by lia.
    replace (100 * py + 100 * (sy s - py)) with (100 * sy s) by lia.
    rewrite IH by assumption. cbn [in_hundredths map sx sy scmd]. rewrite <- app_assoc. reflexivity.
  - rewrite Ec. cbn [Z.eqb STITCH TRIM Pos.eqb]. cbn [fold_left]. unfold out_rel at 2, out_abs. cbn [sx sy scmd snd].
    rewrite !Z.mul_0_r, !Z.add_0_r.
    rewrite IH by assumption. cbn [in_hundredths map sx sy scmd]. rewrite <- app_assoc. reflexivity.
  - destruct Ec as [Ec | [Ec | [Ec | [Ec | []]]]]; rewrite <- Ec; cbn [Z.eqb STITCH TRIM Pos.eqb JUMP STOP SEQUIN_MODE SEQUIN_EJECT];
      apply IH; assumption.
Qed.

(** ** Streams *)

Lemma zlen_app {A} (a b : list A) : zlen (a ++ b) = zlen a + zlen b.
Proof. unfold zlen. rewrite app_length. lia. Qed.
Lemma zlen_nonneg {A} (a : list A) : 0 <= zlen a.
Proof. unfold zlen. lia. Qed.
Lemma zlen_cons {A} (a : A) l : zlen (a :: l) = 1 + zlen l.
Proof. unfold zlen. cbn [length]. lia. Qed.
Lemma zlen_nil {A} : zlen (@nil A) = 0.
Proof. reflexivity. Qed.
Lemma zlen_16 v : zlen (write_int_16be v) = 2.
Proof. reflexivity. Qed.
Lemma zlen_24 v : zlen (write_int_24be v) = 3.
Proof. reflexivity. Qed.
Lemma zlen_32 v : zlen (write_int_32be v) = 4.
Proof. reflexivity. Qed.
Ltac zlens := repeat rewrite ?zlen_cons, ?zlen_app, ?zlen_16, ?zlen_24, ?zlen_32, ?zlen_nil in *.
Lemma s_int_of rd w v pos rest : rd (w ++ rest) = (Some v, rest) ->
  s_int rd (pos, w ++ rest) = (Some v, (pos + zlen w, rest)).
Proof.
  intros H. unfold s_int. cbn [fst snd]. rewrite H, zlen_app. do 2 f_equal. lia.
Qed.
Lemma s_read_app pos a rest n : n = zlen a -> s_read n (pos, a ++ rest) = (a, (pos + n, rest)).
Proof.
  intros ->. unfold s_read, zlen. cbn [fst snd].
  destruct (Z.ltb_spec (Z.of_nat (length a)) 0); [lia|]. rewrite Nat2Z.id.
  rewrite firstn_app, firstn_all, Nat.sub_diag, firstn_O, app_nil_r.
  rewrite skipn_app, skipn_all, Nat.sub_diag. reflexivity.
Qed.
Lemma s_seek_app pos a rest n : n = zlen a -> s_seek n (pos, a ++ rest) = (pos + n, rest).
Proof.
  intros ->. unfold s_seek, zlen. cbn [fst snd]. rewrite Nat2Z.id.
  rewrite skipn_app, skipn_all, Nat.sub_diag. reflexivity.
Qed.
Lemma s_32be pos v rest : s_int read_int_32be (pos, write_int_32be v ++ rest) = (Some (v mod 2 ^ 32), (pos + 4, rest)).
Proof. exact (s_int_of _ _ _ pos rest (rw_32be v rest)). Qed.
Lemma s_16be pos v rest : s_int read_int_16be (pos, write_int_16be v ++ rest) = (Some (v mod 2 ^ 16), (pos + 2, rest)).
Proof. exact (s_int_of _ _ _ pos rest (rw_16be v rest)). Qed.
Lemma s_24be pos v rest : s_int read_int_24be (pos, write_int_24be v ++ rest) = (Some (v mod 2 ^ 24), (pos + 3, rest)).
Proof. exact (s_int_of _ _ _ pos rest (rw_24be v rest)). Qed.
Lemma s_byte pos b rest : s_int read_int_8 (pos, b :: rest) = (Some b, (pos + 1, rest)).
Proof.
  unfold s_int, read_int_8, zlen. cbn [fst snd firstn skipn length]. do 2 f_equal. lia.
Qed.
Lemma signed32_small v : -2147483648 <= v <= 2147483647 -> signed32 (v mod 2 ^ 32) = v.
Proof.
  intros H. unfold signed32. rewrite land_ffffffff.
  change (2 ^ 32) with 4294967296. rewrite Z.mod_mod by lia.
  cbv zeta. destruct (Z.gtb_spec (v mod 4294967296) 2147483647); lia.
Qed.

Lemma skip_string_16 pos t rest : 2 * zlen t < 65536 ->
  skip_vp3_string (pos, vp3_string_16 t ++ rest) = Ok (pos + 2 + 2 * zlen t, rest).
Proof.
  intros H. unfold skip_vp3_string, vp3_string_16. rewrite <- app_assoc, s_16be.
  cbn [some bindr]. pose proof (zlen_nonneg t). rewrite Z.mod_small by (change (2 ^ 16) with 65536; lia).
  rewrite s_seek_app; [reflexivity|]. unfold zlen. induction t as [|c t IH]; [reflexivity|].
  cbn [flat_map app length]. rewrite !Nat2Z.inj_succ.
  unfold zlen in *. cbn [length] in *. rewrite Nat2Z.inj_succ in *. lia.
Qed.

Lemma read_string_8 pos t rest : short_ascii t ->
  vp3_string_8 t = Ok (write_int_16be (zlen t) ++ t) /\
  read_vp3_string_8 (pos, write_int_16be (zlen t) ++ t ++ rest) = (Some t, (pos + 2 + zlen t, rest)).
Proof.
  intros [Ha Hl]. destruct (utf8_ascii t Ha) as [E D].
  unfold vp3_string_8, read_vp3_string_8. rewrite E, s_16be. split; [reflexivity|].
  pose proof (zlen_nonneg t). rewrite Z.mod_small by (unfold zlen in *; change (2 ^ 16) with 65536; lia).
  rewrite s_read_app by reflexivity. rewrite D. reflexivity.
Qed.

(** ** Threads *)

Definition thread_kept (t : thread) : vp3_thread_read :=
  mkVT (Some (t_color t mod 2 ^ 24))
       (Some (match t_catalog t with Some s => s | None => [] end))
       (Some (match t_description t with Some s => s | None => hex_color (t_color t) end))
       (Some (match t_brand t with Some s => s | None => [] end)).

Lemma hex_digit_ascii n : 0 <= n < 16 -> 0 <= hex_digit n < 128.
Proof. intros H. unfold hex_digit. destruct (n <? 10) eqn:E; [apply Z.ltb_lt in E|apply Z.ltb_ge in E]; lia. Qed.
Lemma hex2_ascii b : 0 <= b < 256 -> Forall (fun c => 0 <= c < 128) (hex2 b).
Proof. intros H. unfold hex2. constructor; [apply hex_digit_ascii; lia|constructor; [apply hex_digit_ascii; lia|constructor]]. Qed.
Lemma hex_color_ascii c : short_ascii (hex_color c).
Proof.
  split; [|vm_compute; reflexivity]. unfold hex_color.
  apply Forall_app. split; [constructor; [lia|constructor]|].
  unfold get_red, get_green, get_blue.
  pose proof (land_ff_byte (Z.shiftr c 16)) as B1. pose proof (land_ff_byte (Z.shiftr c 8)) as B2.
  pose proof (land_ff_byte c) as B3. unfold byte_ok in *.
  rewrite !Forall_app. repeat split; apply hex2_ascii; assumption.
Qed.

Lemma empty_ascii : short_ascii [].
Proof. split; [constructor|vm_compute; reflexivity]. Qed.

Lemma read_thread_of t : plain_texts t -> exists b, vp3_thread t = Ok b /\
  forall pos rest, vp3_read_thread (pos, b ++ rest) = Ok (thread_kept t, (pos + zlen b, rest)).
Proof.
  intros (Hc & Hd & Hb). unfold vp3_thread.
  set (c := match t_catalog t with Some s => s | None => [] end).
  set (d := match t_description t with Some s => s | None => hex_color (t_color t) end).
  set (b := match t_brand t with Some s => s | None => [] end).
  assert (Ac : short_ascii c) by (unfold c; destruct (t_catalog t); [exact Hc|exact empty_ascii]).
  assert (Ad : short_ascii d) by (unfold d; destruct (t_description t); [exact Hd|apply hex_color_ascii]).
  assert (Ab : short_ascii b) by (unfold b; destruct (t_brand t); [exact Hb|exact empty_ascii]).
  rewrite (proj1 (read_string_8 0 c [] Ac)), (proj1 (read_string_8 0 d [] Ad)), (proj1 (read_string_8 0 b [] Ab)).
  cbn [bindr]. eexists. split; [reflexivity|]. intros pos rest.
  unfold vp3_read_thread. rewrite <- !app_assoc. cbn [app].
  rewrite !s_byte. cbn [some bindr Z.to_nat Pos.to_nat Pos.iter_op Nat.add].
  change (Pos.to_nat 1) with 1%nat. cbn [vp3_read_colors].
  rewrite s_24be. rewrite s_byte.
  change (0 :: 0 :: 5 :: 40 :: ?x) with ([0; 0] ++ 5 :: 40 :: x).
  change [0; 0] with (write_int_16be 0). rewrite s_16be. rewrite !s_byte.
  rewrite (proj2 (read_string_8 _ c _ Ac)), (proj2 (read_string_8 _ d _ Ad)), (proj2 (read_string_8 _ b _ Ab)).
  unfold thread_kept. fold c d b. do 3 f_equal. cbn [length]. 
  repeat rewrite ?zlen_cons, ?zlen_app, ?zlen_16, ?zlen_24. lia.
Qed.

(** ** Colour blocks *)

Definition start_of (first : bool) (l : list (stitch Z)) : Z * Z :=
  match l with [] => (0, 0) | s :: _ => if first then (0, 0) else (sx s, sy s) end.

Definition moved (fx fy : Z) (o : read_state) : read_state :=
  if off_axes fx fy then out_abs JUMP (100 * fx) (100 * fy) o else o.

Lemma quot_double a : Z.quot (2 * a) 2 = a.
Proof. rewrite Z.mul_comm. apply Z.quot_mul. lia. Qed.

Lemma read_colorblock_of first cx cy l t fx fy ev :
  start_of first l = (fx, fy) -> plain_texts t ->
  Z.abs cx <= 10000000 -> Z.abs cy <= 10000000 -> Z.abs fx <= 10000000 -> Z.abs fy <= 10000000 ->
  vp3_decode (map signed8 (vp3_stitches fx fy l ++ [0])) = Ok ev ->
  exists b, vp3_colorblock first (2 * cx) (2 * cy) l t = Ok b /\
    (zlen b < 2 ^ 32 -> forall pos rest o,
     vp3_read_colorblock (100 * cx) (100 * cy) (pos, b ++ rest) o
     = Ok (thread_kept t, (pos + zlen b, rest), fold_left out_rel ev (moved fx fy o))).
Proof.
  intros Hs Ht Hcx Hcy Hfx Hfy Hd.
  destruct (read_thread_of t Ht) as (tb & Et & Rt).
  unfold vp3_colorblock. change (match l with [] => (0, 0) | s :: _ => if first then (0, 0) else (sx s, sy s) end) with (start_of first l).
  rewrite Hs, Et. cbn [bindr fst snd].
  set (lp := match rev l with [] => (0, 0) | s :: _ => (sx s, sy s) end).
  eexists. split; [reflexivity|].
  replace (2 * fx - 2 * cx) with (2 * (fx - cx)) by lia.
  replace (- (2 * fy - 2 * cy)) with (2 * (cy - fy)) by lia.
  rewrite !quot_double. unfold vp3_stitches_block, patched.
  set (sb := vp3_stitches fx fy l) in *.
  set (w1 := write_int_32be ((fx - cx) * 100)). set (w2 := write_int_32be ((cy - fy) * 100)).
  set (w3 := write_int_32be ((fst lp - fx) * 100)). set (w4 := write_int_32be (- (snd lp - fy) * 100)).
  set (inner := [10; 246; 0] ++ sb).
  set (body := w1 ++ w2 ++ tb ++ w3 ++ w4 ++ ([0; 1; 0] ++ write_int_32be (zlen inner) ++ inner) ++ [0]).
  intros Hlen pos rest o.
  assert (Hbody : 0 <= zlen body < 2 ^ 32) by (pose proof (zlen_nonneg body); zlens; lia).
  unfold vp3_read_colorblock. rewrite <- !app_assoc.
  rewrite s_read_app by reflexivity. rewrite s_32be. cbn [some bindr fst].
  rewrite (Z.mod_small (zlen body)) by exact Hbody.
  unfold body at 1. rewrite <- !app_assoc.
  unfold w1 at 1. rewrite s_32be. cbn [some bindr].
  unfold w2 at 1. rewrite s_32be. cbn [some bindr].
  rewrite Rt. cbn [bindr].
  rewrite (app_assoc [0; 1; 0]). rewrite (app_assoc w4). rewrite (app_assoc w3).
  rewrite s_seek_app by reflexivity. unfold inner at 1. rewrite <- !app_assoc.
  rewrite s_read_app by reflexivity. cbn [fst].
  rewrite (app_assoc sb).
  rewrite s_read_app by (unfold body, inner, w1, w2, w3, w4; zlens; lia).
  rewrite Hd. cbn [bindr].
  rewrite !signed32_small by lia.
  replace ((fx - cx) * 100 + 100 * cx) with (100 * fx) by lia.
  replace (- ((cy - fy) * 100) + 100 * cy) with (100 * fy) by lia.
  f_equal. f_equal; [f_equal|].
  - f_equal. unfold body, inner, w1, w2, w3, w4. zlens. lia.
  - f_equal. unfold moved, off_axes.
    replace (100 * fx =? 0) with (fx =? 0) by (destruct (Z.eqb_spec fx 0), (Z.eqb_spec (100 * fx) 0); lia).
    replace (100 * fy =? 0) with (fy =? 0) by (destruct (Z.eqb_spec fy 0), (Z.eqb_spec (100 * fy) 0); lia).
    reflexivity.
Qed.

(** ** All blocks *)

Lemma vp3_stitches_silent c fx fy l : cmd_of (scmd c) = COLOR_CHANGE -> vp3_stitches fx fy (c :: l) = vp3_stitches fx fy l.
Proof. intros E. cbn [vp3_stitches]. cbv zeta. rewrite E. reflexivity. Qed.

Lemma vp3_stitches_app : forall b px py l, block_ok px py b ->
  vp3_stitches px py (b ++ l) = vp3_stitches px py b ++ vp3_stitches (fst (block_last px py b)) (snd (block_last px py b)) l.
Proof.
  induction b as [|s r IH]; intros px py l H; [reflexivity|].
  cbn [block_ok] in H. cbn [app vp3_stitches block_last]. cbv zeta.
  destruct H as [(Ec & _ & Hr) | [[Ec|Ec] Hr]].
  - rewrite Ec. cbn [Z.eqb Pos.eqb STITCH TRIM END COLOR_CHANGE SEQUIN_MODE SEQUIN_EJECT STOP JUMP].
    replace (px + (sx s - px)) with (sx s) by lia. replace (py + (sy s - py)) with (sy s) by lia.
    rewrite IH by assumption. rewrite app_assoc. reflexivity.
  - rewrite Ec. cbn [Z.eqb Pos.eqb STITCH TRIM END COLOR_CHANGE SEQUIN_MODE SEQUIN_EJECT STOP JUMP].
    rewrite IH by assumption. reflexivity.
  - destruct Ec as [Ec | [Ec | [Ec | [Ec | []]]]]; rewrite <- Ec; cbn [Z.eqb Pos.eqb STITCH TRIM END COLOR_CHANGE SEQUIN_MODE SEQUIN_EJECT STOP JUMP];
      apply IH; assumption.
Qed.

Lemma block_ok_snoc : forall b px py s, block_ok px py b ->
  block_ok (fst (block_last px py b)) (snd (block_last px py b)) [s] -> block_ok px py (b ++ [s]).
Proof.
  induction b as [|a r IH]; intros px py s H Hs; [exact Hs|].
  cbn [block_ok] in H. cbn [app block_ok]. cbn [block_last] in Hs.
  destruct H as [(Ec & Hst & Hr) | [Ec Hr]].
  - left. split; [exact Ec|]. split; [exact Hst|]. rewrite Ec in Hs. cbn [Z.eqb STITCH] in Hs. apply IH; assumption.
  - right. split; [exact Ec|]. apply IH; [assumption|].
    destruct (Z.eqb_spec (cmd_of (scmd a)) STITCH) as [E|E]; [|exact Hs].
    exfalso. destruct Ec as [Ec|Ec]; [rewrite Ec in E; discriminate|].
    destruct Ec as [Ec | [Ec | [Ec | [Ec | []]]]]; rewrite <- Ec in E; discriminate.
Qed.
Lemma block_last_snoc : forall b px py s, block_last px py (b ++ [s]) =
  if cmd_of (scmd s) =? STITCH then (sx s, sy s) else block_last px py b.
Proof.
  induction b as [|a r IH]; intros px py s; [reflexivity|].
  cbn [app block_last]. destruct (cmd_of (scmd a) =? STITCH); apply IH.
Qed.
Lemma block_view_snoc : forall b px py s, block_view px py (b ++ [s]) =
  block_view px py b ++ block_view (fst (block_last px py b)) (snd (block_last px py b)) [s].
Proof.
  induction b as [|a r IH]; intros px py s; [reflexivity|].
  cbn [app block_view block_last].
  destruct (Z.eqb_spec (cmd_of (scmd a)) STITCH) as [E|E].
  - rewrite IH. reflexivity.
  - destruct (cmd_of (scmd a) =? TRIM); rewrite IH; reflexivity.
Qed.

Lemma in_hundredths_app a b : in_hundredths (a ++ b) = in_hundredths a ++ in_hundredths b.
Proof. apply map_app. Qed.

(** Bytes and events of one block, with or without END. *)
Lemma decode_closed px py b : block_ok px py b ->
  vp3_decode (map signed8 (vp3_stitches px py b ++ [0])) = Ok (block_events px py b).
Proof.
  intros H. rewrite map_app, vp3_decode_block by assumption. cbn. rewrite app_nil_r. reflexivity.
Qed.
Lemma decode_ended px py b e : block_ok px py b -> cmd_of (scmd e) = END ->
  vp3_decode (map signed8 (vp3_stitches px py (b ++ [e]) ++ [0])) = Ok (block_events px py b ++ [mkS 0 0 TRIM]).
Proof.
  intros H He. rewrite vp3_stitches_app by assumption. rewrite <- app_assoc, map_app, vp3_decode_block by assumption.
  cbn [vp3_stitches]. cbv zeta. rewrite He. reflexivity.
Qed.

(** [fx, fy]: where the current block starts; [hd]: its colour change, if it is not the first. *)
Definition heads (first : bool) (hd : list (stitch Z)) (fx fy : Z) : Prop :=
  if first then hd = [] /\ fx = 0 /\ fy = 0
  else exists c, hd = [c] /\ cmd_of (scmd c) = COLOR_CHANGE /\ sx c = fx /\ sy c = fy.

Lemma heads_start first hd fx fy b : heads first hd fx fy -> start_of first (hd ++ b) = (fx, fy).
Proof.
  destruct first; cbn [heads].
  - intros (-> & -> & ->). destruct b; reflexivity.
  - intros (c & -> & _ & <- & <-). reflexivity.
Qed.
Lemma heads_stitches first hd fx fy b : heads first hd fx fy -> vp3_stitches fx fy (hd ++ b) = vp3_stitches fx fy b.
Proof.
  destruct first; cbn [heads].
  - intros (-> & _). reflexivity.
  - intros (c & -> & E & _). apply vp3_stitches_silent. exact E.
Qed.

Definition jump_to (fx fy : Z) : list (stitch Z) := if off_axes fx fy then [mkS fx fy JUMP] else [].

Lemma moved_state fx fy qx qy acc : (off_axes fx fy = true \/ (qx = fx /\ qy = fy)) ->
  moved fx fy (100 * qx, 100 * qy, acc) = (100 * fx, 100 * fy, acc ++ in_hundredths (jump_to fx fy)).
Proof.
  intros H. unfold moved, jump_to, out_abs. destruct (off_axes fx fy).
  - reflexivity.
  - destruct H as [H|[-> ->]]; [discriminate|]. cbn. rewrite app_nil_r. reflexivity.
Qed.

Definition small (s : stitch Z) : Prop := Z.abs (sx s) <= 10000000 /\ Z.abs (sy s) <= 10000000.

Lemma read_blocks_of cx cy (get : Z -> thread) :
  Z.abs cx <= 10000000 -> Z.abs cy <= 10000000 -> (forall i, plain_texts (get i)) ->
  forall l first hd b i fx fy qx qy,
  heads first hd fx fy -> Z.abs fx <= 10000000 -> Z.abs fy <= 10000000 -> Forall small l ->
  block_ok fx fy b -> vp3_ok (fst (block_last fx fy b)) (snd (block_last fx fy b)) l ->
  (off_axes fx fy = true \/ (qx = fx /\ qy = fy)) ->
  exists bytes, vp3_colorblocks first (2 * cx) (2 * cy) (vp3_blocks get i (hd ++ b) l) = Ok bytes /\
    (zlen bytes < 2 ^ 32 -> forall pos rest acc ths, exists o,
      vp3_read_blocks (length (vp3_blocks get i (hd ++ b) l)) (100 * cx) (100 * cy) (pos, bytes ++ rest)
        (100 * qx, 100 * qy, acc) ths
      = Ok (o, ths ++ map (fun lt => thread_kept (snd lt)) (vp3_blocks get i (hd ++ b) l)) /\
      snd (out_rel o (mkS 0 0 END)) = acc ++ in_hundredths (jump_to fx fy ++ block_view fx fy b
        ++ vp3_view (fst (block_last fx fy b)) (snd (block_last fx fy b)) l)).
Proof.
  intros Hcx Hcy Hget. induction l as [|s r IH]; intros first hd b i fx fy qx qy Hh Hfx Hfy Hl Hb Hv Hq.
  - cbn [vp3_blocks vp3_colorblocks].
    destruct (read_colorblock_of first cx cy (hd ++ b) (get i) fx fy (block_events fx fy b)) as (bs & E & R);
      [apply heads_start; assumption|apply Hget|assumption..| |].
    { rewrite (heads_stitches _ _ _ _ _ Hh). apply decode_closed. assumption. }
    rewrite E. cbn [bindr]. exists (bs ++ []). split; [reflexivity|]. rewrite app_nil_r.
    intros Hlen pos rest acc ths. eexists. split.
    + cbn [length vp3_read_blocks]. rewrite R by assumption. cbn [bindr]. reflexivity.
    + rewrite moved_state by assumption. rewrite out_rel_block by assumption.
      cbn [vp3_view]. cbn [out_rel out_abs sx sy scmd snd]. rewrite !in_hundredths_app, !app_assoc.
      rewrite !Z.mul_0_r, !Z.add_0_r. reflexivity.
  - inversion Hl as [|? ? Hs Hr]; subst. cbn [vp3_ok] in Hv.
    assert (Same : cmd_of (scmd s) <> COLOR_CHANGE ->
                   vp3_blocks get i (hd ++ b) (s :: r) = vp3_blocks get i (hd ++ (b ++ [s])) r).
    { intros N. cbn [vp3_blocks]. destruct (Z.eqb_spec (cmd_of (scmd s)) COLOR_CHANGE); [contradiction|].
      rewrite <- app_assoc. reflexivity. }
    destruct Hv as [(Ec & Hst & Hv) | [(Ec & Hv) | [(Ec & Ha & Hv) | (Ec & ->)]]].
    + rewrite Same by (rewrite Ec; discriminate).
      assert (Hb' : block_ok fx fy (b ++ [s])).
      { apply block_ok_snoc; [assumption|]. left. split; [exact Ec|]. split; [exact Hst|exact I]. }
      destruct (IH first hd (b ++ [s]) i fx fy qx qy Hh Hfx Hfy Hr Hb') as (bs & E & R); [|exact Hq|].
      { rewrite block_last_snoc, Ec. exact Hv. }
      exists bs. split; [exact E|]. intros Hlen pos rest acc ths.
      destruct (R Hlen pos rest acc ths) as (o & R1 & R2). exists o. split; [exact R1|]. rewrite R2.
      rewrite block_view_snoc, block_last_snoc. cbn [vp3_view block_view]. rewrite Ec. cbn [Z.eqb STITCH].
      cbn [fst snd]. rewrite <- !app_assoc. reflexivity.
    + assert (N : cmd_of (scmd s) <> COLOR_CHANGE /\ cmd_of (scmd s) <> STITCH /\ cmd_of (scmd s) <> END).
      { destruct Ec as [Ec|Ec]; [rewrite Ec; repeat split; discriminate|].
        destruct Ec as [Ec | [Ec | [Ec | [Ec | []]]]]; rewrite <- Ec; repeat split; discriminate. }
      destruct N as (N1 & N2 & N3).
      rewrite Same by assumption.
      assert (Hb' : block_ok fx fy (b ++ [s])).
      { apply block_ok_snoc; [assumption|]. right. split; [exact Ec|exact I]. }
      apply Z.eqb_neq in N2. apply Z.eqb_neq in N1. apply Z.eqb_neq in N3.
      destruct (IH first hd (b ++ [s]) i fx fy qx qy Hh Hfx Hfy Hr Hb') as (bs & E & R); [|exact Hq|].
      { rewrite block_last_snoc, N2. exact Hv. }
      exists bs. split; [exact E|]. intros Hlen pos rest acc ths.
      destruct (R Hlen pos rest acc ths) as (o & R1 & R2). exists o. split; [exact R1|]. rewrite R2.
      rewrite block_view_snoc, block_last_snoc. cbn [vp3_view block_view]. rewrite N2, N3, N1.
      destruct (cmd_of (scmd s) =? TRIM); rewrite <- !app_assoc; reflexivity.
    + cbn [vp3_blocks]. rewrite Ec. cbn [Z.eqb Pos.eqb COLOR_CHANGE].
      destruct (read_colorblock_of first cx cy (hd ++ b) (get i) fx fy (block_events fx fy b)) as (bs & E & R);
        [apply heads_start; assumption|apply Hget|assumption..| |].
      { rewrite (heads_stitches _ _ _ _ _ Hh). apply decode_closed. assumption. }
      assert (Hh' : heads false [s] (sx s) (sy s)) by (exists s; repeat split; assumption).
      destruct Hs as [Hsx Hsy].
      destruct (IH false [s] [] (i + 1) (sx s) (sy s) (fst (block_last fx fy b)) (snd (block_last fx fy b))
                   Hh' Hsx Hsy Hr I) as (bs2 & E2 & R2); [exact Hv| |].
      { destruct Ha as [Ha|[Hx Hy]]; [left; exact Ha|right; split; symmetry; assumption]. }
      rewrite app_nil_r in E2, R2.
      cbn [vp3_colorblocks]. rewrite E. cbn [bindr]. rewrite E2. cbn [bindr].
      exists (bs ++ bs2). split; [reflexivity|]. intros Hlen pos rest acc ths.
      rewrite zlen_app in Hlen. pose proof (zlen_nonneg bs). pose proof (zlen_nonneg bs2).
      cbn [length vp3_read_blocks]. rewrite <- app_assoc. rewrite R by lia. cbn [bindr].
      rewrite moved_state by assumption. rewrite out_rel_block by assumption.
      destruct (vp3_blocks get (i + 1) [s] r) as [|blk blks] eqn:Eb.
      { exfalso. clear -Eb. revert Eb. generalize [s]. generalize (i + 1).
        induction r as [|a r IHr]; intros j l E; [discriminate|].
        cbn [vp3_blocks] in E. destruct (cmd_of (scmd a) =? COLOR_CHANGE); [discriminate|]. eapply IHr; exact E. }
      cbn [length] in *.
      unfold out_rel at 1, out_abs at 1. cbn [sx sy scmd snd]. rewrite !Z.mul_0_r, !Z.add_0_r.
      destruct (R2 ltac:(lia) (pos + zlen bs) rest
        ((((acc ++ in_hundredths (jump_to fx fy)) ++ in_hundredths (block_view fx fy b)) ++
         [mkS (100 * fst (block_last fx fy b)) (100 * snd (block_last fx fy b)) COLOR_CHANGE]))
        (ths ++ [thread_kept (get i)])) as (o & R3 & R4).
      exists o. split.
      * rewrite R3. cbn [map snd]. rewrite <- app_assoc. reflexivity.
      * rewrite R4. cbn [block_view block_last fst snd app]. cbn [vp3_view]. rewrite Ec.
        cbn [Z.eqb Pos.eqb COLOR_CHANGE STITCH TRIM END].
        rewrite <- !app_assoc, !in_hundredths_app. do 3 f_equal. cbn [app in_hundredths map sx sy scmd]. f_equal.
        unfold jump_to. destruct (off_axes (sx s) (sy s)) eqn:Eo; [reflexivity|].
        destruct Ha as [Ha|[Hx Hy]]; [discriminate|]. rewrite Hx, Hy. reflexivity.
    + rewrite Same by (rewrite Ec; discriminate). cbn [vp3_blocks vp3_colorblocks].
      destruct (read_colorblock_of first cx cy (hd ++ (b ++ [s])) (get i) fx fy (block_events fx fy b ++ [mkS 0 0 TRIM]))
        as (bs & E & R);
        [apply heads_start; assumption|apply Hget|assumption..| |].
      { rewrite (heads_stitches _ _ _ _ _ Hh). apply decode_ended; assumption. }
      rewrite E. cbn [bindr]. exists (bs ++ []). split; [reflexivity|]. rewrite app_nil_r.
      intros Hlen pos rest acc ths. eexists. split.
      * cbn [length vp3_read_blocks]. rewrite R by assumption. cbn [bindr]. reflexivity.
      * rewrite moved_state by assumption. rewrite fold_left_app, out_rel_block by assumption.
        cbn [vp3_view]. rewrite Ec. cbn [Z.eqb Pos.eqb COLOR_CHANGE STITCH TRIM END].
        cbn [fold_left out_rel out_abs sx sy scmd snd]. rewrite !in_hundredths_app, !app_assoc.
        rewrite !Z.mul_0_r, !Z.add_0_r. cbn [in_hundredths map]. rewrite <- !app_assoc. reflexivity.
Qed.

(** ** Whole files *)

Lemma fold_extents : forall l a0 b0 a1 b1,
  fold_left (fun b s => match b with (x0, y0, x1, y1) =>
    (Z.min x0 (sx s), Z.min y0 (sy s), Z.max x1 (sx s), Z.max y1 (sy s)) end) l (a0, b0, a1, b1)
  = (fold_left (fun m s => Z.min m (sx s)) l a0, fold_left (fun m s => Z.min m (sy s)) l b0,
     fold_left (fun m s => Z.max m (sx s)) l a1, fold_left (fun m s => Z.max m (sy s)) l b1).
Proof. induction l as [|s r IH]; intros; [reflexivity|]. cbn [fold_left]. rewrite IH. reflexivity. Qed.

Lemma fold_min (f : stitch Z -> Z) : forall l a m, (forall s, In s l -> m <= f s) -> m <= a ->
  (a = m \/ exists s, In s l /\ f s = m) -> fold_left (fun m s => Z.min m (f s)) l a = m.
Proof.
  induction l as [|s r IH]; intros a m H Ha He; cbn [fold_left].
  - destruct He as [->|(s & [] & _)]. reflexivity.
  - apply IH.
    + intros x Hx. apply H. right. exact Hx.
    + pose proof (H s (or_introl eq_refl)). lia.
    + pose proof (H s (or_introl eq_refl)). destruct He as [->|(x & [<-|Hx] & E)]; [left; lia|left; lia|].
      right. exists x. split; assumption.
Qed.
Lemma fold_max (f : stitch Z -> Z) : forall l a m, (forall s, In s l -> f s <= m) -> a <= m ->
  (a = m \/ exists s, In s l /\ f s = m) -> fold_left (fun m s => Z.max m (f s)) l a = m.
Proof.
  induction l as [|s r IH]; intros a m H Ha He; cbn [fold_left].
  - destruct He as [->|(s & [] & _)]. reflexivity.
  - apply IH.
    + intros x Hx. apply H. right. exact Hx.
    + pose proof (H s (or_introl eq_refl)). lia.
    + pose proof (H s (or_introl eq_refl)). destruct He as [->|(x & [<-|Hx] & E)]; [left; lia|left; lia|].
      right. exists x. split; assumption.
Qed.

Lemma extents_centred l cx cy : centred sx cx l -> centred sy cy l ->
  exists w h, extents l = Some (cx - w, cy - h, cx + w, cy + h) /\
    (exists s, In s l /\ sx s = cx - w) /\ (exists s, In s l /\ sx s = cx + w) /\
    (exists s, In s l /\ sy s = cy - h) /\ (exists s, In s l /\ sy s = cy + h).
Proof.
  intros (w & Hw & W1 & W2) (h & Hh & H1 & H2). exists w, h.
  split; [|split; [exact W1|split; [exact W2|split; [exact H1|exact H2]]]].
  destruct l as [|s r]; [destruct W1 as (? & [] & _)|].
  unfold extents. rewrite fold_extents.
  assert (Q : forall (f : stitch Z -> Z) m, (exists x, In x (s :: r) /\ f x = m) -> f s = m \/ exists x, In x r /\ f x = m).
  { intros f m (x & [<-|Hx] & E); [left; exact E|right; exists x; split; assumption]. }
  rewrite (fold_min sx r (sx s) (cx - w)); [|intros x Hx; apply Hw; right; exact Hx|apply Hw; left; reflexivity|apply Q; exact W1].
  rewrite (fold_min sy r (sy s) (cy - h)); [|intros x Hx; apply Hh; right; exact Hx|apply Hh; left; reflexivity|apply Q; exact H1].
  rewrite (fold_max sx r (sx s) (cx + w)); [|intros x Hx; apply Hw; right; exact Hx|apply Hw; left; reflexivity|apply Q; exact W2].
  rewrite (fold_max sy r (sy s) (cy + h)); [|intros x Hx; apply Hh; right; exact Hx|apply Hh; left; reflexivity|apply Q; exact H2].
  reflexivity.
Qed.

Lemma add_fillers_get (filler : Z -> thread) : forall n threads i, 0 <= i ->
  get_thread_or_filler filler (add_fillers filler n threads) i = get_thread_or_filler filler threads i.
Proof.
  induction n as [|n IH]; intros threads i Hi; [reflexivity|].
  cbn [add_fillers]. rewrite IH by assumption. unfold get_thread_or_filler at 1 3.
  destruct (Nat.lt_trichotomy (Z.to_nat i) (length threads)) as [L|[L|L]].
  - rewrite nth_error_app1 by assumption. reflexivity.
  - rewrite nth_error_app2 by lia. rewrite L, Nat.sub_diag. cbn [nth_error].
    assert (nth_error threads (length threads) = None) as -> by (apply nth_error_None; lia).
    unfold get_thread_or_filler, zlen. rewrite Nat2Z.id.
    assert (nth_error threads (length threads) = None) as -> by (apply nth_error_None; lia).
    f_equal. lia.
  - assert (nth_error threads (Z.to_nat i) = None) as -> by (apply nth_error_None; lia).
    assert (nth_error (threads ++ [get_thread_or_filler filler threads (zlen threads)]) (Z.to_nat i) = None) as ->
      by (apply nth_error_None; rewrite app_length; cbn [length]; lia).
    reflexivity.
Qed.

Lemma vp3_blocks_threads {T} (get : Z -> T) : forall l i blk,
  map snd (vp3_blocks get i blk l) = map (fun k => get (i + Z.of_nat k)) (seq 0 (S (color_changes l))).
Proof.
  induction l as [|s r IH]; intros i blk.
  - cbn. rewrite Z.add_0_r. reflexivity.
  - cbn [vp3_blocks]. unfold color_changes. cbn [filter]. destruct (cmd_of (scmd s) =? COLOR_CHANGE).
    + cbn [map snd]. rewrite IH. fold (color_changes r). cbn [length]. fold (color_changes r).
      rewrite <- (cons_seq (S (color_changes r)) 0). cbn [map]. rewrite Z.add_0_r. f_equal.
      rewrite <- seq_shift, map_map. apply map_ext. intros k. f_equal. lia.
    + rewrite IH. reflexivity.
Qed.

(** The thread of the k-th colour block. *)
Definition block_threads (filler : Z -> thread) (threads : list thread) (n : nat) : list thread :=
  map (fun k => match nth_error threads k with Some t => t | None => filler (Z.of_nat k) end) (seq 0 n).

Lemma vp3_roundtrip filler threads l cx cy :
  vp3_ok 0 0 l -> small_coordinates l -> centred sx cx l -> centred sy cy l ->
  Z.of_nat (color_changes l) < 65535 ->
  Forall plain_texts threads -> (forall i, plain_texts (filler i)) ->
  exists file, vp3_write filler l threads = Ok file /\
    (zlen file < 2 ^ 32 ->
     vp3_read file = Ok (in_hundredths (vp3_view 0 0 l),
                         map thread_kept (block_threads filler threads (S (color_changes l))))).
Proof.
  intros Hv Hs Hcx Hcy Hn Ht Hf.
  destruct (extents_centred l cx cy Hcx Hcy) as (w & h & Ee & (s1 & I1 & X1) & (s2 & I2 & X2) & (s3 & I3 & Y1) & (s4 & I4 & Y2)).
  assert (Bx : Z.abs cx <= 10000000).
  { pose proof (proj1 (Hs _ I1)). pose proof (proj1 (Hs _ I2)). lia. }
  assert (By : Z.abs cy <= 10000000).
  { pose proof (proj2 (Hs _ I3)). pose proof (proj2 (Hs _ I4)). lia. }
  unfold vp3_write. set (get := get_thread_or_filler filler (fix_color_count filler l threads)).
  assert (Hget : forall i, plain_texts (get i)).
  { intros i. unfold get, get_thread_or_filler.
    destruct (nth_error (fix_color_count filler l threads) (Z.to_nat i)) as [t|] eqn:E; [|apply Hf].
    destruct (Z.le_gt_cases 0 i) as [Hi|Hi].
    - assert (G : get_thread_or_filler filler (fix_color_count filler l threads) i = t)
        by (unfold get_thread_or_filler; rewrite E; reflexivity).
      unfold fix_color_count in G. rewrite add_fillers_get in G by assumption.
      unfold get_thread_or_filler in G. destruct (nth_error threads (Z.to_nat i)) as [u|] eqn:E'; [|subst t; apply Hf].
      subst u. rewrite Forall_forall in Ht. apply Ht. eapply nth_error_In. exact E'.
    - assert (Z.to_nat i = Z.to_nat 0) as Ei by lia. rewrite Ei in E.
      assert (G : get_thread_or_filler filler (fix_color_count filler l threads) 0 = t)
        by (unfold get_thread_or_filler; rewrite E; reflexivity).
      unfold fix_color_count in G. rewrite add_fillers_get in G by lia.
      unfold get_thread_or_filler in G. destruct (nth_error threads (Z.to_nat 0)) as [u|] eqn:E'; [|subst t; apply Hf].
      subst u. rewrite Forall_forall in Ht. apply Ht. eapply nth_error_In. exact E'. }
  destruct (read_blocks_of cx cy get Bx By Hget l true [] [] 0 0 0 0 0) as (cb & Ecb & Rcb);
    [repeat split|lia|lia|rewrite Forall_forall; exact Hs|exact I|exact Hv|right; split; reflexivity|].
  cbn [app] in Ecb, Rcb.
  assert (Tk : map (fun lt : list (stitch Z) * thread => thread_kept (snd lt)) (vp3_blocks get 0 [] l)
               = map thread_kept (block_threads filler threads (S (color_changes l)))).
  { rewrite <- (map_map snd thread_kept), vp3_blocks_threads. f_equal. unfold block_threads. apply map_ext.
    intros k. unfold get, fix_color_count. rewrite add_fillers_get by lia. unfold get_thread_or_filler.
    cbn [Z.add]. rewrite Nat2Z.id. reflexivity. }
  assert (Ln : length (vp3_blocks get 0 [] l) = S (color_changes l)).
  { rewrite <- (map_length snd), vp3_blocks_threads, map_length, seq_length. reflexivity. }
  set (bs := vp3_blocks get 0 [] l) in *.
  unfold vp3_file. rewrite Ee. unfold vp3_design_block.
  replace (cx - w + (cx + w)) with (2 * cx) by lia. replace (cy - h + (cy + h)) with (2 * cy) by lia.
  rewrite Ecb. cbn [bindr]. rewrite !quot_double. unfold patched.
  match goal with |- context [[0; 3; 0] ++ write_int_32be (zlen ?d) ++ _] => set (design := d) end.
  cbn [bindr].
  match goal with |- context [[0; 2; 0] ++ write_int_32be (zlen ?d) ++ _] => set (fbody := d) end.
  eexists. split; [reflexivity|]. intros Hlen.
  assert (Hcb : zlen cb < 2 ^ 32).
  { pose proof (zlen_nonneg (vp3_string_16 produced)). revert Hlen. unfold fbody. rewrite !zlen_app.
    unfold design. rewrite !zlen_app. intros Hlen.
    repeat match type of Hlen with context [zlen ?x] =>
      lazymatch x with cb => fail | _ => let z := fresh "z" in pose proof (zlen_nonneg x); set (z := zlen x) in * end end.
    lia. }
  unfold vp3_read.
  change ([37; 118; 115; 109; 37] ++ write_int_8 0 ++ vp3_string_16 produced ++ [0; 2; 0] ++ write_int_32be (zlen fbody) ++ fbody)
    with ([37; 118; 115; 109; 37; 0] ++ vp3_string_16 produced ++ [0; 2; 0] ++ write_int_32be (zlen fbody) ++ fbody).
  rewrite s_read_app by reflexivity. rewrite skip_string_16 by reflexivity. cbn [bindr].
  rewrite (app_assoc [0; 2; 0]). rewrite s_seek_app by reflexivity.
  unfold fbody. rewrite skip_string_16 by reflexivity. cbn [bindr].
  match goal with |- context [s_seek 32 (?p, ?a ++ ?b ++ ?c ++ ?d ++ ?e ++ ?g ++ ?i ++ ?j ++ ?k ++ ?m ++ ?n ++ ?q ++ ?r)] =>
    replace (a ++ b ++ c ++ d ++ e ++ g ++ i ++ j ++ k ++ m ++ n ++ q ++ r) with
      ((a ++ b ++ c ++ d ++ e ++ g ++ i ++ j ++ k ++ m ++ n ++ q) ++ r) by (rewrite <- !app_assoc; reflexivity) end.
  rewrite s_seek_app by reflexivity.
  unfold design. rewrite s_32be. cbn [some bindr]. rewrite s_32be. cbn [some bindr].
  match goal with |- context [s_seek 27 (?p, ?a ++ ?b ++ ?c ++ ?d ++ ?e ++ ?g ++ ?i ++ ?r)] =>
    replace (a ++ b ++ c ++ d ++ e ++ g ++ i ++ r) with
      ((a ++ b ++ c ++ d ++ e ++ g ++ i) ++ r) by (rewrite <- !app_assoc; reflexivity) end.
  rewrite s_seek_app by reflexivity.
  rewrite skip_string_16 by reflexivity. cbn [bindr].
  match goal with |- context [s_seek 24 (?p, ?a ++ ?b ++ ?c ++ ?d ++ ?e ++ ?g ++ ?r)] =>
    replace (a ++ b ++ c ++ d ++ e ++ g ++ r) with
      ((a ++ b ++ c ++ d ++ e ++ g) ++ r) by (rewrite <- !app_assoc; reflexivity) end.
  rewrite s_seek_app by reflexivity.
  rewrite skip_string_16 by reflexivity. cbn [bindr].
  rewrite s_16be. cbn [some bindr].
  rewrite (Z.mod_small (zlen bs)) by (unfold zlen; rewrite Ln; change (2 ^ 16) with 65536; lia).
  unfold zlen at 1. rewrite Nat2Z.id.
  rewrite !signed32_small by lia.
  replace (cx * 100) with (100 * cx) by lia. replace (- (cy * -100)) with (100 * cy) by lia.
  rewrite <- (app_nil_r cb).
  destruct (Rcb Hcb (0 + 6 + 2 + 2 * zlen produced + 7 + 2 + 2 * zlen (@nil Z) + 32 + 4 + 4 + 27 + 2 + 2 * zlen (@nil Z) + 24 + 2 + 2 * zlen produced + 2)
              [] [] []) as (o & R1 & R2).
  change (100 * 0) with 0 in R1. cbn [app] in R1. rewrite R1. cbn [bindr].
  rewrite R2, Tk. reflexivity.
Qed.
