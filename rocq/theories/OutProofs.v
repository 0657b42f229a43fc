(** The writers that fill in lengths afterwards write what Vp3Model, ColorFileModel and PecFileModel say. *)
From Coq Require Import Ascii String ZArith QArith List Bool Lia.
From Verif Require Import PyBase EmbConst HelperModel StreamModel StreamSpec NumQ ThreadModel Utf8Model TextModel PatternModel QuantModel Vp3Model ColorFileModel
  DstModel DstFileModel PecModel PecFileModel JefModel U01Model XxxModel WholeModel OutModel OutSpec.
Import ListNotations.
Open Scope Z_scope.

(** ** Streams *)
Lemma skipn_twice : forall {A} n m (l : list A), skipn m (skipn n l) = skipn (n + m) l.
Proof. intros A n. induction n as [|n IH]; intros m l; [reflexivity|]. destruct l; cbn [skipn Nat.add]; [apply skipn_nil|apply IH]. Qed.
Lemma over_nil : forall d k, (k <= List.length d)%nat -> over d k [] = mkOut d k.
Proof. intros d k H. unfold over. cbn [List.length app]. rewrite Nat.add_0_r, firstn_skipn. reflexivity. Qed.
Lemma write_over : forall d k b c, (k <= List.length d)%nat -> write c (over d k b) = (over d k (b ++ c), Ok tt).
Proof.
  intros d k b c H. unfold write, over. cbn [o_at o_bytes].
  assert (L : List.length (firstn k d ++ b) = (k + List.length b)%nat) by (rewrite app_length, firstn_length; lia).
  assert (T : (k + List.length b <= List.length (firstn k d ++ b ++ skipn (k + List.length b) d))%nat) by (rewrite app_assoc, app_length; lia).
  replace (k + List.length b - List.length (firstn k d ++ b ++ skipn (k + List.length b) d))%nat with 0%nat by lia. cbn [repeat app].
  rewrite !app_assoc. rewrite firstn_app, <- L, firstn_all, Nat.sub_diag. cbn [firstn]. rewrite app_nil_r.
  rewrite (skipn_app _ (firstn k d ++ b)), skipn_all2 by lia. cbn [app].
  replace (List.length (firstn k d ++ b) + List.length c - List.length (firstn k d ++ b))%nat with (List.length c) by lia.
  rewrite L, app_length. rewrite Nat.add_assoc. f_equal. f_equal. f_equal.
  apply skipn_twice.
Qed.
(** Going back, filling in, and returning. *)
Lemma fill_over : forall d k b1 old b2 c, (k <= List.length d)%nat -> List.length old = List.length c ->
  (seek (Z.of_nat (k + List.length b1));;; write c;;; seek (Z.of_nat (k + List.length (b1 ++ old ++ b2)))) (over d k (b1 ++ old ++ b2)) = (over d k (b1 ++ c ++ b2), Ok tt).
Proof.
  intros d k b1 old b2 c H E. unfold bind, seek, write. cbn [o_at o_bytes over]. rewrite !Nat2Z.id.
  unfold over. cbn [o_bytes].
  assert (Lb : List.length (b1 ++ old ++ b2) = List.length (b1 ++ c ++ b2)) by (rewrite !app_length; lia). rewrite Lb.
  f_equal. f_equal.
  assert (L : List.length (firstn k d ++ b1) = (k + List.length b1)%nat) by (rewrite app_length, firstn_length; lia).
  set (tl := skipn (k + List.length (b1 ++ c ++ b2)) d).
  replace (firstn k d ++ (b1 ++ old ++ b2) ++ tl) with ((firstn k d ++ b1) ++ old ++ b2 ++ tl) by (rewrite <- !app_assoc; reflexivity).
  rewrite firstn_app, <- L, firstn_all, Nat.sub_diag. cbn [firstn]. rewrite app_nil_r.
  rewrite (skipn_app _ (firstn k d ++ b1)), skipn_all2 by lia. cbn [app].
  replace (List.length (firstn k d ++ b1) + List.length c - List.length (firstn k d ++ b1))%nat with (List.length old) by lia.
  rewrite skipn_app, skipn_all, Nat.sub_diag. cbn [skipn app].
  replace (List.length (firstn k d ++ b1) - List.length ((firstn k d ++ b1) ++ old ++ b2 ++ tl))%nat with 0%nat by (rewrite (app_length (firstn k d ++ b1)); lia).
  cbn [repeat app]. rewrite <- !app_assoc. reflexivity.
Qed.

(** ** What pieces of writers do *)
Definition does (p : prog unit) (r : res (list Z)) : Prop := forall d k b, (k <= List.length d)%nat ->
  match r with
  | Ok f => p (over d k b) = (over d k (b ++ f), Ok tt)
  | Err e => exists part, p (over d k b) = (over d k (b ++ part), Err e)
  end.
Lemma does_at : forall p r, does p r -> forall d k, (k <= List.length d)%nat -> writes_at p d k r.
Proof.
  intros p r H d k L. specialize (H d k [] L). unfold writes_at. rewrite over_nil in H by exact L. destruct r; exact H.
Qed.
Lemma does_write : forall b, does (write b) (Ok b).
Proof. intros b d k c H. apply write_over. exact H. Qed.
Lemma does_ret : does (ret tt) (Ok []).
Proof. intros d k b H. rewrite app_nil_r. reflexivity. Qed.
Lemma does_raise : forall e, does (raise e) (Err e).
Proof. intros e d k b H. exists []. rewrite app_nil_r. reflexivity. Qed.
Definition cat (r s : res (list Z)) : res (list Z) := do x <- r; do y <- s; Ok (x ++ y).
Lemma does_seq : forall p q r s, does p r -> does q s -> does (p;;; q) (cat r s).
Proof.
  intros p q r s Hp Hq d k b H. specialize (Hp d k b H). unfold cat, bind. destruct r as [x|e]; cbn [bindr].
  - rewrite Hp. specialize (Hq d k (b ++ x) H). destruct s as [y|e]; cbn [bindr].
    + rewrite Hq, <- app_assoc. reflexivity.
    + destruct Hq as (part & E). exists (x ++ part). rewrite E, <- app_assoc. reflexivity.
  - destruct Hp as (part & E). exists part. rewrite E. reflexivity.
Qed.
Lemma does_text : forall t, does (write_text t) (utf8_encode t).
Proof.
  intros t d k b H. unfold write_text, made, bind. destruct (utf8_encode t) as [x|e].
  - apply write_over. exact H.
  - exists []. rewrite app_nil_r. reflexivity.
Qed.
Lemma does_made : forall {A} (r : res A) f, does (l <~ made r;; write (f l)) (do l <- r; Ok (f l)).
Proof.
  intros A r f d k b H. unfold made, bind. destruct r as [x|e]; cbn [bindr].
  - apply write_over. exact H.
  - exists []. rewrite app_nil_r. reflexivity.
Qed.
Lemma does_eq : forall p r s, does p r -> r = s -> does p s.
Proof. intros p r s H <-. exact H. Qed.
Lemma bind_ok : forall {A B} (p : prog A) (f : A -> prog B) o o' a, p o = (o', Ok a) -> bind p f o = f a o'.
Proof. intros A B p f o o' a E. unfold bind. rewrite E. reflexivity. Qed.
(** A piece between two fillings. *)
Lemma len32 : forall v, List.length (write_int_32be v) = 4%nat.
Proof. reflexivity. Qed.
Lemma does_patched : forall p r, does p r -> does (placeholder <~ tell;; write (write_int_32be 0);;; p;;; patch_byte_offset placeholder) (do x <- r; Ok (patched x)).
Proof.
  intros p r Hp d k b H. rewrite (bind_ok tell _ (over d k b) (over d k b) (Z.of_nat (k + List.length b))) by reflexivity.
  erewrite bind_ok by (apply write_over; exact H).
  specialize (Hp d k (b ++ write_int_32be 0) H). destruct r as [x|e]; cbn [bindr].
  - erewrite bind_ok by exact Hp. unfold patch_byte_offset. rewrite <- app_assoc.
    rewrite (bind_ok tell _ (over d k (b ++ write_int_32be 0 ++ x)) (over d k (b ++ write_int_32be 0 ++ x)) (Z.of_nat (k + List.length (b ++ write_int_32be 0 ++ x)))) by reflexivity.
    rewrite (fill_over d k b (write_int_32be 0) x) by (try exact H; reflexivity). unfold patched. do 4 f_equal. f_equal. f_equal.
    rewrite !app_length, len32. unfold zlen. lia.
  - destruct Hp as (part & E). exists (write_int_32be 0 ++ part). unfold bind. rewrite E, <- app_assoc. reflexivity.
Qed.

(** ** VP3 *)
Lemma does_string_8 : forall t, does (o_string_8 t) (vp3_string_8 t).
Proof.
  intros t. eapply does_eq; [apply does_seq; [apply does_write|apply does_text]|]. unfold vp3_string_8, cat. cbn [bindr]. reflexivity.
Qed.
Ltac pieces := lazymatch goal with
  | |- does (write _) _ => apply does_write
  | |- does (write_text _) _ => apply does_text
  | |- does (o_string_8 _) _ => apply does_string_8
  | |- does (bind (made ?r) (fun l => write (@?f l))) _ => apply (does_made r f)
  | |- does (bind _ _) _ => eapply does_seq; [pieces|pieces]
  | |- does _ _ => idtac
  end.
Lemma does_thread : forall t, does (o_thread t) (vp3_thread t).
Proof.
  intros t. eapply does_eq; [unfold o_thread; pieces|]. unfold vp3_thread, cat. cbn [bindr].
  destruct (vp3_string_8 _) as [c|e]; cbn [bindr]; [|reflexivity]. destruct (vp3_string_8 _) as [d|e]; cbn [bindr]; [|reflexivity].
  destruct (vp3_string_8 _) as [b|e]; cbn [bindr]; [|reflexivity]. reflexivity.
Qed.
Lemma does_stitches : forall l x y, does (o_stitches x y l) (Ok (vp3_stitches x y l)).
Proof.
  induction l as [|s l IH]; intros x y; [apply does_ret|]. cbn [o_stitches vp3_stitches]. cbv zeta.
  destruct (cmd_of (scmd s) =? END); [apply does_write|].
  destruct (cmd_of (scmd s) =? COLOR_CHANGE); [apply IH|].
  destruct (cmd_of (scmd s) =? TRIM); [exact (does_seq _ _ _ _ (does_write _) (IH _ _))|].
  destruct (cmd_of (scmd s) =? SEQUIN_MODE); [apply IH|].
  destruct (cmd_of (scmd s) =? SEQUIN_EJECT); [apply IH|].
  destruct (cmd_of (scmd s) =? STOP); [apply IH|].
  destruct (cmd_of (scmd s) =? JUMP); [apply IH|].
  set (out := if cmd_of (scmd s) =? STITCH then _ else []). change (does ((if cmd_of (scmd s) =? STITCH then
           if (-127 <=? sx s - x) && (sx s - x <=? 127) && (-127 <=? sy s - y) && (sy s - y <=? 127) && (Z.land (scmd s) FLAGS_MASK =? 0)
           then write (write_int_8 (sx s - x));;; write (write_int_8 (sy s - y))
           else write [0x80; 0x01];;; write (write_int_16be (sx s - x));;; write (write_int_16be (sy s - y));;; write [0x80; 0x02]
         else ret tt);;; o_stitches (x + (sx s - x)) (y + (sy s - y)) l) (cat (Ok out) (Ok (vp3_stitches (x + (sx s - x)) (y + (sy s - y)) l)))).
  apply does_seq; [|apply IH]. unfold out.
  destruct (cmd_of (scmd s) =? STITCH); [|exact does_ret].
  destruct ((-127 <=? sx s - x) && (sx s - x <=? 127) && (-127 <=? sy s - y) && (sy s - y <=? 127) && (Z.land (scmd s) FLAGS_MASK =? 0)).
  - eapply does_eq; [pieces|reflexivity].
  - eapply does_eq; [pieces|reflexivity].
Qed.

Lemma does_stitches_block : forall l fx fy, does (o_stitches_block l fx fy) (Ok (vp3_stitches_block l fx fy)).
Proof.
  intros l fx fy. eapply does_eq.
  - unfold o_stitches_block. eapply does_seq; [apply does_write|]. apply does_patched. eapply does_seq; [apply does_write|apply does_stitches].
  - reflexivity.
Qed.
Lemma does_colorblock : forall first sumx sumy l t, does (o_colorblock first sumx sumy l t) (vp3_colorblock first sumx sumy l t).
Proof.
  intros first sumx sumy l t. eapply does_eq.
  - unfold o_colorblock. eapply does_seq; [apply does_write|]. apply does_patched. cbv zeta. pieces; [apply does_thread|apply does_stitches_block].
  - unfold vp3_colorblock, cat. cbn [bindr]. destruct (vp3_thread t) as [th|e]; cbn [bindr]; reflexivity.
Qed.
Lemma does_colorblocks : forall bs first sumx sumy, does (o_colorblocks first sumx sumy bs) (vp3_colorblocks first sumx sumy bs).
Proof.
  induction bs as [|[l t] bs IH]; intros first sumx sumy; [apply does_ret|]. cbn [o_colorblocks vp3_colorblocks].
  exact (does_seq _ _ _ _ (does_colorblock first sumx sumy l t) (IH false sumx sumy)).
Qed.
Lemma does_design_block : forall e bs, does (o_design_block e bs) (vp3_design_block e bs).
Proof.
  intros [[[x0 y0] x1] y1] bs. eapply does_eq.
  - unfold o_design_block. cbv zeta. eapply does_seq; [apply does_write|]. apply does_patched. pieces. apply does_colorblocks.
  - unfold vp3_design_block, cat. cbn [bindr]. destruct (vp3_colorblocks true (x0 + x1) (y0 + y1) bs) as [cb|e]; cbn [bindr]; reflexivity.
Qed.
Lemma does_vp3_file : forall l bs, does (o_vp3_file l bs) (vp3_file l bs).
Proof.
  intros l bs. unfold o_vp3_file, vp3_file. destruct (extents l) as [[[[x0 y0] x1] y1]|].
  - eapply does_eq.
    + eapply does_seq; [apply does_write|]. apply does_patched. pieces. apply does_design_block.
    + unfold cat. cbn [bindr]. destruct (vp3_design_block (x0, y0, x1, y1) bs) as [cb|e]; cbn [bindr]; reflexivity.
  - eapply does_eq.
    + eapply does_seq; [apply does_write|]. apply does_patched. eapply does_seq; [apply does_write|apply does_raise].
    + reflexivity.
Qed.
Lemma does_vp3 : forall filler l threads, does (o_vp3 filler l threads) (vp3_write filler l threads).
Proof.
  intros filler l threads. eapply does_eq.
  - unfold o_vp3. cbv zeta. pieces. apply does_vp3_file.
  - unfold vp3_write, cat. cbv zeta. cbn [bindr]. destruct (vp3_file _ _) as [b|e]; cbn [bindr]; reflexivity.
Qed.

(** ** INF *)
Lemma does_inf_records : forall threads index, does (o_inf_records index threads) (inf_records index threads).
Proof.
  induction threads as [|t threads IH]; intros index; [apply does_ret|]. cbn [o_inf_records inf_records]. cbv zeta. eapply does_eq.
  - pieces. apply IH.
  - unfold cat. cbn [bindr]. destruct (utf8_encode _) as [x|e]; cbn [bindr]; [|reflexivity]. destruct (utf8_encode _) as [y|e]; cbn [bindr]; [|reflexivity].
    destruct (inf_records (index + 1) threads) as [z|e]; cbn [bindr]; reflexivity.
Qed.
Lemma does_inf : forall threads, does (o_inf threads) (inf_write threads).
Proof.
  intros threads. eapply does_eq.
  - unfold o_inf. eapply does_seq; [apply does_write|]. eapply does_seq; [apply does_write|]. apply does_patched. pieces. apply does_inf_records.
  - unfold inf_write, cat. cbn [bindr]. destruct (inf_records 0 threads) as [z|e]; cbn [bindr]; reflexivity.
Qed.

(** ** PEC *)
Lemma does_pec_header : forall order name threads, does (o_pec_header order name threads) (do ' (h, _) <- write_pec_header order name threads; Ok h).
Proof.
  intros order name threads. unfold o_pec_header, write_pec_header. cbv zeta. set (ix := build_unique_palette (order threads) pec_threads threads).
  destruct (negb (zlen ix =? 0)) eqn:En; cbn [bindr].
  - destruct (negb (zlen ix - 1 <? 255)) eqn:E2.
    + eapply does_eq; [pieces; apply does_raise|]. unfold cat. cbn [bindr]. destruct (utf8_encode _); reflexivity.
    + eapply does_eq; [pieces|].
      unfold cat. cbn [bindr]. destruct (utf8_encode _) as [x|e]; cbn [bindr]; [|reflexivity]. destruct (index_bytes ix) as [y|e]; cbn [bindr]; [|reflexivity].
      rewrite <- !app_assoc. reflexivity.
  - eapply does_eq; [pieces|]. unfold cat. cbn [bindr]. destruct (utf8_encode _) as [x|e]; cbn [bindr]; [|reflexivity]. rewrite <- !app_assoc. reflexivity.
Qed.
Lemma does_pec_block : forall e l, does (o_pec_block e l) (write_pec_block e l).
Proof.
  intros e l d k b H. unfold o_pec_block. rewrite (bind_ok tell _ (over d k b) (over d k b) (Z.of_nat (k + List.length b))) by reflexivity.
  do 3 (erewrite bind_ok by (apply write_over; exact H)). destruct e as [[[[x0 y0] x1] y1]|]; cbn [write_pec_block].
  - do 5 (erewrite bind_ok by (apply write_over; exact H)). cbv zeta. rewrite <- !app_assoc.
    set (tail := [0x31; 0xff; 0xf0] ++ write_int_16le (q_round (x1 - x0)) ++ write_int_16le (q_round (y1 - y0))
                  ++ write_int_16le 0x1E0 ++ write_int_16le 0x1B0 ++ pec_encode qz_q l).
    set (o := over d k (b ++ [0; 0] ++ write_int_24le 0 ++ tail)).
    rewrite !(bind_ok tell _ o o (Z.of_nat (k + List.length (b ++ [0; 0] ++ write_int_24le 0 ++ tail)))) by reflexivity.
    replace (Z.of_nat (k + List.length b) + 2) with (Z.of_nat (k + List.length (b ++ [0; 0]))) by (rewrite app_length; cbn [List.length]; lia).
    subst o. rewrite !(app_assoc b [0; 0]).
    rewrite (fill_over d k (b ++ [0; 0]) (write_int_24le 0) tail) by (try exact H; reflexivity). rewrite <- !(app_assoc b [0; 0]).
    do 6 f_equal. rewrite !app_length. change (List.length (write_int_24le 0)) with 3%nat. cbn [List.length]. unfold zlen. lia.
  - unfold raise. eexists. rewrite <- !app_assoc. reflexivity.
Qed.
Lemma does_pec : forall filler order name l threads, does (o_pec filler order name l threads) (pec_write filler order name l threads).
Proof.
  intros filler order name l threads. unfold o_pec, pec_write. destruct (pec_prepare filler l threads) as [l' threads'].
  eapply does_eq.
  - eapply does_seq; [apply does_write|]. cbv zeta. eapply does_seq; [apply does_pec_header|]. eapply does_seq; [apply does_pec_block|apply does_write].
  - unfold write_pec, cat. cbv zeta. cbn [bindr]. destruct (write_pec_header _ _ _) as [[h ix]|e]; cbn [bindr]; [|reflexivity].
    destruct (write_pec_block _ _) as [bl|e]; cbn [bindr]; reflexivity.
Qed.

(** ** Reading from a position *)
Definition shift (k : Z) (f : stream) : stream := (k + fst f, snd f).
Lemma s_read_shift : forall k n f, s_read n (shift k f) = (fst (s_read n f), shift k (snd (s_read n f))).
Proof. intros k n [p l]. unfold s_read, shift. cbn [fst snd]. rewrite Z.add_assoc. reflexivity. Qed.
Lemma s_seek_shift : forall k n f, s_seek n (shift k f) = shift k (s_seek n f).
Proof. intros k n [p l]. unfold s_seek, shift. cbn [fst snd]. rewrite Z.add_assoc. reflexivity. Qed.
Lemma s_int_shift : forall k rd f, s_int rd (shift k f) = (fst (s_int rd f), shift k (snd (s_int rd f))).
Proof. intros k rd [p l]. unfold s_int, shift. cbn [fst snd]. destruct (rd l) as [v rest]. cbn [fst snd]. do 2 f_equal. lia. Qed.
Lemma skip_shift : forall k f, skip_vp3_string (shift k f) = (do g <- skip_vp3_string f; Ok (shift k g)).
Proof.
  intros k f. unfold skip_vp3_string. rewrite s_int_shift. destruct (s_int read_int_16be f) as [v g]. cbn [fst snd].
  destruct (some v) as [n|e]; cbn [bindr]; [|reflexivity]. rewrite s_seek_shift. reflexivity.
Qed.
Lemma string_8_shift : forall k f, read_vp3_string_8 (shift k f) = (fst (read_vp3_string_8 f), shift k (snd (read_vp3_string_8 f))).
Proof.
  intros k f. unfold read_vp3_string_8. rewrite s_int_shift. destruct (s_int read_int_16be f) as [v g]. cbn [fst snd]. rewrite s_read_shift.
  destruct (s_read _ g) as [b h]. reflexivity.
Qed.
Lemma colors_shift : forall k n c f, vp3_read_colors n c (shift k f) = (fst (vp3_read_colors n c f), shift k (snd (vp3_read_colors n c f))).
Proof.
  intros k. induction n as [|n IH]; intros c f; [reflexivity|]. cbn [vp3_read_colors]. rewrite s_int_shift. destruct (s_int read_int_24be f) as [v g]. cbn [fst snd].
  rewrite s_int_shift. destruct (s_int read_int_8 g) as [v' g']. cbn [fst snd]. rewrite s_int_shift. destruct (s_int read_int_16be g') as [v'' g'']. cbn [fst snd]. apply IH.
Qed.
Ltac step_int := match goal with |- context[s_int ?rd (shift ?k ?f)] => rewrite (s_int_shift k rd f); let v := fresh "v" in let g := fresh "g" in destruct (s_int rd f) as [v g]; cbn [fst snd] end.
Ltac step_some := match goal with |- context[some ?v] => destruct (some v); cbn [bindr]; [|reflexivity] end.
Ltac step_skip := match goal with |- context[skip_vp3_string (shift ?k ?f)] => rewrite (skip_shift k f); destruct (skip_vp3_string f); cbn [bindr]; [|reflexivity] end.
Lemma thread_shift : forall k f, vp3_read_thread (shift k f) = (do ' (t, g) <- vp3_read_thread f; Ok (t, shift k g)).
Proof.
  intros k f. unfold vp3_read_thread. step_int. step_int. step_some. rewrite colors_shift. destruct (vp3_read_colors _ _ _) as [c h]. cbn [fst snd].
  step_int. step_int. do 3 (rewrite string_8_shift; match goal with |- context[fst (read_vp3_string_8 ?x)] => destruct (read_vp3_string_8 x); cbn [fst snd] end). reflexivity.
Qed.
Lemma colorblock_shift : forall k cx cy f o, vp3_read_colorblock cx cy (shift k f) o = (do ' (t, g, o') <- vp3_read_colorblock cx cy f o; Ok (t, shift k g, o')).
Proof.
  intros k cx cy f o. unfold vp3_read_colorblock. rewrite s_read_shift. destruct (s_read 3 f) as [b0 f0]. cbn [fst snd].
  step_int. step_some. step_int. step_some. step_int. step_some. rewrite thread_shift.
  match goal with |- context[vp3_read_thread ?x] => destruct (vp3_read_thread x) as [[t h]|e]; cbn [bindr]; [|reflexivity] end.
  rewrite s_seek_shift, s_read_shift. destruct (s_read 3 (s_seek 15 h)) as [b1 f1]. cbn [fst snd]. rewrite s_read_shift.
  match goal with |- context[s_read (?d + fst (shift k ?x) - fst (shift k ?y)) ?z] => replace (d + fst (shift k x) - fst (shift k y)) with (d + fst x - fst y) by (unfold shift; cbn [fst]; lia) end.
  match goal with |- context[s_read ?n f1] => destruct (s_read n f1) as [b2 f2] end. cbn [fst snd].
  destruct (vp3_decode _); cbn [bindr]; reflexivity.
Qed.
Lemma blocks_shift : forall k n cx cy f o ts, vp3_read_blocks n cx cy (shift k f) o ts = vp3_read_blocks n cx cy f o ts.
Proof.
  intros k. induction n as [|n IH]; intros cx cy f o ts; [reflexivity|]. cbn [vp3_read_blocks]. rewrite colorblock_shift.
  destruct (vp3_read_colorblock cx cy f o) as [[[t g] o']|e]; cbn [bindr]; [apply IH|reflexivity].
Qed.
Lemma vp3_shift : forall k f, vp3_read_from (shift k f) = vp3_read_from f.
Proof.
  intros k f. unfold vp3_read_from. rewrite s_read_shift. destruct (s_read 6 f) as [b0 f0]. cbn [fst snd].
  step_skip. rewrite s_seek_shift. step_skip. rewrite s_seek_shift. step_int. step_some. step_int. step_some. rewrite s_seek_shift. step_skip. rewrite s_seek_shift. step_skip.
  step_int. step_some. rewrite blocks_shift. reflexivity.
Qed.
Lemma vp3_from_start : forall file, vp3_read_from (0, file) = vp3_read file.
Proof. reflexivity. Qed.
(** Positions never go below zero, and bytes remain bytes. *)
Definition sane (f : stream) : Prop := 0 <= fst f /\ bytes_ok (snd f).
Lemma bytes_skip : forall n l, bytes_ok l -> bytes_ok (skipn n l).
Proof. intros n l H. unfold bytes_ok in *. rewrite <- (firstn_skipn n l) in H. apply Forall_app in H. exact (proj2 H). Qed.
Lemma sane_read : forall n f, sane f -> sane (snd (s_read n f)).
Proof. intros n [p l] [H1 H2]. unfold s_read, sane. cbn [fst snd] in *. split; [unfold zlen; lia|apply bytes_skip; exact H2]. Qed.
Lemma sane_seek : forall n f, 0 <= n -> sane f -> sane (s_seek n f).
Proof. intros n [p l] Hn [H1 H2]. unfold s_seek, sane. cbn [fst snd] in *. split; [lia|apply bytes_skip; exact H2]. Qed.
Lemma skip_le : forall (l : list Z) n, zlen l - zlen (skipn n l) >= 0.
Proof. intros l n. unfold zlen. rewrite skipn_length. lia. Qed.
Lemma sane_8 : forall f, sane f -> sane (snd (s_int read_int_8 f)) /\ (forall v, fst (s_int read_int_8 f) = Some v -> 0 <= v < 256).
Proof.
  intros [p l] [H1 H2]. unfold s_int, read_int_8. cbn [fst snd] in *.
  assert (E : (match firstn 1 l with [b] => (Some b, skipn 1 l) | _ => (None, skipn 1 l) end) = (match l with [] => None | b :: _ => Some b end, skipn 1 l)) by (destruct l; reflexivity).
  rewrite E. cbn [fst snd]. split.
  - split; cbn [fst snd]; [pose proof (skip_le l 1); lia|apply bytes_skip; exact H2].
  - intros v Ev. destruct l as [|b l]; [discriminate|]. injection Ev as ->. apply Forall_inv in H2. exact H2.
Qed.
Lemma sane_24 : forall f, sane f -> sane (snd (s_int read_int_24le f)) /\ (forall v, fst (s_int read_int_24le f) = Some v -> 0 <= v /\ 3 <= fst (snd (s_int read_int_24le f))).
Proof.
  intros [p l] [H1 H2]. unfold s_int, read_int_24le. cbn [fst snd] in *. destruct l as [|a [|b [|c l]]]; cbn [firstn skipn fst snd].
  1-3: split; [split; cbn [fst snd]; [unfold zlen; cbn [List.length]; lia|constructor]|discriminate].
  split.
  - split; cbn [fst snd]; [unfold zlen; cbn [List.length]; lia|exact (bytes_skip 3 _ H2)].
  - intros v Ev. apply (f_equal (fun o => match o with Some x => x | None => 0 end)) in Ev. cbv beta iota in Ev. subst v. split; [|unfold zlen; cbn [List.length]; lia].
    assert (B : forall x, 0 <= b8 x) by (intros x; apply Z.land_nonneg; right; lia).
    repeat apply Z.add_nonneg_nonneg; try apply Z.shiftl_nonneg; apply B.
Qed.
Lemma string_shift : forall k n f, read_string_8 n (shift k f) = (fst (read_string_8 n f), shift k (snd (read_string_8 n f))).
Proof. intros k n f. unfold read_string_8. rewrite s_read_shift. destruct (s_read _ f). reflexivity. Qed.
Lemma sane_string : forall n f, sane f -> sane (snd (read_string_8 n f)).
Proof. intros n f H. unfold read_string_8. pose proof (sane_read (match n with Some n => n | None => -1 end) f H). destruct (s_read _ f). exact H0. Qed.
Lemma graphics_shift : forall k n i size stride values f, read_pec_graphics n i size stride values (shift k f) = read_pec_graphics n i size stride values f.
Proof.
  intros k. induction n as [|n IH]; intros i size stride values f; [reflexivity|]. cbn [read_pec_graphics]. rewrite s_read_shift. destruct (s_read size f) as [g f']. cbn [fst snd].
  destruct (py_index i values); cbn [bindr]; [|reflexivity]. rewrite IH. reflexivity.
Qed.
Lemma seek_to_shift : forall pre file n, 0 <= n -> seek_to (pre ++ file) (zlen pre + n) = shift (zlen pre) (seek_to file n).
Proof.
  intros pre file n H. unfold seek_to, shift. cbn [fst snd]. f_equal. unfold zlen. rewrite Z2Nat.inj_add, Nat2Z.id by lia.
  rewrite skipn_app, skipn_all2 by lia. cbn [app]. f_equal. lia.
Qed.
Lemma pec_shift : forall pre file f chart, sane f -> read_pec (pre ++ file) (shift (zlen pre) f) chart = read_pec file f chart.
Proof.
  intros pre file f chart Hf. unfold read_pec. rewrite s_seek_shift. assert (H1 : sane (s_seek 3 f)) by (apply sane_seek; [lia|exact Hf]).
  generalize dependent (s_seek 3 f). intros f1 H1. rewrite string_shift. pose proof (sane_string (Some 16) f1 H1) as H2. destruct (read_string_8 (Some 16) f1) as [label f2]. cbn [fst snd] in *.
  rewrite s_seek_shift. apply (sane_seek 0xF) in H2; [|lia]. generalize dependent (s_seek 0xF f2). intros f3 H3.
  rewrite s_int_shift. destruct (sane_8 _ H3) as [H4 _]. destruct (s_int read_int_8 f3) as [stride f4]. cbn [fst snd] in *.
  rewrite s_int_shift. destruct (sane_8 _ H4) as [H5 _]. destruct (s_int read_int_8 f4) as [height f5]. cbn [fst snd] in *.
  rewrite s_seek_shift. apply (sane_seek 0xC) in H5; [|lia]. generalize dependent (s_seek 0xC f5). intros f6 H6.
  rewrite s_int_shift. destruct (sane_8 _ H6) as [H7 V7]. destruct (s_int read_int_8 f6) as [cc f7]. cbn [fst snd] in *.
  destruct cc as [cc|]; cbn [some bindr]; [|reflexivity]. specialize (V7 cc eq_refl).
  rewrite s_read_shift. pose proof (sane_read (cc + 1) f7 H7) as H8. destruct (s_read (cc + 1) f7) as [cb f8]. cbn [fst snd] in *.
  rewrite s_seek_shift. assert (H9 : sane (s_seek (0x1D0 - cc) f8)) by (apply sane_seek; [lia|exact H8]).
  assert (P9 : 209 <= fst (s_seek (0x1D0 - cc) f8)) by (unfold s_seek; cbn [fst]; destruct H8; lia).
  generalize dependent (s_seek (0x1D0 - cc) f8). intros f9 H9 P9. rewrite s_int_shift. destruct (sane_24 _ H9) as [H10 V10].
  assert (P10 : fst f9 <= fst (snd (s_int read_int_24le f9))).
  { destruct f9 as [p l]. unfold s_int, read_int_24le. cbn [fst snd]. destruct l as [|a [|b [|c l]]]; cbn [firstn skipn fst snd]; unfold zlen; cbn [List.length]; lia. }
  destruct (s_int read_int_24le f9) as [len f10]. cbn [fst snd] in *. destruct len as [len|]; cbn [some bindr]; [|reflexivity]. destruct (V10 len eq_refl) as [V _].
  cbv zeta. rewrite s_seek_shift. change (snd (shift (zlen pre) (s_seek 0x0B f10))) with (snd (s_seek 0x0B f10)).
  replace (len - 5 + fst (shift (zlen pre) f10)) with (zlen pre + (len - 5 + fst f10)) by (unfold shift; cbn [fst]; lia).
  rewrite seek_to_shift by lia. destruct (some stride); cbn [bindr]; [|reflexivity]. destruct (some height); cbn [bindr]; [|reflexivity].
  rewrite graphics_shift. reflexivity.
Qed.
Lemma pec_from : forall pre file, bytes_ok file -> pec_read_from (pre ++ file) (zlen pre) = pec_file_read file.
Proof.
  intros pre file H. unfold pec_read_from, pec_file_read.
  replace (seek_to (pre ++ file) (zlen pre)) with (shift (zlen pre) (0, file)).
  2:{ unfold seek_to, shift, zlen. cbn [fst snd]. rewrite Nat2Z.id, skipn_app, skipn_all, Nat.sub_diag, Z.add_0_r. reflexivity. }
  rewrite string_shift. assert (H0 : sane (0, file)) by (split; [cbn [fst]; lia|exact H]). pose proof (sane_string (Some 8) _ H0) as H1.
  destruct (read_string_8 (Some 8) (0, file)) as [x f]. cbn [fst snd] in *. rewrite pec_shift by exact H1. reflexivity.
Qed.
