(** Which files the readers of JEF, PEC, PES, TBF, VP3 and XXX accept. *)
From Coq Require Import Ascii String ZArith Bool List Lia.
From Verif Require Import PyBase EmbConst BitLemmas HelperModel StreamModel PatternModel Utf8Model DstFileModel JefModel Vp3Model ThreadModel
  PecModel PecFileModel PesModel XxxModel TbfModel WholeModel ReadableSpec.
From Verif Require DstAnyProofs ValueProofs.
Import ListNotations.
Open Scope Z_scope.

(** ** Lists and numbers *)
Lemma skip_skip {A} : forall n m (l : list A), skipn n (skipn m l) = skipn (m + n) l.
Proof.
  intros n m. revert n. induction m as [|m IH]; intros n l; [reflexivity|].
  destruct l as [|a l]; cbn [skipn plus]; [apply skipn_nil|apply IH].
Qed.
Lemma at_skip k j file : at_ k (skipn j file) = at_ (j + k) file.
Proof.
  unfold at_. revert file. induction j as [|j IH]; intros file; [reflexivity|].
  destruct file as [|b file]; cbn [skipn plus nth]; [destruct k; reflexivity|apply IH].
Qed.
Lemma file_skip j file : a_file file -> a_file (skipn j file).
Proof. intros H. rewrite <- (firstn_skipn j file) in H. apply Forall_app in H. exact (proj2 H). Qed.
Lemma file_at k file : a_file file -> 0 <= at_ k file < 256.
Proof.
  intros H. unfold at_. destruct (Nat.lt_ge_cases k (List.length file)) as [L|L].
  - exact (proj1 (Forall_nth _ _) H k 0 L).
  - rewrite nth_overflow by exact L. lia.
Qed.
Lemma low_byte b : 0 <= b < 256 -> b8 b = b.
Proof. intros H. unfold b8. change 255 with (Z.ones 8). rewrite Z.land_ones by lia. apply Z.mod_small. lia. Qed.
Lemma number_range k file : a_file file -> 0 <= number32 k file < 2 ^ 32.
Proof.
  intros H. pose proof (file_at k file H). pose proof (file_at (k + 1) file H). pose proof (file_at (k + 2) file H).
  pose proof (file_at (k + 3) file H). unfold number32. lia.
Qed.

Lemma len_nat {A} (l : list A) n : (zlen l <? Z.of_nat n) = (List.length l <? n)%nat.
Proof. unfold zlen. destruct (Z.ltb_spec (Z.of_nat (List.length l)) (Z.of_nat n)), (Nat.ltb_spec (List.length l) n); lia || reflexivity. Qed.

(** For examples. *)
Lemma file_checked file : forallb (fun b => (0 <=? b) && (b <? 256)) file = true -> a_file file.
Proof. intros H. apply Forall_forall. intros b I. rewrite forallb_forall in H. specialize (H b I). apply andb_true_iff in H. lia. Qed.

(** The integer readers: the number if the bytes are there, and the stream moves on. *)
Lemma read8_is s : read_int_8 s = (if zlen s <? 1 then None else Some (at_ 0 s), skipn 1 s).
Proof. pose proof (len_nat s 1) as LN; change (Z.of_nat 1) with 1 in LN; rewrite LN; clear LN. destruct s; reflexivity. Qed.
Lemma read16be_is s : exists v, read_int_16be s = (if zlen s <? 2 then None else Some v, skipn 2 s).
Proof. pose proof (len_nat s 2) as LN; change (Z.of_nat 2) with 2 in LN; rewrite LN; clear LN. destruct s as [|a [|b s]]; eexists; reflexivity. Unshelve. all: exact 0. Qed.
Lemma read24le_is s : exists v, read_int_24le s = (if zlen s <? 3 then None else Some v, skipn 3 s).
Proof. pose proof (len_nat s 3) as LN; change (Z.of_nat 3) with 3 in LN; rewrite LN; clear LN. destruct s as [|a [|b [|c s]]]; eexists; reflexivity. Unshelve. all: exact 0. Qed.
Lemma read32le_is s : a_file s -> read_int_32le s = (if zlen s <? 4 then None else Some (number32 0 s), skipn 4 s).
Proof.
  intros F. pose proof (len_nat s 4) as LN; change (Z.of_nat 4) with 4 in LN; rewrite LN; clear LN. destruct s as [|a [|b [|c [|d s]]]]; try reflexivity.
  pose proof (file_at 0 _ F) as A. pose proof (file_at 1 _ F) as B. pose proof (file_at 2 _ F) as C. pose proof (file_at 3 _ F) as D.
  cbn in A, B, C, D. unfold read_int_32le, number32, at_. cbn [firstn nth skipn plus List.length Nat.ltb Nat.leb].
  rewrite !low_byte, !Z.shiftl_mul_pow2 by lia. f_equal. f_equal. lia.
Qed.
Lemma zlen_skip {A} n (l : list A) : zlen (skipn n l) = Z.max 0 (zlen l - Z.of_nat n).
Proof. unfold zlen. rewrite skipn_length. lia. Qed.
Lemma zlen_nonneg {A} (l : list A) : 0 <= zlen l.
Proof. unfold zlen. lia. Qed.

(** ** JEF *)
Lemma jef_colors_outcome {T} (thread_of : Z -> T) : forall n s, a_file s ->
  if (n =? 0)%nat || (4 * Z.of_nat n <=? zlen s) then exists t, jef_read_colors thread_of n s = Ok t /\ zlen t = Z.of_nat n
  else jef_read_colors thread_of n s = Err TypeError.
Proof.
  induction n as [|n IH]; intros s F; [exists []; split; reflexivity|]. cbn [Nat.eqb orb jef_read_colors].
  rewrite (read32le_is s F). pose proof (IH _ (file_skip 4 s F)) as I. rewrite zlen_skip in I.
  destruct (Z.ltb_spec (zlen s) 4); destruct (Z.leb_spec (4 * Z.of_nat (S n)) (zlen s)); try lia; try reflexivity.
  - replace ((n =? 0)%nat || (4 * Z.of_nat n <=? Z.max 0 (zlen s - Z.of_nat 4))) with true in I
      by (symmetry; apply Bool.orb_true_iff; right; apply Z.leb_le; lia).
    destruct I as (t & -> & L). cbn [bindr]. eexists. split; [reflexivity|].
    unfold zlen in *. cbn [List.length]. lia.
  - replace ((n =? 0)%nat || (4 * Z.of_nat n <=? Z.max 0 (zlen s - Z.of_nat 4))) with false in I.
    + rewrite I. reflexivity.
    + symmetry. apply Bool.orb_false_iff. split; [apply Nat.eqb_neq|apply Z.leb_gt]; lia.
Qed.

Lemma remove_length {A} : forall n (l : list A) a, nth_error l n = Some a -> S (List.length (remove_nth n l)) = List.length l.
Proof.
  induction n as [|n IH]; intros [|b l] a H; try discriminate; [reflexivity|].
  cbn [remove_nth List.length]. cbn [nth_error] in H. rewrite (IH l a H). reflexivity.
Qed.
Lemma changes_nonneg : forall s, 0 <= jef_changes s.
Proof.
  enough (H : forall n s, (List.length s <= n)%nat -> 0 <= jef_changes s) by (intros s; exact (H _ s (Nat.le_refl _))).
  induction n as [|n IH]; intros s L; [destruct s; [cbn; lia|cbn in L; lia]|].
  destruct s as [|a [|b r]]; cbn [jef_changes]; try lia. cbn [List.length] in L.
  destruct (negb (a =? 0x80)); [apply IH; lia|]. destruct r as [|c [|d r]]; try lia. cbn [List.length] in L.
  pose proof (IH r ltac:(lia)). destruct (b =? 2); [lia|]. destruct (b =? 1); lia.
Qed.
(** [i] is color_index: at least as many entries as thread changes must be left behind it. *)
Lemma jef_loop_outcome {T} : forall n s (threads : list (option T)) i, (List.length s <= n)%nat ->
  if jef_changes s <=? Z.max 0 (zlen threads - Z.of_nat i) then exists r, jef_read_loop threads i s = Ok r
  else jef_read_loop threads i s = Err IndexError.
Proof.
  induction n as [|n IH]; intros s threads i L.
  { destruct s; [|cbn in L; lia]. cbn [jef_changes jef_read_loop]. destruct (Z.leb_spec 0 (Z.max 0 (zlen threads - Z.of_nat i))); [eauto|lia]. }
  assert (N : forall v : Z, v = 0 -> if v <=? Z.max 0 (zlen threads - Z.of_nat i) then exists r : list rel * list (option T), @Ok (list rel * list (option T)) ([], threads) = Ok r
    else @Ok (list rel * list (option T)) ([], threads) = Err IndexError).
  { intros v ->. destruct (Z.leb_spec 0 (Z.max 0 (zlen threads - Z.of_nat i))); [eauto|lia]. }
  destruct s as [|a [|b r]]; cbn [jef_changes jef_read_loop]; try (apply N; reflexivity). cbn [List.length] in L.
  destruct (negb (a =? 0x80)).
  { pose proof (IH r threads i ltac:(lia)) as I. destruct (_ <=? _); [destruct I as ((t & th) & ->)|rewrite I]; cbn [bindr]; eauto. }
  destruct r as [|c [|d r]]; try (apply N; reflexivity). cbn [List.length] in L.
  destruct (b =? 2).
  { pose proof (IH r threads i ltac:(lia)) as I. destruct (_ <=? _); [destruct I as ((t & th) & ->)|rewrite I]; cbn [bindr]; eauto. }
  destruct (b =? 1); [|apply N; reflexivity].
  pose proof (changes_nonneg r) as C.
  destruct (nth_error threads i) as [[t|]|] eqn:E.
  - pose proof (IH r threads (S i) ltac:(lia)) as I.
    assert (i < List.length threads)%nat by (apply nth_error_Some; rewrite E; discriminate).
    replace (1 + jef_changes r <=? Z.max 0 (zlen threads - Z.of_nat i)) with (jef_changes r <=? Z.max 0 (zlen threads - Z.of_nat (S i)))
      by (unfold zlen; destruct (Z.leb_spec (jef_changes r) (Z.max 0 (Z.of_nat (List.length threads) - Z.of_nat (S i))));
          destruct (Z.leb_spec (1 + jef_changes r) (Z.max 0 (Z.of_nat (List.length threads) - Z.of_nat i))); lia || reflexivity).
    destruct (_ <=? _); [destruct I as ((t' & th) & ->)|rewrite I]; cbn [bindr]; eauto.
  - pose proof (IH r (remove_nth i threads) i ltac:(lia)) as I. pose proof (remove_length _ _ _ E) as RL.
    assert (i < List.length threads)%nat by (apply nth_error_Some; rewrite E; discriminate).
    replace (1 + jef_changes r <=? Z.max 0 (zlen threads - Z.of_nat i)) with (jef_changes r <=? Z.max 0 (zlen (remove_nth i threads) - Z.of_nat i))
      by (unfold zlen; destruct (Z.leb_spec (jef_changes r) (Z.max 0 (Z.of_nat (List.length (remove_nth i threads)) - Z.of_nat i)));
          destruct (Z.leb_spec (1 + jef_changes r) (Z.max 0 (Z.of_nat (List.length threads) - Z.of_nat i))); lia || reflexivity).
    destruct (_ <=? _); [destruct I as ((t' & th) & ->)|rewrite I]; cbn [bindr]; eauto.
  - apply nth_error_None in E. destruct (Z.leb_spec (1 + jef_changes r) (Z.max 0 (zlen threads - Z.of_nat i))); [unfold zlen in *; lia|reflexivity].
Qed.

(** The three outcomes. *)
Theorem jef_outcome {T} (thread_of : Z -> T) file : a_file file ->
  let count := number32 24 file in
  let stitches := skipn (Z.to_nat (number32 0 file)) file in
  if (zlen file <? 28) || negb (count =? 0) && (zlen file <? 116 + 4 * count) then jef_read thread_of file = Err TypeError
  else if Z.max 1 count <=? jef_changes stitches then jef_read thread_of file = Err IndexError
  else exists l threads, jef_read thread_of file = Ok (l, threads).
Proof.
  intros F count stitches. unfold jef_read. rewrite (read32le_is _ F), (read32le_is _ (file_skip 24 _ F)), zlen_skip.
  pose proof (number_range 24 file F) as R. fold count in R.
  replace (number32 0 (skipn 24 file)) with count by (unfold number32; rewrite !at_skip; reflexivity).
  destruct (Z.ltb_spec (zlen file) 28) as [A|A]; cbn [orb].
  { destruct (zlen file <? 4); destruct (Z.ltb_spec (Z.max 0 (zlen file - Z.of_nat 24)) 4); try lia; reflexivity. }
  destruct (Z.ltb_spec (zlen file) 4); [lia|]. destruct (Z.ltb_spec (Z.max 0 (zlen file - Z.of_nat 24)) 4); [lia|].
  pose proof (jef_colors_outcome thread_of (Z.to_nat count) _ (file_skip 116 _ F)) as J. rewrite zlen_skip, Z2Nat.id in J by lia.
  fold stitches.
  destruct (Z.eqb_spec count 0) as [E|E]; cbn [negb andb].
  - assert (S0 : (Z.to_nat count =? 0)%nat = true) by (rewrite E; reflexivity). rewrite S0 in J. cbn [orb] in J. destruct J as (t & -> & L). cbn [bindr].
    unfold jef_read_stitches. pose proof (jef_loop_outcome (List.length stitches) stitches t 1 (Nat.le_refl _)) as O.
    rewrite L in O. rewrite E in *. change (Z.max 0 (0 - Z.of_nat 1)) with 0 in O. change (Z.max 1 0) with 1.
    pose proof (changes_nonneg stitches). destruct (Z.leb_spec (jef_changes stitches) 0), (Z.leb_spec 1 (jef_changes stitches)); try lia.
    + destruct O as ((r & th) & ->). cbn [bindr]. eauto.
    + rewrite O. reflexivity.
  - assert (S0 : (Z.to_nat count =? 0)%nat = false) by (apply Nat.eqb_neq; lia). rewrite S0 in J. cbn [orb] in J.
    destruct (Z.ltb_spec (zlen file) (116 + 4 * count)); destruct (Z.leb_spec (4 * count) (Z.max 0 (zlen file - Z.of_nat 116))); try lia.
    + rewrite J. reflexivity.
    + destruct J as (t & -> & L). cbn [bindr]. unfold jef_read_stitches.
      pose proof (jef_loop_outcome (List.length stitches) stitches t 1 (Nat.le_refl _)) as O. rewrite L in O.
      pose proof (changes_nonneg stitches).
      destruct (Z.leb_spec (jef_changes stitches) (Z.max 0 (count - Z.of_nat 1))), (Z.leb_spec (Z.max 1 count) (jef_changes stitches)); try lia.
      * destruct O as ((r & th) & ->). cbn [bindr]. eauto.
      * rewrite O. reflexivity.
Qed.

(** ** TBF *)
Lemma tbf_loop_outcome : forall n s order, (List.length s <= n)%nat ->
  if tbf_needles s <=? zlen order then exists r, tbf_read_loop order s = Ok r else tbf_read_loop order s = Err IndexError.
Proof.
  induction n as [|n IH]; intros s order L.
  { destruct s; [|cbn in L; lia]. cbn. pose proof (zlen_nonneg order). destruct (Z.leb_spec 0 (zlen order)); [eauto|lia]. }
  assert (N : if 0 <=? zlen order then exists r : list rel, Ok [] = Ok r else @Ok (list rel) [] = Err IndexError).
  { pose proof (zlen_nonneg order). destruct (Z.leb_spec 0 (zlen order)); [eauto|lia]. }
  destruct s as [|x [|y [|k r]]]; cbn [tbf_needles tbf_read_loop]; try exact N. cbn [List.length] in L.
  pose proof (fun o => IH r o ltac:(lia)) as I.
  assert (G : forall f : list rel -> res (list rel), (forall t, exists r, f t = Ok r) ->
    if tbf_needles r <=? zlen order then exists r', (do t <- tbf_read_loop order r; f t) = Ok r'
    else (do t <- tbf_read_loop order r; f t) = Err IndexError).
  { intros f Hf. pose proof (I order) as J. cbv beta in J. destruct (tbf_needles r <=? zlen order); [destruct J as (t & ->); cbn [bindr]; apply Hf|rewrite J; reflexivity]. }
  destruct (Z.eqb_spec k 0x80) as [->|H80]; [cbn [Z.eqb Pos.eqb orb]; apply G; eauto|].
  destruct (Z.eqb_spec k 0x81) as [->|H81].
  - destruct order as [|o order].
    + assert (0 <= tbf_needles r).
      { clear. enough (H : forall n s, (List.length s <= n)%nat -> 0 <= tbf_needles s) by exact (H _ r (Nat.le_refl _)).
        induction n as [|n IH]; intros s L; [destruct s; [cbn; lia|cbn in L; lia]|].
        destruct s as [|a [|b [|c s]]]; cbn [tbf_needles]; try lia. cbn [List.length] in L. pose proof (IH s ltac:(lia)).
        destruct (c =? 0x81); [lia|]. destruct (_ || _); lia. }
      change (zlen (@nil Z)) with 0. destruct (Z.leb_spec (1 + tbf_needles r) 0); [lia|reflexivity].
    + replace (1 + tbf_needles r <=? zlen (o :: order)) with (tbf_needles r <=? zlen order)
        by (unfold zlen; cbn [List.length]; destruct (Z.leb_spec (tbf_needles r) (Z.of_nat (List.length order)));
            destruct (Z.leb_spec (1 + tbf_needles r) (Z.of_nat (S (List.length order)))); lia || reflexivity).
      pose proof (I order) as J. cbv beta in J. destruct (tbf_needles r <=? zlen order); [destruct J as (t & ->); cbn [bindr]; destruct (o =? 0); eauto|rewrite J; reflexivity].
  - cbn [orb]. destruct (k =? 0x90); cbn [orb]; [apply G; intros t; destruct (_ && _); eauto|].
    destruct (k =? 0x40); cbn [orb]; [apply G; eauto|]. destruct (k =? 0x86); [apply G; eauto|exact N].
Qed.
Theorem tbf_outcome file :
  match utf8_decode (firstn 16 (skipn 0x83 file)) with
  | None => tbf_read_file file = Err AttributeError
  | Some _ =>
      if Z.min 256 (Z.max 0 (zlen file - 0x10A)) <? tbf_needles (skipn 0x600 file) then tbf_read_file file = Err IndexError
      else exists r, tbf_read_file file = Ok r
  end.
Proof.
  unfold tbf_read_file. change 0x10 with 16. destruct (utf8_decode _) as [name|]; [|reflexivity].
  pose proof (tbf_loop_outcome _ (skipn 0x600 file) (firstn 0x100 (skipn 0x10A file)) (Nat.le_refl _)) as O.
  assert (L : zlen (firstn 0x100 (skipn 0x10A file)) = Z.min 256 (Z.max 0 (zlen file - 0x10A))).
  { unfold zlen. rewrite firstn_length, skipn_length. lia. }
  rewrite L in O. unfold tbf_read.
  destruct (Z.leb_spec (tbf_needles (skipn 0x600 file)) (Z.min 256 (Z.max 0 (zlen file - 0x10A))));
    destruct (Z.ltb_spec (Z.min 256 (Z.max 0 (zlen file - 0x10A))) (tbf_needles (skipn 0x600 file))); try lia.
  - destruct O as (r & ->). cbn [bindr]. eauto.
  - rewrite O. reflexivity.
Qed.

(** ** XXX *)
Lemma xxx_none : ~ xxx_ended [].
Proof. intros (rs & m & rest & E & F & M). destruct M; destruct rs as [|[|a r] rs]; cbn in E; try discriminate; inversion F; inversion H1. Qed.
Lemma xxx_head a s : xxx_ended (a :: s) ->
  (exists r rest, xxx_record r /\ a :: s = r ++ rest /\ xxx_ended rest) \/ exists m rest, xxx_mark m /\ a :: s = m ++ rest.
Proof.
  intros (rs & m & rest & E & F & M). destruct rs as [|r rs].
  - right. exists m, rest. split; [exact M|exact E].
  - left. inversion F; subst. exists r, (concat rs ++ m ++ rest). split; [assumption|]. split; [rewrite E; cbn [concat]; rewrite <- app_assoc; reflexivity|].
    exists rs, m, rest. auto.
Qed.
Lemma xxx_more r s : xxx_record r -> xxx_ended s -> xxx_ended (r ++ s).
Proof. intros R (rs & m & rest & -> & F & M). exists (r :: rs), m, rest. cbn [concat]. rewrite <- app_assoc. auto. Qed.

Lemma xxx_loop_outcome : forall n s, (List.length s <= n)%nat ->
  (xxx_ended s /\ exists r, xxx_read_loop s = Ok r) \/ (~ xxx_ended s /\ xxx_read_loop s = Err TypeError).
Proof.
  induction n as [|n IH]; intros s L.
  { destruct s; [|cbn in L; lia]. right. split; [exact xxx_none|reflexivity]. }
  destruct s as [|a s]; [right; split; [exact xxx_none|reflexivity]|]. cbn [List.length] in L. cbn [xxx_read_loop].
  (* a record in front: both sides as for the rest *)
  assert (G : forall (r rest : list Z) (f : list rel * list Z -> res (list rel * list Z)), a :: s = r ++ rest -> xxx_record r ->
    (List.length rest <= n)%nat -> (forall t, exists v, f t = Ok v) ->
    (forall r' rest', a :: s = r' ++ rest' -> xxx_record r' -> rest' = rest) -> (forall m rest', a :: s = m ++ rest' -> ~ xxx_mark m) ->
    (xxx_ended (a :: s) /\ exists v, (do t <- xxx_read_loop rest; f t) = Ok v) \/
    (~ xxx_ended (a :: s) /\ (do t <- xxx_read_loop rest; f t) = Err TypeError)).
  { intros r rest f E R Lr Hf U NM. destruct (IH rest Lr) as [[X (v & ->)]|[X ->]]; cbn [bindr].
    - left. split; [rewrite E; apply xxx_more; assumption|apply Hf].
    - right. split; [|reflexivity]. intros Y. apply xxx_head in Y as [(r' & rest' & R' & E' & Y)|(m & rest' & M & E')].
      + rewrite (U r' rest' E' R') in Y. contradiction.
      + exact (NM m rest' E' M). }
  destruct ((a =? 0x7D) || (a =? 0x7E)) eqn:Ea.
  - assert (Ha : a = 0x7D \/ a = 0x7E) by (apply Bool.orb_true_iff in Ea; rewrite !Z.eqb_eq in Ea; exact Ea).
    assert (U : forall r' rest', a :: s = r' ++ rest' -> xxx_record r' -> exists b c d e, s = b :: c :: d :: e :: rest').
    { intros r' rest' E R. destruct R as [a' b N1 N2 N3|a' b c d e H'|b c d N1 N2]; cbn [app] in E; injection E; intros; try lia. exists b, c, d, e. assumption. }
    assert (NM : forall m rest', a :: s = m ++ rest' -> ~ xxx_mark m) by (intros m rest' E M; destruct M; cbn [app] in E; injection E; intros; lia).
    assert (Short : (List.length s < 4)%nat -> ~ xxx_ended (a :: s)).
    { intros Ls Y. apply xxx_head in Y as [(r' & rest' & R' & E' & _)|(m & rest' & M & E')].
      - destruct (U r' rest' E' R') as (b & c & d & e & ->). cbn in Ls. lia.
      - exact (NM m rest' E' M). }
    destruct s as [|b [|c [|d [|e r]]]]; try (right; split; [apply Short; cbn; lia|reflexivity]).
    cbn [List.length] in L.
    apply (G [a; b; c; d; e] r (fun '(t, q) => Ok (mkS _ _ JUMP :: t, q))); [reflexivity|constructor; exact Ha|lia|intros [t q]; eauto| |exact NM].
    intros r' rest' E R. destruct (U r' rest' E R) as (b' & c' & d' & e' & E'). congruence.
  - apply Bool.orb_false_iff in Ea. rewrite !Z.eqb_neq in Ea. destruct Ea as [Na Nb].
    destruct s as [|b s].
    { right. split; [|reflexivity]. intros Y. apply xxx_head in Y as [(r' & rest' & R' & E' & _)|(m & rest' & M & E')].
      - destruct R'; cbn [app] in E'; injection E'; intros; try discriminate; lia.
      - destruct M; discriminate. }
    destruct (Z.eqb_spec a 0x7F) as [->|N7]; cbn [negb].
    + assert (UM : forall m rest', 0x7F :: b :: s = m ++ rest' -> xxx_mark m -> b = 0x7F \/ b = 0x18)
        by (intros m rest' E M; destruct M; cbn [app] in E; injection E; intros; lia).
      assert (U : forall r' rest', 0x7F :: b :: s = r' ++ rest' -> xxx_record r' -> b <> 0x7F /\ b <> 0x18 /\ exists c d, s = c :: d :: rest').
      { intros r' rest' E R. destruct R as [a' b' N1 N2 N3|a' b' c d e H'|b' c d N1 N2]; cbn [app] in E; injection E; intros; subst; try lia. eauto. }
      assert (End : b = 0x7F \/ b = 0x18 -> xxx_ended (0x7F :: b :: s)).
      { intros H. exists [], [0x7F; b], s. split; [reflexivity|]. split; [constructor|]. destruct H as [-> | ->]; constructor. }
      destruct s as [|c [|d r]].
      1, 2: (destruct (Z.eqb_spec b 0x7F) as [E7|N1]; cbn [orb]; [left; split; [apply End; auto|eexists; reflexivity]|];
        destruct (Z.eqb_spec b 0x18) as [E8|N2]; [left; split; [apply End; auto|eexists; reflexivity]|];
        right; split; [|reflexivity]; intros Y; apply xxx_head in Y as [(r' & rest' & R' & E' & _)|(m & rest' & M & E')];
        [destruct (U r' rest' E' R') as (_ & _ & c' & d' & E''); discriminate|destruct (UM m rest' E' M); lia]).
      cbn [List.length] in L.
      assert (K : b <> 0x7F -> b <> 0x18 -> forall f : list rel * list Z -> res (list rel * list Z), (forall t, exists v, f t = Ok v) ->
        (xxx_ended (0x7F :: b :: c :: d :: r) /\ exists v, (do t <- xxx_read_loop r; f t) = Ok v) \/
        (~ xxx_ended (0x7F :: b :: c :: d :: r) /\ (do t <- xxx_read_loop r; f t) = Err TypeError)).
      { intros N1 N2 f Hf. apply (G [0x7F; b; c; d] r f); [reflexivity|constructor; assumption|lia|exact Hf| |].
        - intros r' rest' E R. destruct (U r' rest' E R) as (_ & _ & c' & d' & E'). congruence.
        - intros m rest' E M. destruct (UM m rest' E M); lia. }
      destruct (Z.eqb_spec b 1) as [->|B1]; [apply K; try lia; intros [t q]; eauto|].
      destruct (Z.eqb_spec b 3) as [->|B3].
      { apply K; try lia. intros [t q]. destruct (_ || _); eauto. }
      destruct ((b =? 8) || (0xA <=? b) && (b <=? 0x17)) eqn:B8.
      { apply K; [intros ->; discriminate|intros ->; discriminate|]. intros [t q]; eauto. }
      destruct (Z.eqb_spec b 0x7F) as [E7|N1]; [left; split; [apply End; auto|eauto]|].
      destruct (Z.eqb_spec b 0x18) as [E8|N2]; [left; split; [apply End; auto|eauto]|].
      pose proof (K N1 N2 (fun t => Ok t) ltac:(eauto)) as J.
      destruct (IH r ltac:(lia)) as [[X (v & Ev)]|[X Ev]]; rewrite Ev in *; cbn [bindr] in J.
      * destruct J as [[J _]|[_ J]]; [left; eauto|discriminate].
      * destruct J as [[_ (v & J)]|[J _]]; [discriminate|right; auto].
    + apply (G [a; b] s (fun '(t, q) => Ok (mkS _ _ STITCH :: t, q))); [reflexivity|constructor; assumption|cbn [List.length] in L; lia|intros [t q]; eauto| |].
      * intros r' rest' E R. destruct R as [a' b' N1 N2 N3|a' b' c d e H'|b' c d N1 N2]; cbn [app] in E; injection E; intros; subst; try lia. reflexivity.
      * intros m rest' E M. destruct M; cbn [app] in E; injection E; intros; lia.
Qed.
Theorem xxx_outcome file :
  (xxx_ended (skipn 0x100 file) /\ exists l threads, xxx_read_file file = Ok (l, threads)) \/
  (~ xxx_ended (skipn 0x100 file) /\ xxx_read_file file = Err TypeError).
Proof.
  unfold xxx_read_file, xxx_read. destruct (xxx_loop_outcome _ (skipn 0x100 file) (Nat.le_refl _)) as [[X ((l & q) & ->)]|[X ->]].
  - left. split; [exact X|]. cbn [bindr].
    assert (zlen file > 0x29).
    { destruct (Z.leb_spec (zlen file) 0x29); [|lia]. exfalso. assert (skipn 0x100 file = []) as E by (apply skipn_all2; unfold zlen in *; lia).
      rewrite E in X. exact (xxx_none X). }
    unfold read_int_16le. destruct (skipn 0x27 file) as [|b0 [|b1 r]] eqn:E.
    + apply (f_equal (@List.length Z)) in E. rewrite skipn_length in E. unfold zlen in *. cbn in E. lia.
    + apply (f_equal (@List.length Z)) in E. rewrite skipn_length in E. unfold zlen in *. cbn in E. lia.
    + cbn [firstn]. eauto.
  - right. split; [exact X|]. destruct (read_int_16le _) as [[v|] r]; reflexivity.
Qed.

(** A file cut before the mark is refused. *)
Lemma record_same r r' x y : xxx_record r -> xxx_record r' -> r ++ x = r' ++ y -> x = y.
Proof.
  intros R R' E. destruct R as [a b N1 N2 N3|a b c d e H'|b c d N1 N2]; destruct R' as [a' b' N1' N2' N3'|a' b' c' d' e' H''|b' c' d' N1' N2'];
    cbn [app] in E; injection E; intros; subst; try lia; reflexivity.
Qed.
Lemma cut_not_ended : forall rs, Forall xxx_record rs -> forall s t, concat rs = s ++ t -> ~ xxx_ended s.
Proof.
  induction 1 as [|r rs R F IH]; intros s t E.
  - cbn in E. destruct s; [exact xxx_none|discriminate].
  - destruct s as [|a s]; [exact xxx_none|]. intros X. apply xxx_head in X as [(r' & rest & R' & E' & X)|(m & rest & M & E')].
    + cbn [concat] in E. rewrite E', <- app_assoc in E. apply (record_same _ _ _ _ R R') in E. exact (IH rest t E X).
    + cbn [concat] in E. rewrite E', <- app_assoc in E. clear IH E'.
      destruct R, M; cbn [app] in E; injection E; intros; lia.
Qed.
