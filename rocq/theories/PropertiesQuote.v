(** Properties C200 and C201: the lengths in an INF file, and CSV files however their fields are quoted. *)
From Coq Require Import Ascii String.
From Coq Require Import ZArith List Bool Lia Arith.
From Verif Require Import PyBase BitLemmas HelperModel ThreadModel TextModel Utf8Model Utf8Proofs PatternModel ColorFileModel ColorFileProofs
  PropertiesColorFile CsvModel.
Import ListNotations.
Open Scope Z_scope.

(** ** C200 *)
(** The big-endian numbers of two and four bytes at a place. *)
Definition be16 (k : nat) (s : list Z) : Z := 256 * nth k s 0 + nth (k + 1) s 0.
Definition be32 (k : nat) (s : list Z) : Z := 65536 * be16 k s + be16 (k + 2) s.
(** The first [n] records of [s], each as long as its first two bytes say; None if [s] is shorter. *)
Fixpoint by_length (n : nat) (s : list Z) : option (list (list Z) * list Z) :=
  match n with
  | O => Some ([], s)
  | S n =>
      let k := Z.to_nat (be16 0 s) in
      if Nat.leb k (List.length s) && Nat.leb 2 k then
        match by_length n (skipn k s) with Some (r, q) => Some (firstn k s :: r, q) | None => None end
      else None
  end.
(** What the record of the thread at place [k] holds after its length. *)
Definition inf_body (k : Z) (t : thread) : list Z :=
  [(k / 256) mod 256; k mod 256; (t_color t / 65536) mod 256; (t_color t / 256) mod 256; t_color t mod 256;
   ((k + 1) / 256) mod 256; (k + 1) mod 256] ++ inf_description t ++ [0] ++ inf_chart t ++ [0].

Definition inf_size (threads : list thread) : Z :=
  fold_right (fun t n => 11 + Z.of_nat (List.length (inf_description t)) + Z.of_nat (List.length (inf_chart t)) + n) 0 threads.
Lemma inf_records_shape threads : Forall ascii_texts threads -> forall index, exists recs,
  inf_records index threads = Ok (concat recs) /\ Z.of_nat (List.length (concat recs)) = inf_size threads /\ List.length recs = List.length threads /\
  (forall q, by_length (List.length threads) (concat recs ++ q) = Some (recs, q)) /\
  forall k t, nth_error threads k = Some t -> exists r, nth_error recs k = Some r /\ skipn 2 r = inf_body (index + Z.of_nat k) t.
Proof.
  induction threads as [|t r IH]; intros H index.
  - exists []. split; [reflexivity|]. split; [reflexivity|]. split; [reflexivity|]. split; [reflexivity|]. intros [|k] t Hk; discriminate.
  - apply Forall_cons_iff in H as [(Hd & Hc & Hl) Hr]. destruct (IH Hr (index + 1)) as (recs & E & G & L & W & N).
    cbn [inf_records]. cbv zeta.
    change (match t_description t with Some d => d | None => unknown end) with (inf_description t).
    change (match t_chart t with Some d => d | None => unknown end) with (inf_chart t).
    set (d := inf_description t) in *. set (c := inf_chart t) in *.
    assert (Ad : Forall ascii d) by (eapply Forall_impl; [|exact Hd]; unfold ascii; intros a; cbv beta; lia).
    assert (Ac : Forall ascii c) by (eapply Forall_impl; [|exact Hc]; unfold ascii; intros a; cbv beta; lia).
    destruct (utf8_ascii d Ad) as [Ed _]. destruct (utf8_ascii c Ac) as [Ec _].
    rewrite Ed, Ec, E. cbn [bindr].
    set (rec := write_int_16be (11 + zlen d + zlen c) ++ inf_body index t).
    assert (B : inf_body index t = write_int_16be index ++ write_int_8 (get_red (t_color t)) ++ write_int_8 (get_green (t_color t))
          ++ write_int_8 (get_blue (t_color t)) ++ write_int_16be (index + 1) ++ d ++ write_int_8 0 ++ c ++ write_int_8 0).
    { unfold inf_body, write_int_16be, write_int_8, get_red, get_green, get_blue. cbn [app]. fold d c.
      unfold sh8. rewrite !land_ff, !Z.shiftr_0_r, !Z.shiftr_div_pow2, !Z.mod_mod by lia. reflexivity. }
    assert (Lr : Z.of_nat (List.length rec) = 11 + zlen d + zlen c).
    { unfold rec, inf_body. rewrite !app_length. cbn [List.length]. unfold zlen. fold d c. unfold write_int_16be. cbn [List.length]. lia. }
    exists (rec :: recs). split; [|split; [|split; [|split]]].
    + cbn [concat]. unfold rec. rewrite B, <- !app_assoc. reflexivity.
    + cbn [concat inf_size fold_right]. fold (inf_size r). fold d c. rewrite app_length. unfold zlen in Lr. lia.
    + cbn [List.length]. congruence.
    + intros q. cbn [List.length by_length concat]. rewrite <- app_assoc.
      assert (K : be16 0 (rec ++ concat recs ++ q) = 11 + zlen d + zlen c).
      { unfold be16, rec, write_int_16be. cbn [app nth Nat.add]. unfold sh8. rewrite !land_ff, Z.shiftr_0_r, Z.shiftr_div_pow2 by lia. change (2 ^ 8) with 256. unfold zlen in *. lia. }
      rewrite K, <- Lr, Nat2Z.id. rewrite app_length.
      destruct (Nat.leb_spec (List.length rec) (List.length rec + List.length (concat recs ++ q))); [|lia].
      destruct (Nat.leb_spec 2 (List.length rec)) as [_|K2]; [|unfold zlen in *; lia]. cbn [andb].
      rewrite skipn_app, skipn_all, Nat.sub_diag. cbn [skipn app]. rewrite W.
      rewrite firstn_app, firstn_all, Nat.sub_diag. cbn [firstn]. rewrite app_nil_r. reflexivity.
    + intros [|k] u Hk; cbn [nth_error] in *.
      * injection Hk as <-. exists rec. rewrite Z.add_0_r. split; [reflexivity|]. unfold rec, write_int_16be. reflexivity.
      * destruct (N k u Hk) as (x & X1 & X2). exists x. split; [exact X1|]. rewrite X2. f_equal. lia.
Qed.

(** An INF file: the numbers 1 and 8, the length of all that follows, the number of threads, and one
    record per thread, in order, which a program that goes by the recorded lengths finds exactly, with
    the number, the colour, the needle and the two texts of the thread. *)
Theorem C200_inf_lengths : forall threads, Forall ascii_texts threads ->
  16 + inf_size threads < 2 ^ 32 ->
  exists file records, inf_write threads = Ok file /\
    be32 0 file = 1 /\ be32 4 file = 8 /\ be32 8 file = Z.of_nat (List.length file) - 12 /\
    be32 12 file = Z.of_nat (List.length threads) /\
    by_length (List.length threads) (skipn 16 file) = Some (records, []) /\
    forall k t, nth_error threads k = Some t -> exists r, nth_error records k = Some r /\ skipn 2 r = inf_body (Z.of_nat k) t.
Proof.
  intros threads H Lm. destruct (inf_records_shape threads H 0) as (recs & E & G & L & W & N).
  unfold inf_write. rewrite E. cbn [bindr]. eexists. exists recs. split; [reflexivity|].
  assert (T : Z.of_nat (List.length threads) <= inf_size threads).
  { clear. unfold inf_size. induction threads; cbn [fold_right List.length]; lia. }
  assert (B32 : forall v s, 0 <= v < 2 ^ 32 -> be32 0 (write_int_32be v ++ s) = v).
  { intros v s Hv. unfold be32, be16, write_int_32be. cbn [app nth Nat.add]. unfold sh8. rewrite !land_ff, Z.shiftr_0_r, !Z.shiftr_div_pow2 by lia.
    change (2 ^ 24) with 16777216. change (2 ^ 16) with 65536. change (2 ^ 8) with 256. lia. }
  assert (B4 : forall k v s, be32 (4 + k) (write_int_32be v ++ s) = be32 k s) by reflexivity.
  assert (Z0 : 0 <= inf_size threads) by lia.
  set (tail := write_int_32be (zlen threads) ++ concat recs).
  assert (Lt : zlen tail = 4 + inf_size threads) by (unfold tail, zlen; rewrite app_length; cbn [List.length write_int_32be]; lia).
  split; [apply B32; lia|]. split; [rewrite (B4 0%nat); apply B32; lia|].
  split. { rewrite (B4 4%nat), (B4 0%nat), B32 by lia. rewrite !app_length. unfold zlen. cbn [List.length write_int_32be]. lia. }
  split. { rewrite (B4 8%nat), (B4 4%nat), (B4 0%nat). unfold tail. rewrite B32 by (unfold zlen; lia). reflexivity. }
  split; [|exact N]. specialize (W []). rewrite app_nil_r in W. exact W.
Qed.
Print Assumptions C200_inf_lengths.
Example C200_case : Forall ascii_texts [ex_red; ex_blue] /\
  exists file, inf_write [ex_red; ex_blue] = Ok file /\ be32 8 file = 4 + 17 + 25 /\ inf_body 0 ex_red = [0; 0; 255; 3; 7; 0; 1; 82; 111; 116; 0; 73; 115; 97; 0].
Proof. split; [exact C49_ex_hyps|]. eexists. split; [vm_compute; reflexivity|]. vm_compute. auto. Qed.

(** ** C201 *)
(** A field in a CSV file: as it is, if it holds no comma or line end and does not begin with a
    quotation mark; or between quotation marks, those inside it doubled. *)
Definition doubled (f : text) : text := flat_map (fun c => if c =? 34 then [34; 34] else [c]) f.
Inductive field_form : text -> text -> Prop :=
| bare f : Forall (fun c => c <> 44 /\ c <> 10 /\ c <> 13) f -> hd 0 f <> 34 -> field_form f f
| quoted f : Forall (fun c => c <> 13) f -> field_form f (34 :: doubled f ++ [34]).
(** A row: its fields with commas between them, on a line that is not empty. *)
Definition joined (ts : list text) : text :=
  match ts with [] => [] | t :: r => t ++ flat_map (fun t => 44 :: t) r end.
Definition row_form (row : list text) (t : text) : Prop :=
  t <> [] /\ exists ts, Forall2 field_form row ts /\ t = joined ts.
(** A file: the rows, each line ended in one of the three ways, the last perhaps not ended. *)
Inductive file_form : list (list text) -> text -> Prop :=
| no_rows : file_form [] []
| last_row row t : row_form row t -> file_form [row] t
| one_more row t e rows u : row_form row t -> In e [[10]; [13]; [13; 10]] -> file_form rows u -> file_form (row :: rows) (t ++ e ++ u).

Definition after (field : text) (row : list text) (rest : text) : list (res (list text)) :=
  match rest with
  | [] => [Ok (save field row)]
  | c :: r => if c =? 10 then Ok (save field row) :: csv_rows StartRecord [] [] r else csv_rows StartField [] (save field row) r
  end.
Definition stops (rest : text) : Prop := match rest with [] => True | c :: _ => c = 10 \/ c = 44 end.

Lemma in_field f : forall field row rest, Forall (fun c => c <> 44 /\ c <> 10 /\ c <> 13) f -> stops rest -> zlen field + zlen f <= 131072 ->
  csv_rows InField field row (f ++ rest) = after (field ++ f) row rest.
Proof.
  induction f as [|c f IH]; intros field row rest H S L.
  - cbn [app]. rewrite app_nil_r. destruct rest as [|c r]; [reflexivity|]. destruct S as [-> | ->]; reflexivity.
  - apply Forall_cons_iff in H as [(H1 & H2 & _) H]. cbn [app csv_rows].
    destruct (Z.eqb_spec c 10); [contradiction|]. destruct (Z.eqb_spec c 44); [contradiction|].
    unfold zlen in *. cbn [List.length] in L. destruct (Z.leb_spec field_limit (Z.of_nat (List.length field))); [unfold field_limit in *; lia|].
    rewrite IH; [rewrite <- app_assoc; reflexivity|exact H|exact S|rewrite app_length; cbn [List.length]; lia].
Qed.
Lemma in_quotes f : forall field row rest, stops rest -> zlen field + zlen f <= 131072 ->
  csv_rows InQuoted field row (doubled f ++ 34 :: rest) = after (field ++ f) row rest.
Proof.
  induction f as [|c f IH]; intros field row rest S L.
  - cbn [doubled flat_map app csv_rows]. rewrite Z.eqb_refl, app_nil_r. destruct rest as [|c r]; [reflexivity|]. destruct S as [-> | ->]; reflexivity.
  - unfold zlen in *. cbn [List.length] in L.
    assert (K : csv_rows InQuoted (field ++ [c]) row (doubled f ++ 34 :: rest) = after (field ++ c :: f) row rest).
    { rewrite IH; [rewrite <- app_assoc; reflexivity|exact S|rewrite app_length; cbn [List.length]; lia]. }
    cbn [doubled flat_map]. fold (doubled f). destruct (Z.eqb_spec c 34) as [->|Nc]; cbn [app csv_rows].
    + rewrite Z.eqb_refl. change (34 =? 10) with false. change (34 =? 44) with false. cbv iota.
      unfold zlen. destruct (Z.leb_spec field_limit (Z.of_nat (List.length field))); [unfold field_limit in *; lia|]. exact K.
    + destruct (Z.eqb_spec c 34); [contradiction|].
      unfold zlen. destruct (Z.leb_spec field_limit (Z.of_nat (List.length field))); [unfold field_limit in *; lia|]. exact K.
Qed.
Lemma field_read f t row rest st : field_form f t -> zlen f <= 131072 -> stops rest ->
  st = StartField \/ (st = StartRecord /\ row = [] /\ (t <> [] \/ exists r, rest = 44 :: r)) ->
  csv_rows st [] row (t ++ rest) = after f row rest.
Proof.
  intros F L S H. destruct F as [f B Hh|f B].
  - destruct f as [|c f].
    + cbn [app]. destruct H as [-> | (-> & -> & [N | (r & ->)])]; [|contradiction|reflexivity].
      destruct rest as [|c r]; [reflexivity|]. destruct S as [-> | ->]; reflexivity.
    + apply Forall_cons_iff in B as [(B1 & B2 & B3) B]. cbn [hd] in Hh. cbn [app].
      assert (K : csv_rows InField [c] row (f ++ rest) = after (c :: f) row rest).
      { rewrite in_field; [reflexivity|exact B|exact S|]. unfold zlen in *. cbn [List.length] in *. lia. }
      destruct H as [-> | (-> & -> & _)]; cbn [csv_rows];
        (destruct (Z.eqb_spec c 10); [contradiction|]); (destruct (Z.eqb_spec c 34); [contradiction|]); (destruct (Z.eqb_spec c 44); [contradiction|]); exact K.
  - cbn [app]. rewrite <- app_assoc. cbn [app].
    destruct H as [-> | (-> & -> & _)]; cbn [csv_rows Z.eqb Pos.eqb]; rewrite in_quotes; try exact S; try reflexivity; unfold zlen in *; cbn [List.length]; lia.
Qed.
Lemma more_fields r : forall ts row rest, Forall2 field_form r ts -> Forall (fun f => zlen f <= 131072) r -> (rest = [] \/ exists q, rest = 10 :: q) ->
  forall f, after f row (flat_map (fun t => 44 :: t) ts ++ rest) =
    Ok (row ++ f :: r) :: match rest with [] => [] | _ :: q => csv_rows StartRecord [] [] q end.
Proof.
  induction r as [|g r IH]; intros ts row rest F L E f; inversion F as [|? t ? ts' F1 F2]; subst.
  - cbn [flat_map app]. destruct E as [-> | (q & ->)]; reflexivity.
  - apply Forall_cons_iff in L as [L1 L]. cbn [flat_map app after]. change (44 =? 10) with false. cbv iota.
    assert (S : stops (flat_map (fun t => 44 :: t) ts' ++ rest)).
    { destruct ts' as [|t' ts']; cbn [flat_map app]; [destruct E as [-> | (q & ->)]; cbn; auto|cbn; auto]. }
    rewrite <- app_assoc, (field_read g t _ _ _ F1 L1 S (or_introl eq_refl)).
    rewrite IH by assumption. unfold save. rewrite <- app_assoc. reflexivity.
Qed.
Lemma row_read row t rest : row_form row t -> Forall (fun f => zlen f <= 131072) row -> (rest = [] \/ exists q, rest = 10 :: q) ->
  csv_rows StartRecord [] [] (t ++ rest) = Ok row :: match rest with [] => [] | _ :: q => csv_rows StartRecord [] [] q end.
Proof.
  intros (N & ts & F & ->) L E. destruct F as [|f t r ts F1 F2]; [contradiction|]. apply Forall_cons_iff in L as [L1 L].
  cbn [joined] in *. rewrite <- app_assoc, (field_read f t).
  - rewrite (more_fields r ts [] rest F2 L E). reflexivity.
  - exact F1.
  - exact L1.
  - destruct ts; cbn [flat_map app]; [destruct E as [-> | (q & ->)]; cbn; auto|cbn; auto].
  - right. split; [reflexivity|]. split; [reflexivity|]. destruct ts as [|t' ts]; cbn [flat_map app] in *; [left; intros ->; apply N; reflexivity|right; eauto].
Qed.

Lemma no_return_app a b : Forall (fun c => c <> 13) a -> universal_newlines (a ++ b) = a ++ universal_newlines b.
Proof.
  induction a as [|c a IH]; intros H; [reflexivity|]. apply Forall_cons_iff in H as [H1 H]. cbn [app universal_newlines].
  destruct (Z.eqb_spec c 13); [contradiction|]. rewrite IH by exact H. reflexivity.
Qed.
Lemma field_no_return f t : field_form f t -> Forall (fun c => c <> 13) t /\ hd 0 t <> 10.
Proof.
  intros [g B Hh|g B].
  - split; [eapply Forall_impl; [|exact B]; cbv beta; tauto|]. destruct g as [|c g]; [discriminate|]. apply Forall_cons_iff in B as [B _]. cbn [hd]. tauto.
  - split; [|discriminate]. constructor; [discriminate|]. apply Forall_app. split; [|constructor; [discriminate|constructor]].
    unfold doubled. induction B as [|c g Hc B IH]; [constructor|]. cbn [flat_map]. apply Forall_app. split; [|exact IH].
    destruct (c =? 34); repeat constructor; try discriminate; exact Hc.
Qed.
Lemma row_no_return row t : row_form row t -> Forall (fun c => c <> 13) t /\ exists c r, t = c :: r /\ c <> 10.
Proof.
  intros (N & ts & F & ->). assert (R : Forall (fun c => c <> 13) (joined ts)).
  { destruct F as [|f t r ts F1 F2]; [constructor|]. cbn [joined]. apply Forall_app. split; [apply (field_no_return _ _ F1)|].
    clear - F2. induction F2 as [|g t r ts F _ IH]; [constructor|]. cbn [flat_map]. constructor; [discriminate|]. apply Forall_app. split; [apply (field_no_return _ _ F)|exact IH]. }
  split; [exact R|]. destruct F as [|f t r ts F1 F2]; [contradiction|]. cbn [joined] in *. pose proof (proj2 (field_no_return _ _ F1)) as Hh.
  destruct t as [|c t]; [|exists c; eexists; split; [reflexivity|exact Hh]].
  destruct ts as [|t' ts]; [contradiction|]. cbn [flat_map app]. exists 44. eexists. split; [reflexivity|discriminate].
Qed.
Lemma file_rows rows t : file_form rows t -> Forall (Forall (fun f => zlen f <= 131072)) rows ->
  csv_rows StartRecord [] [] (universal_newlines t) = map Ok rows.
Proof.
  induction 1 as [|row t F|row t e rows u F E FF IH]; intros L.
  - reflexivity.
  - apply Forall_cons_iff in L as [L _]. pose proof (proj1 (row_no_return _ _ F)) as R.
    rewrite <- (app_nil_r t), no_return_app by exact R. cbn [universal_newlines]. rewrite (row_read row) by auto. reflexivity.
  - apply Forall_cons_iff in L as [L1 L]. pose proof (proj1 (row_no_return _ _ F)) as R. rewrite no_return_app by exact R.
    assert (G : universal_newlines (e ++ u) = 10 :: universal_newlines u).
    { destruct E as [<-|[<-|[<-|[]]]]; [reflexivity| |reflexivity]. cbn [app universal_newlines Z.eqb Pos.eqb].
      destruct FF as [|row' t' F'|row' t' e' rows' u' F' _ _]; [reflexivity| |];
        destruct (row_no_return _ _ F') as (_ & c & r & -> & Nc); cbn [app]; (destruct (Z.eqb_spec c 10); [contradiction|reflexivity]). }
    rewrite G, (row_read row) by eauto. rewrite IH by exact L. reflexivity.
Qed.

(** However the fields of a table are quoted, and whichever line ends are used: the CSV reader sees the
    rows of the table, so two files with the same table give the same pattern or the same refusal. *)
Theorem C201_same_table : forall C (zero : C) float_of other rows t1 t2 file1 file2,
  Forall (Forall (fun f => Z.of_nat (List.length f) <= 131072)) rows ->
  file_form rows t1 -> file_form rows t2 -> Forall scalar t1 -> Forall scalar t2 ->
  utf8_encode t1 = Ok file1 -> utf8_encode t2 = Ok file2 ->
  csv_read zero float_of other file1 = read_rows zero float_of other (map Ok rows) (mkLd [] [] []) /\
  csv_read zero float_of other file2 = csv_read zero float_of other file1.
Proof.
  intros C zero float_of other rows t1 t2 file1 file2 L F1 F2 S1 S2 E1 E2.
  assert (G : forall t file, file_form rows t -> Forall scalar t -> utf8_encode t = Ok file ->
    csv_read zero float_of other file = read_rows zero float_of other (map Ok rows) (mkLd [] [] [])).
  { intros t file F Sc E. destruct (utf8_round_trip t Sc) as (s & Es & _ & D). rewrite E in Es. injection Es as <-.
    unfold csv_read. rewrite D, (file_rows rows t F L). reflexivity. }
  rewrite (G t1 file1), (G t2 file2) by assumption. auto.
Qed.
Print Assumptions C201_same_table.
(** A thread with a quotation mark and a comma in its name, written in two ways: all fields quoted with
    "\n", only that one quoted with "\r\n". *)
Example C201_case :
  let rows := [[text_of "$"; text_of "0"; text_of "#FF0000"; [115; 34; 44; 98]]; [text_of "*"; text_of "0"; text_of "STITCH"; text_of "1"; text_of "2"]] in
  let t1 := flat_map (fun r => joined (map (fun f => 34 :: doubled f ++ [34]) r) ++ [10]) rows in
  let t2 := text_of "$,0,#FF0000," ++ [34; 115; 34; 34; 44; 98; 34; 13; 10] ++ text_of "*,0,STITCH,1,2" in
  file_form rows t1 /\ file_form rows t2 /\
  exists out, csv_read 0 int_of_text (fun _ => 0) t2 = Ok out /\ map l_description (d_threads out) = [Some [115; 34; 44; 98]] /\ d_stitches out = [mkS 1 2 0].
Proof.
  assert (Bare : forall f, forallb (fun c => negb (c =? 44) && negb (c =? 10) && negb (c =? 13)) f = true -> hd 0 f <> 34 -> field_form f f).
  { intros f H Hh. apply bare; [|exact Hh]. apply Forall_forall. intros c Hc. rewrite forallb_forall in H. specialize (H c Hc). lia. }
  assert (Quot : forall f, forallb (fun c => negb (c =? 13)) f = true -> field_form f (34 :: doubled f ++ [34])).
  { intros f H. apply quoted. apply Forall_forall. intros c Hc. rewrite forallb_forall in H. specialize (H c Hc). lia. }
  intros rows t1 t2. split; [|split].
  - apply (one_more _ (joined (map (fun f => 34 :: doubled f ++ [34]) (hd [] rows))) [10] _ (joined (map (fun f => 34 :: doubled f ++ [34]) (nth 1 rows [])) ++ [10] ++ [])).
    + split; [discriminate|]. eexists. split; [|reflexivity]. repeat (constructor; [apply Quot; reflexivity|]). constructor.
    + left. reflexivity.
    + apply one_more; [|left; reflexivity|constructor]. split; [discriminate|]. eexists. split; [|reflexivity].
      repeat (constructor; [apply Quot; reflexivity|]). constructor.
  - apply (one_more _ (text_of "$,0,#FF0000," ++ [34; 115; 34; 34; 44; 98; 34]) [13; 10] _ (text_of "*,0,STITCH,1,2")).
    + split; [discriminate|]. exists [text_of "$"; text_of "0"; text_of "#FF0000"; [34; 115; 34; 34; 44; 98; 34]]. split; [|reflexivity].
      do 3 (constructor; [apply Bare; [reflexivity|discriminate]|]). constructor; [apply (Quot [115; 34; 44; 98]); reflexivity|constructor].
    + right. right. left. reflexivity.
    + apply last_row. split; [discriminate|]. exists [text_of "*"; text_of "0"; text_of "STITCH"; text_of "1"; text_of "2"]. split; [|reflexivity].
      repeat (constructor; [apply Bare; [reflexivity|discriminate]|]). constructor.
  - eexists. split; [vm_compute; reflexivity|]. vm_compute. auto.
Qed.
