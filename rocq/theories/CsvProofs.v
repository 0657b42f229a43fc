From Coq Require Import Ascii String ZArith List Bool Lia.
From Verif Require Import PyBase EmbConst BitLemmas ThreadModel ThreadProofs Utf8Model Utf8Proofs TextModel TextProofs
  NameModel NameProofs PatternModel ColorFileModel CsvModel.
Import ListNotations.
Open Scope Z_scope.

(** A character that can stand in a cell. *)
Definition cell_char (c : Z) : Prop := scalar c /\ c <> 34 /\ c <> 13.
Definition cell_text (t : text) : Prop := Forall cell_char t /\ zlen t <= 131072.

Lemma quoted_cell v field row rest : Forall cell_char v -> zlen field + zlen v <= 131072 ->
  csv_rows InQuoted field row (v ++ 34 :: rest) = csv_rows QuoteInQuoted (field ++ v) row rest.
Proof.
  revert field. induction v as [|c v IH]; intros field H L; cbn [app csv_rows].
  - rewrite Z.eqb_refl, app_nil_r. reflexivity.
  - inversion H as [|? ? [_ [Hc _]] Hv]; subst. destruct (Z.eqb_spec c 34); [congruence|].
    unfold zlen in *. cbn [List.length] in L.
    destruct (Z.leb_spec field_limit (Z.of_nat (List.length field))); [unfold field_limit in *; lia|].
    rewrite IH.
    + rewrite <- app_assoc. reflexivity.
    + exact Hv.
    + rewrite app_length; cbn [List.length]. lia.
Qed.

(** The rest of a row after its first cell, and the end of the line. *)
Fixpoint tail_cells (vs : list text) : text :=
  match vs with [] => [10] | v :: r => 44 :: 34 :: v ++ 34 :: tail_cells r end.
Lemma csv_join_tail vs s : s <> [] -> csv_join s vs ++ [10] = s ++ tail_cells vs.
Proof.
  revert s. induction vs as [|v r IH]; intros s H; cbn [csv_join tail_cells]; [reflexivity|].
  destruct s as [|c s']; [congruence|]. destruct (Z.ltb_spec 0 (zlen (c :: s'))) as [_|K]; [|unfold zlen in K; cbn in K; lia].
  rewrite IH; [|intros E; apply app_eq_nil in E as [E _]; discriminate].
  repeat first [rewrite <- app_assoc | progress cbn [app]]. reflexivity.
Qed.
Lemma csv_row_cells v vs : csv_row (v :: vs) = 34 :: v ++ 34 :: tail_cells vs.
Proof.
  unfold csv_row. cbn [csv_join zlen List.length Z.of_nat Z.ltb Z.compare app]. rewrite csv_join_tail by discriminate.
  cbn [app]. rewrite <- app_assoc. reflexivity.
Qed.

Lemma tail_cells_rows vs field row rest : Forall cell_text vs ->
  csv_rows QuoteInQuoted field row (tail_cells vs ++ rest) =
  Ok (row ++ field :: vs) :: csv_rows StartRecord [] [] rest.
Proof.
  revert field row. induction vs as [|v r IH]; intros field row H; cbn [tail_cells app csv_rows Z.eqb Pos.eqb].
  - reflexivity.
  - inversion H as [|? ? [Hv Lv] Hr]; subst.
    rewrite <- app_assoc. cbn [app]. rewrite quoted_cell by (try exact Hv; unfold zlen; cbn [List.length]; unfold zlen in Lv; lia).
    cbn [app]. rewrite IH by exact Hr. unfold save. rewrite <- app_assoc. reflexivity.
Qed.

Lemma csv_row_read v vs rest : Forall cell_text (v :: vs) ->
  csv_rows StartRecord [] [] (csv_row (v :: vs) ++ rest) = Ok (v :: vs) :: csv_rows StartRecord [] [] rest.
Proof.
  intros H. inversion H as [|? ? [Hv Lv] Hr]; subst. rewrite csv_row_cells. cbn [app csv_rows Z.eqb Pos.eqb].
  rewrite <- app_assoc. cbn [app]. rewrite quoted_cell by (try exact Hv; unfold zlen; cbn [List.length]; unfold zlen in Lv; lia).
  cbn [app]. rewrite tail_cells_rows by exact Hr. reflexivity.
Qed.

(** ** Lengths of numbers *)
Lemma nb_double d : (Decimal.nb_digits (Decimal.Little.double d) <= S (Decimal.nb_digits d))%nat /\
  (Decimal.nb_digits (Decimal.Little.succ_double d) <= S (Decimal.nb_digits d))%nat.
Proof. induction d; cbn [Decimal.Little.double Decimal.Little.succ_double Decimal.nb_digits] in *; lia. Qed.
Lemma nb_little p : (Decimal.nb_digits (Pos.to_little_uint p) <= Pos.size_nat p)%nat.
Proof.
  induction p as [p IH|p IH|]; cbn [Pos.to_little_uint Pos.size_nat].
  - pose proof (proj2 (nb_double (Pos.to_little_uint p))). lia.
  - pose proof (proj1 (nb_double (Pos.to_little_uint p))). lia.
  - cbn. lia.
Qed.
Lemma nb_revapp d d' : Decimal.nb_digits (Decimal.revapp d d') = (Decimal.nb_digits d + Decimal.nb_digits d')%nat.
Proof. revert d'. induction d; intros d'; cbn [Decimal.revapp Decimal.nb_digits]; rewrite ?IHd; cbn [Decimal.nb_digits]; lia. Qed.
Lemma length_digits d : List.length (text_of_digits d) = Decimal.nb_digits d.
Proof. induction d; cbn [text_of_digits List.length Decimal.nb_digits]; congruence. Qed.
Lemma nb_uint p : (Decimal.nb_digits (Pos.to_uint p) <= Pos.size_nat p)%nat.
Proof. unfold Pos.to_uint, Decimal.rev. rewrite nb_revapp. cbn [Decimal.nb_digits]. pose proof (nb_little p). lia. Qed.
Lemma size_nat_bound p k : Zpos p < 2 ^ Z.of_nat k -> (Pos.size_nat p <= k)%nat.
Proof.
  revert k. induction p as [p IH|p IH|]; intros k H; cbn [Pos.size_nat].
  - destruct k as [|k]; [cbn in H; lia|]. rewrite Nat2Z.inj_succ, Z.pow_succ_r in H by lia.
    apply le_n_S, IH. lia.
  - destruct k as [|k]; [cbn in H; lia|]. rewrite Nat2Z.inj_succ, Z.pow_succ_r in H by lia.
    apply le_n_S, IH. lia.
  - destruct k as [|k]; [cbn in H; lia|]. lia.
Qed.
Lemma str_length v k : - 2 ^ Z.of_nat k < v < 2 ^ Z.of_nat k -> zlen (str_of_int v) <= 2 + Z.of_nat k.
Proof.
  intros H. unfold zlen, str_of_int. destruct v as [|p|p]; cbn [Z.to_int].
  - change (Z.of_nat (List.length (text_of_digits (Decimal.D0 Decimal.Nil)))) with 1. lia.
  - rewrite length_digits. pose proof (nb_uint p). pose proof (size_nat_bound p k ltac:(lia)). lia.
  - cbn [List.length]. rewrite length_digits. pose proof (nb_uint p). pose proof (size_nat_bound p k ltac:(lia)). lia.
Qed.

Lemma number_cell c : number_char c -> cell_char c.
Proof. unfold number_char, digit, cell_char, scalar. lia. Qed.
Lemma str_cell v : - 2 ^ 64 < v < 2 ^ 64 -> cell_text (str_of_int v).
Proof.
  intros H. split.
  - eapply Forall_impl; [|apply str_of_int_chars]. exact number_cell.
  - pose proof (str_length v 64 H). lia.
Qed.
Definition cell_charb (c : Z) : bool := (0 <=? c) && (c <? 128) && negb (c =? 34) && negb (c =? 13).
Lemma const_cell t : forallb cell_charb t = true -> (List.length t <= 1000)%nat -> cell_text t.
Proof.
  intros H L. split; [|unfold zlen; lia]. rewrite forallb_forall in H. apply Forall_forall. intros c Hc.
  specialize (H c Hc). unfold cell_charb in H. unfold cell_char, scalar.
  destruct (Z.leb_spec 0 c), (Z.ltb_spec c 128), (Z.eqb_spec c 34), (Z.eqb_spec c 13); try discriminate; lia.
Qed.
Ltac const_cell := apply const_cell; [vm_compute; reflexivity|cbn; lia].

Lemma app_cell a b : Forall cell_char a -> Forall cell_char b -> zlen a + zlen b <= 131072 -> cell_text (a ++ b).
Proof.
  intros A B L. split; [apply Forall_app; split; assumption|]. unfold zlen in *. rewrite app_length. lia.
Qed.

Definition short_entry (e : Z * text) : bool :=
  forallb cell_charb (snd e) && (Nat.leb (List.length (snd e)) 100).
Lemma entries_short : forallb short_entry common_names = true.
Proof. vm_compute. reflexivity. Qed.
Lemma name_cell c n : name_of c common_names = Some n -> Forall cell_char n /\ zlen n <= 100.
Proof.
  intros H. apply name_of_in in H. pose proof entries_short as G. rewrite forallb_forall in G. specialize (G _ H).
  unfold short_entry in G. cbn [snd] in G. apply andb_prop in G as [G1 G2]. apply Nat.leb_le in G2.
  split; [|unfold zlen; lia]. apply const_cell; [exact G1|lia].
Qed.
Lemma attribute_cell letter c k : letter = 116 \/ letter = 110 \/ letter = 111 ->
  Forall cell_char (attribute letter (if field_of c k =? 0 then None else Some (field_of c k - 1))) /\
  zlen (attribute letter (if field_of c k =? 0 then None else Some (field_of c k - 1))) <= 20.
Proof.
  intros Hl. assert (R : 0 <= field_of c k < 256) by (apply Z.mod_pos_bound; lia).
  destruct (Z.eqb_spec (field_of c k) 0); cbn [attribute].
  - split; [constructor|unfold zlen; cbn; lia].
  - split.
    + cbn [app]. constructor; [unfold cell_char, scalar; lia|]. constructor; [unfold cell_char, scalar; lia|].
      eapply Forall_impl; [|apply str_of_int_chars]. exact number_cell.
    + pose proof (str_length (field_of c k - 1) 8 ltac:(cbn; lia)). unfold zlen in *. cbn [app List.length]. lia.
Qed.
Lemma decoded_name_cell c : name_of (c mod 256) common_names <> None -> cell_text (decoded_name c).
Proof.
  intros H. unfold decoded_name, FunctionsModel.decode_embroidery_command. change COMMAND_MASK with 0xFF. rewrite land_ff.
  change THREAD_MASK with (Z.shiftl 0xFF 8). change NEEDLE_MASK with (Z.shiftl 0xFF 16).
  change ORDER_MASK with (Z.shiftl 0xFF 24). rewrite !dec_field_of by lia.
  destruct (name_of (c mod 256) common_names) as [n|] eqn:E; [|congruence].
  destruct (name_cell _ _ E) as [N1 N2].
  destruct (attribute_cell 116 c 8) as [A1 A2]; [auto|]. destruct (attribute_cell 110 c 16) as [B1 B2]; [auto|].
  destruct (attribute_cell 111 c 24) as [C1 C2]; [auto|].
  apply app_cell; [exact N1|apply Forall_app; split; [exact A1|apply Forall_app; split; assumption]|].
  unfold zlen in *. rewrite !app_length. lia.
Qed.

Lemma count_name_cell k : 0 <= k < 256 -> cell_text (count_name k).
Proof.
  intros Hk. unfold count_name. change COMMAND_MASK with 0xFF. rewrite land_ff.
  destruct (name_of (k mod 256) common_names) as [n|] eqn:E.
  - destruct (name_cell _ _ E) as [N1 N2]. apply app_cell; [|exact N1|].
    + apply (const_cell (text_of "COMMAND_")); [vm_compute; reflexivity|cbn; lia].
    + unfold zlen in *. cbn [text_of List.length]. lia.
  - apply app_cell.
    + apply (const_cell (text_of "COMMAND_UNKNOWN_")); [vm_compute; reflexivity|cbn; lia].
    + apply (str_cell (k mod 256)). lia.
    + pose proof (str_length (k mod 256) 8 ltac:(cbn; lia)). unfold zlen in *. cbn [text_of List.length]. lia.
Qed.

Definition hex_charb (c : Z) : bool := ((48 <=? c) && (c <=? 57)) || ((97 <=? c) && (c <=? 102)).
Lemma hex2_cell b : 0 <= b < 256 -> Forall cell_char (hex2 b).
Proof.
  intros H. unfold hex2. assert (D : forall n, 0 <= n < 16 -> cell_char (hex_digit n)).
  { intros n Hn. unfold hex_digit. destruct (Z.ltb_spec n 10); unfold cell_char, scalar; lia. }
  constructor; [apply D; lia|]. constructor; [apply D; lia|constructor].
Qed.
Lemma hex_color_cell c : cell_text (hex_color c).
Proof.
  unfold hex_color, get_red, get_green, get_blue. rewrite !land_ff. split.
  - cbn [app]. constructor; [unfold cell_char, scalar; lia|].
    apply Forall_app; split; [|apply Forall_app; split]; apply hex2_cell; apply Z.mod_pos_bound; lia.
  - unfold zlen, hex2. cbn. lia.
Qed.

(** ** Whole texts made of rows *)
Definition cells (row : list text) : Prop := Forall cell_text row.
Lemma rows_read rows : Forall cells rows -> csv_rows StartRecord [] [] (flat_map csv_row rows) = map Ok rows.
Proof.
  induction 1 as [|row rows Hrow _ IH]; [reflexivity|]. cbn [flat_map map].
  destruct row as [|v vs].
  - cbn [csv_row csv_join app csv_rows Z.eqb Pos.eqb]. rewrite IH. reflexivity.
  - rewrite csv_row_read by exact Hrow. rewrite IH. reflexivity.
Qed.
Definition file_char (c : Z) : Prop := scalar c /\ c <> 13.
Lemma cell_file v : cell_text v -> Forall file_char v.
Proof. intros [H _]. eapply Forall_impl; [|exact H]. unfold cell_char, file_char. tauto. Qed.
Lemma row_file row : cells row -> Forall file_char (csv_row row).
Proof.
  assert (K : forall k, In k [10; 34; 44] -> file_char k).
  { intros k H. cbn in H. unfold file_char, scalar. lia. }
  intros H. destruct row as [|v vs]; [repeat constructor; apply K; cbn; auto|].
  rewrite csv_row_cells. inversion H as [|? ? Hv Hvs]; subst.
  assert (T : Forall file_char (tail_cells vs)).
  { clear -Hvs K. induction Hvs as [|w ws Hw _ IH]; cbn [tail_cells].
    - constructor; [apply K; cbn; auto|constructor].
    - constructor; [apply K; cbn; auto|]. constructor; [apply K; cbn; auto|].
      apply Forall_app; split; [apply cell_file; exact Hw|]. constructor; [apply K; cbn; auto|exact IH]. }
  constructor; [apply K; cbn; auto|]. apply Forall_app; split; [apply cell_file; exact Hv|].
  constructor; [apply K; cbn; auto|exact T].
Qed.
Lemma rows_file rows : Forall cells rows -> Forall file_char (flat_map csv_row rows).
Proof. induction 1; cbn [flat_map]; [constructor|]. apply Forall_app; split; [apply row_file|]; assumption. Qed.

Lemma rows_round_trip rows : Forall cells rows -> exists file, utf8_encode (flat_map csv_row rows) = Ok file /\
  exists t, utf8_decode file = Some t /\ csv_rows StartRecord [] [] (universal_newlines t) = map Ok rows.
Proof.
  intros H. pose proof (rows_file rows H) as F.
  destruct (utf8_round_trip (flat_map csv_row rows)) as (file & E & _ & D).
  { eapply Forall_impl; [|exact F]. unfold file_char; tauto. }
  exists file. split; [exact E|]. exists (flat_map csv_row rows). split; [exact D|].
  rewrite universal_newlines_none.
  - apply rows_read; exact H.
  - intros K. rewrite Forall_forall in F. destruct (F _ K). congruence.
Qed.
