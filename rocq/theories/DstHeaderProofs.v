(** The header of a DST file, written and read back. *)
From Coq Require Import Ascii String Decimal DecimalFacts DecimalZ ZArith QArith Qabs List Bool Lia.
From Verif Require Import PyBase EmbConst StreamModel StreamSpec NumQ QuantModel ThreadModel ThreadProofs Utf8Model Utf8Proofs
  TextModel TextProofs PatternModel CsvModel DstModel DstSpec DstFileModel DstFileSpec BitLemmas.
Import ListNotations.
Open Scope Z_scope.

(** ** Blanks *)
Definition rstrip (t : text) : text := rev (drop_blanks (rev t)).
Lemma blank32 n : Forall (fun c => blank c = true) (repeat 32 n).
Proof. apply Forall_forall. intros c Hc. apply repeat_spec in Hc. subst. reflexivity. Qed.
Lemma drop_blanks_all t : Forall (fun c => blank c = true) t -> drop_blanks t = [].
Proof. intros H. rewrite <- (app_nil_r t), drop_blanks_app by exact H. reflexivity. Qed.
Lemma split_blanks t : exists a, t = a ++ drop_blanks t /\ Forall (fun c => blank c = true) a.
Proof.
  induction t as [|c r (a & E & F)]; [exists []; split; [reflexivity|constructor]|].
  cbn [drop_blanks]. destruct (blank c) eqn:B; [|exists []; split; [reflexivity|constructor]].
  exists (c :: a). cbn [app]. rewrite <- E. split; [reflexivity|constructor; assumption].
Qed.
Lemma drop_blanks_keep a c r : blank c = false -> drop_blanks (a ++ c :: r) = drop_blanks (a ++ [c]) ++ r.
Proof.
  intros H. induction a as [|d a IH]; cbn [app drop_blanks]; [rewrite H; reflexivity|].
  destruct (blank d); [exact IH|]. cbn [app]. f_equal. rewrite <- app_assoc. reflexivity.
Qed.
Lemma rstrip_keep a c r : blank c = false -> rstrip (a ++ c :: r) = a ++ c :: rstrip r.
Proof.
  intros H. unfold rstrip. rewrite rev_app_distr. cbn [rev]. rewrite <- app_assoc. cbn [app].
  rewrite drop_blanks_keep by exact H. rewrite rev_app_distr, rev_involutive. f_equal.
  destruct (split_blanks (rev r)) as (b & E & F). rewrite E at 1. rewrite <- app_assoc.
  rewrite drop_blanks_app by exact F.
  destruct (drop_blanks (rev r)) as [|d q] eqn:Er.
  - cbn [app drop_blanks]. rewrite H. reflexivity.
  - assert (Bd : blank d = false).
    { clear - Er. induction (rev r) as [|e q' IH]; [discriminate|]. cbn [drop_blanks] in Er.
      destruct (blank e) eqn:Be; [apply IH; exact Er|injection Er as -> _; exact Be]. }
    cbn [app drop_blanks]. rewrite Bd. rewrite app_comm_cons, rev_app_distr. reflexivity.
Qed.
Lemma strip_nonblank c r : blank c = false -> strip (c :: r) = c :: rstrip r.
Proof.
  intros H. unfold strip. rewrite drop_blanks_head by exact H. exact (rstrip_keep [] c r H).
Qed.
Lemma rstrip_blanks a b : Forall (fun c => blank c = true) b -> rstrip (a ++ b) = rstrip a.
Proof. intros H. unfold rstrip. rewrite rev_app_distr, drop_blanks_app by (apply Forall_rev; exact H). reflexivity. Qed.
Lemma strip_lead a r : Forall (fun c => blank c = true) a -> strip (a ++ r) = strip r.
Proof. intros H. unfold strip. rewrite drop_blanks_app by exact H. reflexivity. Qed.
Lemma drop_blanks_first t c r : drop_blanks t = c :: r -> blank c = false.
Proof.
  induction t as [|d t IH]; [discriminate|]. cbn [drop_blanks]. destruct (blank d) eqn:B; [exact IH|].
  intros [= <- _]. exact B.
Qed.
Lemma strip_cases t : strip t = [] /\ Forall (fun c => blank c = true) t \/
  exists a c r, t = a ++ c :: r /\ Forall (fun c => blank c = true) a /\ blank c = false /\ strip t = c :: rstrip r.
Proof.
  destruct (split_blanks t) as (a & E & F). destruct (drop_blanks t) as [|c r] eqn:D.
  - left. rewrite app_nil_r in E. subst a. split; [|exact F]. unfold strip. rewrite D. reflexivity.
  - right. exists a, c, r. pose proof (drop_blanks_first _ _ _ D) as B. repeat split; try assumption.
    rewrite E, strip_lead by exact F. apply strip_nonblank. exact B.
Qed.
Lemma strip_of_rstrip t : strip (rstrip t) = strip t.
Proof.
  destruct (strip_cases t) as [[E F]|(a & c & r & -> & F & B & E)].
  - rewrite E. unfold rstrip. rewrite drop_blanks_all by (apply Forall_rev; exact F). reflexivity.
  - rewrite rstrip_keep by exact B. rewrite !strip_lead by exact F. rewrite !strip_nonblank by exact B. f_equal.
    unfold rstrip. rewrite rev_involutive. f_equal.
    destruct (drop_blanks (rev r)) as [|d q] eqn:D; [reflexivity|]. apply drop_blanks_head. eapply drop_blanks_first. exact D.
Qed.
Lemma rstrip_nil t : rstrip t = [] <-> strip t = [].
Proof.
  split.
  - intros H. rewrite <- strip_of_rstrip, H. reflexivity.
  - intros H. destruct (strip_cases t) as [[E F]|(a & c & r & -> & F & B & E)]; [|rewrite E in H; discriminate].
    unfold rstrip. rewrite drop_blanks_all by (apply Forall_rev; exact F). reflexivity.
Qed.
Lemma strip_pad_right w t : strip (pad_right w t) = strip t.
Proof.
  unfold pad_right. rewrite <- strip_of_rstrip, rstrip_blanks by apply blank32. apply strip_of_rstrip.
Qed.
Lemma strip_number t : t <> [] -> Forall number_char t -> strip t = t.
Proof. intros H F. rewrite <- (app_nil_r t) at 1. apply strip_trailing; [exact H|exact F|constructor]. Qed.
Lemma strip_pad_left w v : strip (pad_left w (str_of_int v)) = str_of_int v.
Proof.
  unfold pad_left. rewrite strip_lead by apply blank32. apply strip_number; [apply str_of_int_nonnil|apply str_of_int_chars].
Qed.
Lemma rstrip_number a t : t <> [] -> Forall number_char t -> rstrip (a ++ t) = a ++ t.
Proof.
  intros H F. destruct t as [|c t] using rev_ind; [congruence|]. clear IHt. apply Forall_app in F as [_ F]. apply Forall_cons_iff in F as [F _].
  rewrite app_assoc. rewrite rstrip_keep by (apply blank_number; exact F). reflexivity.
Qed.
Lemma strip_signed v : strip ((if 0 <=? v then [43] else [45]) ++ pad_left 5 (str_of_int (Z.abs v))) = signed_text v.
Proof.
  unfold signed_text, pad_left. set (d := str_of_int (Z.abs v)).
  assert (R : rstrip (repeat 32 (5 - List.length d) ++ d) = repeat 32 (5 - List.length d) ++ d).
  { apply rstrip_number; [apply str_of_int_nonnil|apply str_of_int_chars]. }
  destruct (0 <=? v); cbn [app]; rewrite strip_nonblank by reflexivity; rewrite R; reflexivity.
Qed.

(** ** Lines of bytes *)
Definition eol (b : Z) : Prop := b = 13 \/ b = 10.
Lemma header_pieces_app : forall a piece r, Forall (fun b => ~ eol b) a ->
  header_pieces piece (a ++ r) = header_pieces (piece ++ a) r.
Proof.
  induction a as [|b a IH]; intros piece r F; [rewrite app_nil_r; reflexivity|].
  apply Forall_cons_iff in F as [Hb F]. cbn [app header_pieces].
  destruct (Z.eqb_spec b 13) as [->|_]; [exfalso; apply Hb; left; reflexivity|].
  destruct (Z.eqb_spec b 10) as [->|_]; [exfalso; apply Hb; right; reflexivity|]. cbn [orb].
  rewrite IH by exact F. rewrite <- app_assoc. reflexivity.
Qed.
Lemma header_pieces_end a piece : Forall (fun b => ~ eol b) a -> header_pieces piece a = [].
Proof. intros F. rewrite <- (app_nil_r a), header_pieces_app by exact F. reflexivity. Qed.
Lemma header_pieces_lines : forall ls piece tail, Forall (Forall (fun b => ~ eol b)) ls -> Forall (fun b => ~ eol b) tail ->
  header_pieces piece (flat_map (fun c => c ++ [13]) ls ++ tail)
  = match ls with [] => [] | c :: r => (piece ++ c) :: map (cons 13) r end.
Proof.
  induction ls as [|c ls IH]; intros piece tail F T; [apply header_pieces_end; exact T|].
  apply Forall_cons_iff in F as [Fc F]. cbn [flat_map]. rewrite <- !app_assoc. rewrite header_pieces_app by exact Fc.
  cbn [app header_pieces]. change (13 =? 13) with true. cbn [orb]. f_equal. rewrite IH by assumption.
  destruct ls; reflexivity.
Qed.

(** The bytes of a text. *)
Lemma utf8_char_bytes c : scalar c -> exists a, utf8_char c = Ok a /\ (eol c \/ Forall (fun b => ~ eol b) a) /\
  Z.of_nat (List.length a) = (if c <? 0x80 then 1 else if c <? 0x800 then 2 else if c <? 0x10000 then 3 else 4).
Proof.
  intros [H1 H2]. unfold utf8_char, surrogate.
  destruct (Z.ltb_spec c 0x80).
  { eexists. split; [reflexivity|]. split; [|reflexivity].
    destruct (Z.eq_dec c 13); [left; left; assumption|]. destruct (Z.eq_dec c 10); [left; right; assumption|].
    right. constructor; [intros [E|E]; congruence|constructor]. }
  destruct (Z.ltb_spec c 0x800).
  { eexists. split; [reflexivity|]. split; [|reflexivity]. right. repeat constructor; unfold eol; lia. }
  destruct (Z.leb_spec 0xD800 c), (Z.leb_spec c 0xDFFF); cbn [andb]; try lia;
  destruct (Z.ltb_spec c 0x10000); eexists; (split; [reflexivity|]); (split; [|reflexivity]); right; repeat constructor; unfold eol; lia.
Qed.
Lemma utf8_line t : one_line t -> exists b, utf8_encode t = Ok b /\ Forall (fun b => ~ eol b) b /\
  utf8_decode b = Some t /\ zlen b = text_size t.
Proof.
  intros (F & N1 & N2). destruct (utf8_round_trip t F) as (b & E & _ & D). exists b. split; [exact E|].
  cut (Forall (fun b => ~ eol b) b /\ zlen b = text_size t); [tauto|]. clear D. revert b E.
  induction F as [|c t Hc F IH]; intros b E.
  - injection E as <-. split; [constructor|reflexivity].
  - cbn [utf8_encode] in E. destruct (utf8_char_bytes c Hc) as (a & Ea & [He|Fa] & La).
    { exfalso. destruct He as [-> | ->]; [apply N1|apply N2]; left; reflexivity. }
    rewrite Ea in E. cbn [bindr] in E. destruct (utf8_encode t) as [b'|] eqn:Et; [|discriminate E]. cbn [bindr] in E. injection E as <-.
    destruct (IH (fun H => N1 (or_intror H)) (fun H => N2 (or_intror H)) b' eq_refl) as [Fb Lb].
    split; [apply Forall_app; split; assumption|]. unfold zlen in *. rewrite app_length, Nat2Z.inj_add, Lb, La. reflexivity.
Qed.
Lemma utf8_encode_app a b x y : utf8_encode a = Ok x -> utf8_encode b = Ok y -> utf8_encode (a ++ b) = Ok (x ++ y).
Proof.
  revert x. induction a as [|c a IH]; intros x Ha Hb; [injection Ha as <-; exact Hb|].
  cbn [app utf8_encode] in *. destruct (utf8_char c) as [u|]; [|discriminate Ha]. cbn [bindr] in *.
  destruct (utf8_encode a) as [v|]; [|discriminate Ha]. cbn [bindr] in *. injection Ha as <-.
  rewrite (IH v eq_refl Hb). cbn [bindr]. rewrite app_assoc. reflexivity.
Qed.

Lemma text_size_app a b : text_size (a ++ b) = text_size a + text_size b.
Proof. induction a as [|c a IH]; [reflexivity|]. cbn [app text_size]. rewrite IH. lia. Qed.
Definition lines_size (ls : list text) : Z := fold_right (fun t n => text_size t + 1 + n) 0 ls.

(** A header of lines. *)
Lemma encode_lines ls : Forall one_line ls -> exists bs,
  utf8_encode (flat_map (fun t => t ++ [13]) ls) = Ok (flat_map (fun c => c ++ [13]) bs) /\
  Forall (Forall (fun b => ~ eol b)) bs /\ Forall2 (fun b t => utf8_decode b = Some t) bs ls /\
  zlen (flat_map (fun c => c ++ [13]) bs) = lines_size ls.
Proof.
  induction 1 as [|t ls Ht _ (bs & E & F & D & L)].
  - exists []. repeat split; constructor.
  - destruct (utf8_line t Ht) as (b & Eb & Fb & Db & Lb). exists (b :: bs). cbn [flat_map].
    split; [apply utf8_encode_app; [apply utf8_encode_app; [exact Eb|reflexivity]|exact E]|].
    split; [constructor; assumption|]. split; [constructor; assumption|].
    unfold zlen in *. rewrite !app_length. cbn [List.length lines_size fold_right]. fold (lines_size ls). lia.
Qed.

(** One line. *)
Definition read_entry (key value : text) (out : dst_loaded) : res dst_loaded :=
  match strip value with [] => Ok out | v => process_header_info key v out end.
Lemma read_line k1 k2 v out : blank k1 = false -> blank k2 = false ->
  let line := strip (k1 :: k2 :: 58 :: v) in
  (if 3 <? zlen line then process_header_info (strip (firstn 2 line)) (strip (skipn 3 line)) out else Ok out)
  = read_entry [k1; k2] v out.
Proof.
  intros B1 B2 line. unfold line. rewrite strip_nonblank by exact B1.
  change (rstrip (k2 :: 58 :: v)) with (rstrip ([k2] ++ 58 :: v)). rewrite rstrip_keep by reflexivity. cbn [app firstn skipn].
  rewrite strip_of_rstrip.
  assert (K : strip [k1; k2] = [k1; k2]).
  { rewrite strip_nonblank by exact B1. change [k2] with ([] ++ k2 :: []). rewrite rstrip_keep by exact B2. reflexivity. }
  rewrite K. unfold read_entry. destruct (strip v) as [|c r] eqn:E.
  - apply rstrip_nil in E. rewrite E. reflexivity.
  - assert (N : rstrip v <> []) by (intros H; apply rstrip_nil in H; congruence).
    destruct (rstrip v) as [|d q]; [congruence|]. destruct (Z.ltb_spec 3 (zlen (k1 :: k2 :: 58 :: d :: q))) as [_|H]; [reflexivity|].
    unfold zlen in H. cbn [List.length] in H. lia.
Qed.

Fixpoint read_entries (l : list (text * text)) (out : dst_loaded) : res dst_loaded :=
  match l with
  | [] => Ok out
  | (k, v) :: r => do out <- read_entry k v out; read_entries r out
  end.
Definition line_of (e : text * text) : text := fst e ++ 58 :: snd e.
Definition key_ok (e : text * text) : Prop := exists k1 k2, fst e = [k1; k2] /\ blank k1 = false /\ blank k2 = false.
Lemma strip_cr t : strip (13 :: t) = strip t.
Proof. exact (strip_lead [13] t ltac:(repeat constructor)). Qed.
Lemma read_pieces_entries : forall es bs out, Forall key_ok es ->
  Forall2 (fun b t => utf8_decode b = Some t) bs (map line_of es) ->
  read_pieces (map (cons 13) bs) out = read_entries es out.
Proof.
  induction es as [|[k v] es IH]; intros bs out K D; cbn [map] in D.
  - inversion D; subst. reflexivity.
  - apply Forall_cons_iff in K as [(k1 & k2 & Ek & B1 & B2) K]. cbn [fst] in Ek. subst k.
    inversion D as [|b t bs' ts Db D' E1 E2]; subst. cbn [map read_pieces read_entries].
    cbn [utf8_decode]. change (13 <? 0x80) with true. cbn iota. rewrite Db. cbn [ocons].
    unfold line_of. cbn [fst snd app]. rewrite strip_cr.
    pose proof (read_line k1 k2 v out B1 B2) as R. cbn zeta in R. cbn zeta. rewrite R.
    destruct (read_entry [k1; k2] v out); [|reflexivity]. cbn [bindr]. apply IH; assumption.
Qed.
Lemma read_first es bs out : Forall key_ok es ->
  Forall2 (fun b t => utf8_decode b = Some t) bs (map line_of es) ->
  read_pieces (match bs with [] => [] | c :: r => c :: map (cons 13) r end) out = read_entries es out.
Proof.
  intros K D. destruct es as [|[k v] es]; cbn [map] in D; inversion D as [|b t bs' ts Db D' E1 E2]; subst; [reflexivity|].
  apply Forall_cons_iff in K as [(k1 & k2 & Ek & B1 & B2) K]. cbn [fst] in Ek. subst k.
  cbn [read_pieces read_entries]. rewrite Db. unfold line_of. cbn [fst snd app].
  pose proof (read_line k1 k2 v out B1 B2) as R. cbn zeta in R. cbn zeta. rewrite R.
  destruct (read_entry [k1; k2] v out); [|reflexivity]. cbn [bindr]. apply read_pieces_entries; assumption.
Qed.

(** The file's header: lines, then the 0x1A and blanks. *)
Lemma read_header_lines es body : Forall key_ok es -> Forall one_line (map line_of es) -> lines_size (map line_of es) <= 511 ->
  exists h, utf8_encode (flat_map (fun e => line_of e ++ [13]) es) = Ok h /\
    let h := h ++ [0x1A] in
    let file := h ++ repeat 32 (512 - List.length h) ++ body in
    dst_read_header file = read_entries es (mkDL [] []) /\ skipn 512 file = body.
Proof.
  intros K O S. destruct (encode_lines (map line_of es) O) as (bs & E & F & D & L).
  exists (flat_map (fun c => c ++ [13]) bs). split.
  { rewrite <- E. f_equal. clear. induction es as [|e es IH]; [reflexivity|]. cbn [flat_map map]. rewrite IH. reflexivity. }
  set (h := flat_map (fun c => c ++ [13]) bs) in *. cbn zeta.
  assert (Lh : Z.of_nat (List.length (h ++ [0x1A])) <= 512).
  { rewrite app_length. unfold zlen in L. cbn [List.length]. lia. }
  assert (L512 : List.length ((h ++ [0x1A]) ++ repeat 32 (512 - List.length (h ++ [0x1A]))) = 512%nat).
  { rewrite app_length, repeat_length. lia. }
  rewrite app_assoc. split.
  - unfold dst_read_header. rewrite <- L512 at 1. rewrite firstn_app, firstn_all, Nat.sub_diag. cbn [firstn]. rewrite app_nil_r.
    rewrite <- app_assoc. unfold h. rewrite header_pieces_lines; [|exact F|].
    + rewrite <- (read_first es bs _ K D). destruct bs; reflexivity.
    + apply Forall_app. split; [repeat constructor; unfold eol; lia|].
      apply Forall_forall. intros c Hc. apply repeat_spec in Hc. subst. unfold eol. lia.
  - rewrite <- L512 at 1. rewrite skipn_app, skipn_all, Nat.sub_diag. reflexivity.
Qed.
