(** The entries of a DST header. *)
From Coq Require Import Ascii String Decimal DecimalFacts DecimalZ ZArith QArith Qabs List Bool Lia Lqa.
From Verif Require Import PyBase EmbConst StreamModel StreamSpec StreamProofs NumQ QuantModel QuantProofs ThreadModel ThreadProofs Utf8Model Utf8Proofs
  TextModel TextProofs PatternModel PatternProofs CsvModel DstModel DstSpec DstProofs DstFileProofs DstFileModel DstFileSpec DstHeaderProofs
  DstTrimProofs BitLemmas.
Import ListNotations.
Open Scope Z_scope.

(** ** Digits *)
Lemma acc_lower d : forall acc, (Z.pos acc * 10 ^ Z.of_nat (nb_digits d) <= Z.pos (Pos.of_uint_acc d acc)).
Proof.
  induction d; intros acc; cbn [nb_digits Pos.of_uint_acc]; [lia|..];
  rewrite Nat2Z.inj_succ, Z.pow_succ_r by lia; pose proof (Z.pow_pos_nonneg 10 (Z.of_nat (nb_digits d)) ltac:(lia) ltac:(lia)) as P;
  eapply Z.le_trans; [|apply IHd| |apply IHd| |apply IHd| |apply IHd| |apply IHd| |apply IHd| |apply IHd| |apply IHd| |apply IHd| |apply IHd];
  rewrite Z.mul_assoc; apply Z.mul_le_mono_nonneg_r; lia.
Qed.
Lemma text_of_digits_length d : List.length (text_of_digits d) = nb_digits d.
Proof. induction d; cbn [text_of_digits List.length nb_digits]; congruence. Qed.
Lemma str_length v k : 1 <= k -> 0 <= v < 10 ^ k -> zlen (str_of_int v) <= k.
Proof.
  intros Hk Hv. unfold str_of_int. pose proof (of_to v) as E. pose proof (f_equal Z.to_int E) as N. rewrite to_of in N.
  destruct (Z.to_int v) as [d|d] eqn:Ev.
  2:{ destruct v; [discriminate Ev|discriminate Ev|lia]. }
  unfold zlen. rewrite text_of_digits_length. cbn [norm] in N. injection N as N. cbn [Z.of_int] in E. unfold Z.of_uint in E.
  assert (G : forall d' acc, v = Z.pos (Pos.of_uint_acc d' acc) -> Z.of_nat (S (nb_digits d')) <= k).
  { intros d' acc Ed. pose proof (acc_lower d' acc) as A. rewrite <- Ed in A.
    destruct (Z.le_gt_cases (Z.of_nat (S (nb_digits d'))) k) as [H|H]; [exact H|exfalso].
    assert (10 ^ k <= 10 ^ Z.of_nat (nb_digits d')) by (apply Z.pow_le_mono_r; lia).
    pose proof (Z.pow_pos_nonneg 10 (Z.of_nat (nb_digits d')) ltac:(lia) ltac:(lia)).
    assert (1 * 10 ^ Z.of_nat (nb_digits d') <= Z.pos acc * 10 ^ Z.of_nat (nb_digits d')) by (apply Z.mul_le_mono_nonneg_r; lia). lia. }
  destruct d as [|d|d|d|d|d|d|d|d|d|d]; cbn [nb_digits]; cbn [Pos.of_uint Z.of_N] in E; try (eapply G; symmetry; exact E).
  - lia.
  - unfold unorm in N. cbn [nzhead] in N. destruct (nzhead d) eqn:Z0.
    + injection N as <-. cbn. lia.
    + exfalso. clear - Z0. revert u Z0. induction d; intros u Z0; cbn [nzhead] in Z0; try discriminate Z0. eapply IHd. exact Z0.
    + discriminate N.
    + discriminate N.
    + discriminate N.
    + discriminate N.
    + discriminate N.
    + discriminate N.
    + discriminate N.
    + discriminate N.
    + discriminate N.
Qed.

Lemma ascii_size t : Forall ascii t -> text_size t = zlen t.
Proof.
  induction 1 as [|c t Hc _ IH]; [reflexivity|]. cbn [text_size]. unfold ascii in Hc. destruct (Z.ltb_spec c 0x80); [|lia].
  rewrite IH. unfold zlen. cbn [List.length]. lia.
Qed.
Lemma number_ascii c : number_char c -> ascii c /\ ~ eol c /\ c <> 44.
Proof. unfold number_char, digit, ascii, eol. lia. Qed.
Lemma repeat_ascii n : Forall ascii (repeat 32 n).
Proof. apply Forall_forall. intros c Hc. apply repeat_spec in Hc. subst. unfold ascii. lia. Qed.
Lemma str_ascii v : Forall ascii (str_of_int v).
Proof. eapply Forall_impl; [|apply str_of_int_chars]. intros c Hc. apply (number_ascii c Hc). Qed.

Lemma one_line_iff t : one_line t <-> Forall (fun c => scalar c /\ ~ eol c) t.
Proof.
  unfold one_line, eol. rewrite !Forall_forall. split.
  - intros (F & H1 & H2) c Hc. split; [apply F; exact Hc|]. intros [->| ->]; tauto.
  - intros H. split; [intros c Hc; apply H; exact Hc|]. split; intros K; apply H in K; tauto.
Qed.
Lemma one_line_app a b : one_line a -> one_line b -> one_line (a ++ b).
Proof. rewrite !one_line_iff, Forall_app. tauto. Qed.
Lemma one_line_str v : one_line (str_of_int v).
Proof.
  apply one_line_iff. eapply Forall_impl; [|apply str_of_int_chars]. intros c Hc. destruct (number_ascii c Hc) as (A & E & _).
  split; [apply ascii_scalar; exact A|exact E].
Qed.
Lemma one_line_blanks n : one_line (repeat 32 n).
Proof. apply one_line_iff. apply Forall_forall. intros c Hc. apply repeat_spec in Hc. subst. unfold scalar, eol. lia. Qed.
Ltac line1 := apply one_line_iff; apply Forall_forall; let c := fresh in let H := fresh in intros c H; cbn in H; unfold scalar, eol; lia.

(** ** The entries *)
Definition sgn (v : Z) : text := (if 0 <=? v then [43] else [45]) ++ pad_left 5 (str_of_int (Z.abs v)).
Definition thread_value (t : thread) : text :=
  hex_color (t_color t) ++ [44] ++ none_text (t_description t) ++ [44] ++ none_text (t_catalog t).
Definition opt_line (key : string) (v : option text) : list (text * text) :=
  match v with Some v => [(text_of key, v)] | None => [] end.
Definition base_entries (p : dst_info) (count changes x0 x1 y0 y1 ax ay : Z) : list (text * text) :=
  [(text_of "LA", pad_right 16 (title p)); (text_of "ST", pad_left 7 (str_of_int count));
   (text_of "CO", pad_left 3 (str_of_int changes)); (text_of "+X", pad_left 5 (str_of_int x1));
   (text_of "-X", pad_left 5 (str_of_int x0)); (text_of "+Y", pad_left 5 (str_of_int y1));
   (text_of "-Y", pad_left 5 (str_of_int y0)); (text_of "AX", sgn ax); (text_of "AY", sgn ay);
   (text_of "MX", sgn 0); (text_of "MY", sgn 0); (text_of "PD", text_of "******")].
Definition more_entries (extended : bool) (p : dst_info) : list (text * text) :=
  if extended then opt_line "AU" (i_author p) ++ opt_line "CP" (i_copyright p)
    ++ map (fun t => (text_of "TC", thread_value t)) (i_threads p)
  else [].

Lemma header_text_entries extended p l x0 y0 x1 y1 ax ay :
  bounds l = (Some x0, Some y0, Some x1, Some y1) ->
  match rev l with s :: _ => (q_cut (sx s), - q_cut (sy s)) | [] => (0, 0) end = (ax, ay) ->
  header_text extended p l = Ok (flat_map (fun e => line_of e ++ [13])
    (base_entries p (zlen l) (count_color_changes l) (Z.abs (q_cut x0)) (Z.abs (q_cut x1)) (Z.abs (q_cut y0)) (Z.abs (q_cut y1)) ax ay
     ++ more_entries extended p)).
Proof.
  intros Eb El. unfold header_text. rewrite Eb, El. cbn [cut_abs bindr]. f_equal.
  rewrite flat_map_app. unfold base_entries. cbn [flat_map]. unfold line_of, header_line, signed_line. cbn [fst snd].
  unfold header_line. fold (sgn ax) (sgn ay) (sgn 0). fold (title p).
  change (Z.abs (Z.quot (Qnum x0) (Zpos (Qden x0)))) with (Z.abs (q_cut x0)).
  change (Z.abs (Z.quot (Qnum x1) (Zpos (Qden x1)))) with (Z.abs (q_cut x1)).
  change (Z.abs (Z.quot (Qnum y0) (Zpos (Qden y0)))) with (Z.abs (q_cut y0)).
  change (Z.abs (Z.quot (Qnum y1) (Zpos (Qden y1)))) with (Z.abs (q_cut y1)).
  assert (M : flat_map (fun e : text * text => (fst e ++ 58 :: snd e) ++ [13]) (more_entries extended p) =
    (if extended then
            match i_author p with Some a => header_line "AU" a | None => [] end
            ++ match i_copyright p with Some c => header_line "CP" c | None => [] end
            ++ flat_map thread_line (i_threads p)
          else [])).
  { unfold more_entries. destruct extended; [|reflexivity]. rewrite !flat_map_app. f_equal; [|f_equal].
    - destruct (i_author p); [|reflexivity]. cbn [opt_line flat_map fst snd]. unfold header_line. rewrite app_nil_r, <- app_assoc. reflexivity.
    - destruct (i_copyright p); [|reflexivity]. cbn [opt_line flat_map fst snd]. unfold header_line. rewrite app_nil_r, <- app_assoc. reflexivity.
    - induction (i_threads p) as [|t r IH]; [reflexivity|]. cbn [map flat_map fst snd]. rewrite IH.
      unfold thread_line, header_line, thread_value, str_opt, none_text. f_equal. }
  rewrite M. rewrite <- !app_assoc. cbn [app]. rewrite <- ?app_assoc. reflexivity.
Qed.

(** ** The lines are short enough and have no line ends in them *)
Lemma key_ok_all l : Forall (fun e => exists k1 k2, fst e = [k1; k2] /\ blank k1 = false /\ blank k2 = false) l -> Forall key_ok l.
Proof. exact (fun H => H). Qed.
Ltac key2 := eexists; eexists; split; [reflexivity|split; reflexivity].
Lemma entries_keys extended p a b c d e f g h :
  Forall key_ok (base_entries p a b c d e f g h ++ more_entries extended p).
Proof.
  apply Forall_app. split; [unfold base_entries; repeat (apply Forall_cons; [key2|]); apply Forall_nil|].
  unfold more_entries. destruct extended; [|constructor]. repeat (apply Forall_app; split).
  - destruct (i_author p); cbn [opt_line]; [apply Forall_cons; [|apply Forall_nil]|apply Forall_nil]. key2.
  - destruct (i_copyright p); cbn [opt_line]; [apply Forall_cons; [|apply Forall_nil]|apply Forall_nil]. key2.
  - apply Forall_forall. intros x Hx. apply in_map_iff in Hx as (t & <- & _). key2.
Qed.

Lemma one_line_pad_left w v : one_line (pad_left w (str_of_int v)).
Proof. apply one_line_app; [apply one_line_blanks|apply one_line_str]. Qed.
Lemma one_line_sgn v : one_line (sgn v).
Proof. apply one_line_app; [destruct (0 <=? v); line1|apply one_line_pad_left]. Qed.
Lemma hex_digit_range n : 0 <= n < 16 -> 48 <= hex_digit n <= 102 /\ ~ (58 <= hex_digit n < 97).
Proof. intros H. unfold hex_digit. destruct (Z.ltb_spec n 10); lia. Qed.
Lemma hex_chars c : Forall (fun x => 35 <= x <= 102 /\ x <> 44) (hex_color c) /\ List.length (hex_color c) = 7%nat.
Proof.
  pose proof (components_range c) as (Hr & Hg & Hb). unfold hex_color, hex2. cbn [app]. split; [|reflexivity].
  assert (G : forall b, 0 <= b < 256 -> (35 <= hex_digit (b / 16) <= 102 /\ hex_digit (b / 16) <> 44) /\ (35 <= hex_digit (b mod 16) <= 102 /\ hex_digit (b mod 16) <> 44)).
  { intros b Hb'. pose proof (hex_digit_range (b / 16)). pose proof (hex_digit_range (b mod 16)). lia. }
  destruct (G _ Hr), (G _ Hg), (G _ Hb). repeat (apply Forall_cons; [first [assumption|lia]|]). constructor.
Qed.
Lemma one_line_hex c : one_line (hex_color c).
Proof.
  apply one_line_iff. eapply Forall_impl; [|apply hex_chars]. cbn beta. intros x Hx. unfold scalar, eol. lia.
Qed.
Lemma field_none v : opt field v -> field (none_text v).
Proof.
  destruct v as [t|]; [exact (fun H => H)|]. intros _. split; [line1|]. cbn. intuition discriminate.
Qed.
Lemma entries_lines extended p a b c d e f g h : info_ok extended p ->
  Forall one_line (map line_of (base_entries p a b c d e f g h ++ more_entries extended p)).
Proof.
  intros (H1 & H2).
  assert (L : forall k1 k2 v, one_line [k1; k2] -> one_line v -> one_line (line_of ([k1; k2], v))).
  { intros k1 k2 v A B. unfold line_of. cbn [fst snd]. apply one_line_app; [exact A|]. change (58 :: v) with ([58] ++ v).
    apply one_line_app; [line1|exact B]. }
  rewrite map_app. apply Forall_app. split.
  - unfold base_entries. cbn [map].
    assert (T : one_line (pad_right 16 (title p))) by (apply one_line_app; [exact H1|apply one_line_blanks]).
    repeat (apply Forall_cons; [apply L; [line1|first [exact T|apply one_line_pad_left|apply one_line_sgn|line1]]|]). constructor.
  - unfold more_entries. destruct extended; [|constructor]. destruct (H2 eq_refl) as (Ha & Hc & Ht). rewrite !map_app.
    repeat (apply Forall_app; split).
    + destruct (i_author p); cbn [opt_line map]; [apply Forall_cons; [|apply Forall_nil]|apply Forall_nil]. apply L; [line1|exact Ha].
    + destruct (i_copyright p); cbn [opt_line map]; [apply Forall_cons; [|apply Forall_nil]|apply Forall_nil]. apply L; [line1|exact Hc].
    + rewrite map_map. apply Forall_forall. intros x Hx. apply in_map_iff in Hx as (t & <- & Hx).
      rewrite Forall_forall in Ht. destruct (Ht t Hx) as [Hd Hn]. apply L; [line1|]. unfold thread_value.
      apply one_line_app; [apply one_line_hex|]. apply one_line_app; [line1|].
      apply one_line_app; [apply field_none; exact Hd|]. apply one_line_app; [line1|apply field_none; exact Hn].
Qed.

Lemma lines_size_app a b : lines_size (a ++ b) = lines_size a + lines_size b.
Proof. unfold lines_size. induction a as [|t a IH]; [reflexivity|]. cbn [app fold_right]. rewrite IH. lia. Qed.
Lemma line_size k1 k2 v : text_size (line_of ([k1; k2], v)) = text_size [k1; k2] + 1 + text_size v.
Proof. unfold line_of. cbn [fst snd]. rewrite text_size_app. change (58 :: v) with ([58] ++ v). rewrite text_size_app. change (text_size [58]) with 1. lia. Qed.
Lemma pad_left_size w v : 0 <= v < 10 ^ 10 -> Z.of_nat w <= 10 -> text_size (pad_left w (str_of_int v)) <= 10.
Proof.
  intros Hv Hw. unfold pad_left. rewrite text_size_app, (ascii_size _ (repeat_ascii _)), (ascii_size _ (str_ascii v)).
  pose proof (str_length v 10 ltac:(lia) Hv) as L. unfold zlen in *. rewrite repeat_length. lia.
Qed.
Lemma sgn_size v : -(10 ^ 10) < v < 10 ^ 10 -> text_size (sgn v) <= 11.
Proof.
  intros Hv. unfold sgn. rewrite text_size_app. pose proof (pad_left_size 5 (Z.abs v) ltac:(lia) ltac:(lia)).
  destruct (0 <=? v); [change (text_size [43]) with 1|change (text_size [45]) with 1]; lia.
Qed.
Lemma pad_right_size t : text_size (pad_right 16 t) <= 16 + text_size t.
Proof. unfold pad_right. rewrite text_size_app, (ascii_size _ (repeat_ascii _)). unfold zlen. rewrite repeat_length. lia. Qed.
Lemma more_size extended p : lines_size (map line_of (more_entries extended p))
  = if extended then entry_size (i_author p) + entry_size (i_copyright p) + threads_size (i_threads p) else 0.
Proof.
  unfold more_entries. destruct extended; [|reflexivity]. rewrite !map_app, !lines_size_app.
  assert (O : forall k1 k2 v, text_size [k1; k2] = 2 -> lines_size (map line_of match v with Some v => [([k1; k2], v)] | None => [] end) = entry_size v).
  { intros k1 k2 [v|] E; [|reflexivity]. cbn [map lines_size fold_right entry_size]. rewrite line_size, E. lia. }
  change (opt_line "AU" (i_author p)) with (match i_author p with Some v => [([65; 85], v)] | None => [] end).
  change (opt_line "CP" (i_copyright p)) with (match i_copyright p with Some v => [([67; 80], v)] | None => [] end).
  rewrite !O by reflexivity. rewrite Z.add_assoc. f_equal. rewrite map_map.
  induction (i_threads p) as [|t r IH]; [reflexivity|]. cbn [map]. unfold lines_size, threads_size in *. cbn [fold_right]. rewrite IH.
  change (text_of "TC") with [84; 67]. rewrite line_size. unfold thread_value. rewrite !text_size_app.
  assert (Hs : text_size (hex_color (t_color t)) = 7).
  { rewrite ascii_size; [unfold zlen; rewrite (proj2 (hex_chars _)); reflexivity|].
    eapply Forall_impl; [|apply hex_chars]. cbn beta. unfold ascii. lia. }
  rewrite Hs. change (text_size [84; 67]) with 2. change (text_size [44]) with 1. lia.
Qed.
Lemma entries_size extended p a b c d e f g h : header_room extended p ->
  0 <= a < 10 ^ 10 -> 0 <= b < 10 ^ 10 -> 0 <= c < 10 ^ 10 -> 0 <= d < 10 ^ 10 -> 0 <= e < 10 ^ 10 -> 0 <= f < 10 ^ 10 ->
  -(10 ^ 10) < g < 10 ^ 10 -> -(10 ^ 10) < h < 10 ^ 10 ->
  lines_size (map line_of (base_entries p a b c d e f g h ++ more_entries extended p)) <= 511.
Proof.
  intros R Ha Hb Hc Hd He Hf Hg Hh. rewrite map_app, lines_size_app, more_size. unfold header_room in R.
  unfold base_entries. cbn [map lines_size fold_right].
  change (text_of "LA") with [76; 65]. change (text_of "ST") with [83; 84]. change (text_of "CO") with [67; 79].
  change (text_of "+X") with [43; 88]. change (text_of "-X") with [45; 88]. change (text_of "+Y") with [43; 89]. change (text_of "-Y") with [45; 89].
  change (text_of "AX") with [65; 88]. change (text_of "AY") with [65; 89]. change (text_of "MX") with [77; 88]. change (text_of "MY") with [77; 89].
  change (text_of "PD") with [80; 68]. rewrite !line_size.
  pose proof (pad_right_size (title p)).
  pose proof (pad_left_size 7 a Ha ltac:(lia)). pose proof (pad_left_size 3 b Hb ltac:(lia)). pose proof (pad_left_size 5 c Hc ltac:(lia)).
  pose proof (pad_left_size 5 d Hd ltac:(lia)). pose proof (pad_left_size 5 e He ltac:(lia)). pose proof (pad_left_size 5 f Hf ltac:(lia)).
  pose proof (sgn_size g Hg). pose proof (sgn_size h Hh).
  change (text_size (sgn 0)) with 6. change (text_size (text_of "******")) with 6.
  repeat match goal with |- context [text_size [?a; ?b]] => change (text_size [a; b]) with 2 end. lia.
Qed.

(** ** Reading the entries *)
Definition stored (key value : text) : list (text * text) := match strip value with [] => [] | v => [(key, v)] end.
Lemma same_text a b : text_eqb a b = true -> a = b.
Proof.
  revert b. induction a as [|x a IH]; intros [|y b] H; cbn [text_eqb] in H; try discriminate H; [reflexivity|].
  apply andb_true_iff in H as [H1 H2]. apply Z.eqb_eq in H1. rewrite H1, (IH b H2). reflexivity.
Qed.
Lemma dict_new (k v : text) d : ~ In k (map fst d) -> dict_set k v d = d ++ [(k, v)].
Proof.
  induction d as [|[a b] r IH]; intros H; cbn [dict_set app]; [reflexivity|].
  destruct (text_eqb a k) eqn:E.
  - apply same_text in E. exfalso. apply H. left. exact E.
  - rewrite IH; [reflexivity|]. intros K. apply H. right. exact K.
Qed.
Lemma read_set key k v out : (forall w, process_header_info key w out = Ok (mkDL (d_threads out) (dict_set k w (d_meta out)))) ->
  ~ In k (map fst (d_meta out)) ->
  read_entry key v out = Ok (mkDL (d_threads out) (d_meta out ++ stored k v)).
Proof.
  intros H N. unfold read_entry, stored. destruct (strip v) as [|c r]; [rewrite app_nil_r; destruct out; reflexivity|].
  rewrite H, dict_new by exact N. reflexivity.
Qed.
Lemma stored_key k v x : In x (map fst (stored k v)) -> x = k.
Proof. unfold stored. destruct (strip v); cbn; [tauto|]. intros [<-|[]]. reflexivity. Qed.
Lemma stored_as k v w : strip v = w -> w <> [] -> stored k v = [(k, w)].
Proof. intros E N. unfold stored. rewrite E. destruct w; [congruence|reflexivity]. Qed.
Lemma stored_num k w v : stored k (pad_left w (str_of_int v)) = [(k, str_of_int v)].
Proof. apply stored_as; [apply strip_pad_left|apply str_of_int_nonnil]. Qed.
Lemma stored_sgn k v : stored k (sgn v) = [(k, signed_text v)].
Proof. apply stored_as; [apply strip_signed|]. unfold signed_text. destruct (0 <=? v); discriminate. Qed.

Ltac fresh_key := cbn [d_meta]; rewrite ?map_app; let H := fresh in intros H;
  repeat (apply in_app_or in H; destruct H as [H|H]);
  (apply stored_key in H; discriminate H) || (cbn [map fst In] in H; intuition discriminate).
Ltac read_one k := erewrite (read_set _ k); [cbn [bindr d_threads d_meta]|intros; reflexivity|fresh_key].

Lemma read_base p a b c d e f g h : read_entries (base_entries p a b c d e f g h) (mkDL [] [])
  = Ok (mkDL [] (header_meta false p a b c d e f g h)).
Proof.
  unfold base_entries. cbn [read_entries].
  read_one (text_of "name"). cbn [app].
  read_one (text_of "ST"). rewrite stored_num.
  read_one (text_of "CO"). rewrite stored_num.
  read_one (text_of "+X"). rewrite stored_num.
  read_one (text_of "-X"). rewrite stored_num.
  read_one (text_of "+Y"). rewrite stored_num.
  read_one (text_of "-Y"). rewrite stored_num.
  read_one (text_of "AX"). rewrite stored_sgn.
  read_one (text_of "AY"). rewrite stored_sgn.
  read_one (text_of "MX"). rewrite stored_sgn.
  read_one (text_of "MY"). rewrite stored_sgn.
  read_one (text_of "PD").
  f_equal. f_equal. unfold header_meta. rewrite app_nil_r. rewrite <- !app_assoc. cbn [app].
  f_equal. unfold stored, entry. rewrite strip_pad_right. reflexivity.
Qed.

Lemma split_none a sep : ~ In sep a -> split_on sep a = [a].
Proof. apply split_on_none. Qed.
Lemma rstrip_comma a t : rstrip (a ++ [44] ++ t) = a ++ [44] ++ rstrip t.
Proof. cbn [app]. apply rstrip_keep. reflexivity. Qed.
Lemma rstrip_in c t : In c (rstrip t) -> In c t.
Proof.
  unfold rstrip. rewrite <- in_rev. destruct (split_blanks (rev t)) as (a & E & _). intros H.
  apply in_rev. rewrite E. apply in_or_app. right. exact H.
Qed.
Lemma strip_field t : strip (rstrip t) = strip t.
Proof. apply strip_of_rstrip. Qed.
Lemma strip_hex c : strip (hex_color c) = hex_color c.
Proof.
  pose proof (components_range c) as (_ & _ & Hb).
  unfold hex_color, hex2. cbn [app]. rewrite strip_nonblank by reflexivity. f_equal.
  set (d := hex_digit (get_blue c mod 16)).
  assert (B : blank d = false).
  { unfold d. pose proof (hex_digit_range (get_blue c mod 16) ltac:(lia)) as H. unfold blank.
    destruct (Z.leb_spec (hex_digit (get_blue c mod 16)) 32); [lia|].
    repeat match goal with |- context [?x =? ?y] => destruct (Z.eqb_spec x y); [lia|] end.
    destruct (Z.leb_spec (hex_digit (get_blue c mod 16)) 13); [lia|]. destruct (Z.leb_spec 0x2000 (hex_digit (get_blue c mod 16))); [lia|].
    rewrite !andb_false_r. reflexivity. }
  match goal with |- rstrip [?a; ?b; ?c; ?e; ?f; ?g] = _ => change (rstrip ([a; b; c; e; f] ++ g :: []) = [a; b; c; e; f; g]) end.
  fold d. rewrite rstrip_keep by exact B. reflexivity.
Qed.
Lemma read_thread t out : opt field (t_description t) -> opt field (t_catalog t) ->
  read_entry (text_of "TC") (thread_value t) out
  = Ok (mkDL (d_threads out ++ [(Some (Z.land (t_color t) 0xFFFFFF), strip (none_text (t_description t)), strip (none_text (t_catalog t)))]) (d_meta out)).
Proof.
  intros Hd Hc. apply field_none in Hd, Hc. destruct Hd as [_ Nd], Hc as [_ Nc].
  unfold read_entry, thread_value. set (d := none_text (t_description t)) in *. set (n := none_text (t_catalog t)) in *.
  assert (Eh : exists q, hex_color (t_color t) = 35 :: q) by (eexists; reflexivity).
  assert (S : strip (hex_color (t_color t) ++ [44] ++ d ++ [44] ++ n) = hex_color (t_color t) ++ [44] ++ d ++ [44] ++ rstrip n).
  { destruct Eh as [q Eq]. rewrite Eq. cbn [app]. rewrite strip_nonblank by reflexivity. f_equal.
    replace (q ++ 44 :: d ++ 44 :: n) with ((q ++ [44] ++ d) ++ [44] ++ n) by (rewrite <- !app_assoc; reflexivity).
    rewrite rstrip_comma, <- !app_assoc. reflexivity. }
  rewrite S. destruct Eh as [q Eq].
  destruct (hex_color (t_color t) ++ [44] ++ d ++ [44] ++ rstrip n) as [|z zs] eqn:Ez; [rewrite Eq in Ez; discriminate Ez|]. rewrite <- Ez.
  unfold process_header_info. change (text_eqb (text_of "TC") (text_of "LA")) with false.
  change (text_eqb (text_of "TC") (text_of "AU")) with false. change (text_eqb (text_of "TC") (text_of "CP")) with false.
  change (text_eqb (text_of "TC") (text_of "TC")) with true. cbn iota.
  cbn [app]. rewrite split_on_first.
  2:{ intros H. pose proof (proj1 (hex_chars (t_color t))) as F. rewrite Forall_forall in F. apply F in H. lia. }
  rewrite split_on_first by exact Nd. rewrite split_none by (intros H; apply Nc, rstrip_in, H). cbn [map].
  rewrite strip_hex, hex_round_trip, strip_of_rstrip. reflexivity.
Qed.

Lemma read_entries_app a b out : read_entries (a ++ b) out = do o <- read_entries a out; read_entries b o.
Proof.
  revert out. induction a as [|[k v] a IH]; intros out; [reflexivity|]. cbn [app read_entries].
  destruct (read_entry k v out); [cbn [bindr]; apply IH|reflexivity].
Qed.
Lemma read_threads l : Forall (fun t => opt field (t_description t) /\ opt field (t_catalog t)) l -> forall out,
  read_entries (map (fun t => (text_of "TC", thread_value t)) l) out
  = Ok (mkDL (d_threads out ++ map (fun t => (Some (Z.land (t_color t) 0xFFFFFF), strip (none_text (t_description t)), strip (none_text (t_catalog t)))) l) (d_meta out)).
Proof.
  induction 1 as [|t l [Hd Hc] _ IH]; intros out; cbn [map read_entries]; [rewrite app_nil_r; destruct out; reflexivity|].
  rewrite read_thread by assumption. cbn [bindr]. rewrite IH. cbn [d_threads d_meta]. rewrite <- app_assoc. reflexivity.
Qed.
Lemma read_all extended p a b c d e f g h : info_ok extended p ->
  read_entries (base_entries p a b c d e f g h ++ more_entries extended p) (mkDL [] [])
  = Ok (mkDL (header_threads extended p) (header_meta extended p a b c d e f g h)).
Proof.
  intros [_ H]. rewrite read_entries_app, read_base. cbn [bindr]. unfold more_entries.
  destruct extended; [|reflexivity]. destruct (H eq_refl) as (_ & _ & Ht).
  set (m := header_meta false p a b c d e f g h).
  assert (K1 : ~ In (text_of "author") (map fst m) /\ ~ In (text_of "copyright") (map fst m)).
  { unfold m, header_meta. change (entry "name" (title p)) with (stored (text_of "name") (title p)). split; fresh_key. }
  rewrite read_entries_app.
  assert (A : read_entries (opt_line "AU" (i_author p)) (mkDL [] m) = Ok (mkDL [] (m ++ opt_entry "author" (i_author p)))).
  { destruct (i_author p) as [v|]; cbn [opt_line opt_entry read_entries]; [|rewrite app_nil_r; reflexivity].
    erewrite (read_set _ (text_of "author")); [reflexivity|intros; reflexivity|apply K1]. }
  rewrite A. cbn [bindr].
  assert (C : forall m', ~ In (text_of "copyright") (map fst m') ->
    read_entries (opt_line "CP" (i_copyright p)) (mkDL [] m') = Ok (mkDL [] (m' ++ opt_entry "copyright" (i_copyright p)))).
  { intros m' Hm. destruct (i_copyright p) as [v|]; cbn [opt_line opt_entry read_entries]; [|rewrite app_nil_r; reflexivity].
    erewrite (read_set _ (text_of "copyright")); [reflexivity|intros; reflexivity|exact Hm]. }
  rewrite read_entries_app, C.
  2:{ rewrite map_app. intros K. apply in_app_or in K as [K|K]; [apply K1; exact K|].
      destruct (i_author p) as [v|]; [|exact K]. cbn [opt_entry] in K. change (entry "author" v) with (stored (text_of "author") v) in K.
      apply stored_key in K. discriminate K. }
  cbn [bindr]. rewrite read_threads by exact Ht. cbn [d_threads d_meta app]. unfold header_threads. f_equal. f_equal.
  unfold m, header_meta. rewrite !app_nil_r, <- !app_assoc. reflexivity.
Qed.
