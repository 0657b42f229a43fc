From Coq Require Import Ascii String Decimal DecimalPos DecimalZ ZArith QArith Qround Qabs List Bool Lia Lqa.
From Verif Require Import PyBase EmbConst StreamSpec BitLemmas NumQ QuantModel QuantProofs ThreadModel ThreadProofs Utf8Model Utf8Proofs TextModel TextProofs
  PatternModel NameModel CsvModel GcodeModel GcodeSpec.
Import ListNotations.
Open Scope Z_scope.

(** ** Numbers *)
Lemma fold_horner : forall l n, fold_left (fun n d => 10 * n + d) l n = 10 ^ zlen l * n + value_of l.
Proof.
  induction l as [|d l IH]; intros n.
  - unfold value_of. cbn [fold_left]. change (zlen (@nil Z)) with 0. rewrite Z.pow_0_r. lia.
  - unfold value_of. cbn [fold_left]. rewrite (IH (10 * n + d)), (IH (10 * 0 + d)).
    replace (zlen (d :: l)) with (Z.succ (zlen l)) by (unfold zlen; cbn [List.length]; lia).
    rewrite Z.pow_succ_r by (unfold zlen; lia). ring.
Qed.
Lemma value_cons d l : value_of (d :: l) = d * 10 ^ zlen l + value_of l.
Proof. unfold value_of at 1. cbn [fold_left]. rewrite fold_horner. ring. Qed.
Lemma value_app a b : value_of (a ++ b) = value_of a * 10 ^ zlen b + value_of b.
Proof. unfold value_of at 1. rewrite fold_left_app, fold_horner. fold (value_of a). ring. Qed.
Fixpoint digit_values (d : uint) : list Z :=
  match d with
  | Nil => [] | D0 d => 0 :: digit_values d | D1 d => 1 :: digit_values d | D2 d => 2 :: digit_values d
  | D3 d => 3 :: digit_values d | D4 d => 4 :: digit_values d | D5 d => 5 :: digit_values d | D6 d => 6 :: digit_values d
  | D7 d => 7 :: digit_values d | D8 d => 8 :: digit_values d | D9 d => 9 :: digit_values d
  end.
Lemma digit_values_chars d : text_of_digits d = chars_of (digit_values d).
Proof. induction d; cbn [text_of_digits digit_values chars_of map]; [reflexivity|rewrite IHd; reflexivity..]. Qed.
Lemma digit_values_ok d : digit_list (digit_values d).
Proof. induction d; cbn [digit_values]; constructor; try assumption; lia. Qed.
Lemma digits_acc : forall d acc, Z.pos (Pos.of_uint_acc d acc) = fold_left (fun n d => 10 * n + d) (digit_values d) (Z.pos acc).
Proof.
  induction d; intros acc; cbn [Pos.of_uint_acc digit_values fold_left]; [reflexivity|rewrite IHd; f_equal; lia..].
Qed.
Lemma of_uint_value d : Z.of_uint d = value_of (digit_values d).
Proof.
  unfold Z.of_uint. induction d; cbn [Pos.of_uint digit_values]; try (cbn [Z.of_N]; rewrite digits_acc; reflexivity).
  - reflexivity.
  - rewrite IHd. unfold value_of. cbn [fold_left]. reflexivity.
Qed.
Lemma chars_digits : forall a, digit_list a -> exists d, text_of_digits d = chars_of a /\ digit_values d = a.
Proof.
  induction a as [|x a IH]; intros H; [exists Nil; split; reflexivity|]. apply Forall_cons_iff in H as [Hx H].
  destruct (IH H) as (d & E1 & E2).
  assert (C : x = 0 \/ x = 1 \/ x = 2 \/ x = 3 \/ x = 4 \/ x = 5 \/ x = 6 \/ x = 7 \/ x = 8 \/ x = 9) by lia.
  cbn [chars_of map]. fold (chars_of a). rewrite <- E1.
  destruct C as [-> | [-> | [-> | [-> | [-> | [-> | [-> | [-> | [-> | ->]]]]]]]]];
    [exists (D0 d)|exists (D1 d)|exists (D2 d)|exists (D3 d)|exists (D4 d)|exists (D5 d)|exists (D6 d)|exists (D7 d)|exists (D8 d)|exists (D9 d)];
    (split; [reflexivity|cbn [digit_values]; rewrite E2; reflexivity]).
Qed.
Lemma digits_chars a : digit_list a -> digits (chars_of a) = Ok (value_of a).
Proof. intros H. destruct (chars_digits a H) as (d & <- & <-). unfold digits. rewrite digits_round_trip, of_uint_value. reflexivity. Qed.
Lemma number_chars a : digit_list a -> a <> [] -> number (chars_of a) = Ok (value_of a).
Proof.
  intros H N. destruct (chars_digits a H) as (d & E & E2). rewrite <- E. rewrite number_digits.
  - rewrite of_uint_value, E2. reflexivity.
  - intros ->. cbn in E2. congruence.
Qed.
Lemma no_point a : digit_list a -> ~ In 46 (chars_of a).
Proof. intros H Hin. apply in_map_iff in Hin as (d & E & Hd). unfold digit_list in H. rewrite Forall_forall in H. specialize (H d Hd). cbn beta in *. lia. Qed.
Lemma chars_length b : zlen (chars_of b) = zlen b.
Proof. unfold zlen, chars_of. rewrite map_length. reflexivity. Qed.
Lemma unsigned_whole a : digit_list a -> a <> [] -> unsigned_float (chars_of a) = Ok (inject_Z (value_of a)).
Proof. intros H N. unfold unsigned_float. rewrite split_on_none by (apply no_point, H). rewrite number_chars by assumption. reflexivity. Qed.
Lemma unsigned_point a b : digit_list a -> digit_list b -> a ++ b <> [] ->
  unsigned_float (chars_of a ++ [46] ++ chars_of b) = Ok (inject_Z (value_of a) + inject_Z (value_of b) / inject_Z (10 ^ zlen b))%Q.
Proof.
  intros Ha Hb N. unfold unsigned_float. cbn [app]. rewrite split_on_first by (apply no_point, Ha).
  rewrite split_on_none by (apply no_point, Hb). rewrite !digits_chars by assumption. rewrite chars_length.
  destruct a as [|x a]; [destruct b as [|y b]; [exfalso; apply N; reflexivity|]|]; reflexivity.
Qed.
Lemma sign_float s t : (match t with c :: _ => c <> 43 /\ c <> 45 | [] => False end) ->
  float_of (sign_text s ++ t) = match s with Minus => do q <- unsigned_float t; Ok (- q)%Q | _ => unsigned_float t end.
Proof.
  intros H. destruct t as [|c t]; [contradiction|].
  destruct s; cbn [sign_text app float_of]; [|reflexivity|reflexivity].
  destruct (Z.eqb_spec c 45); [lia|]. destruct (Z.eqb_spec c 43); [lia|]. reflexivity.
Qed.
Lemma writes_read q t : writes q t -> exists r, float_of t = Ok r /\ (r == q)%Q.
Proof.
  intros [s a q' Ha N E|s a b q' Ha Hb N E].
  - exists (sign_value s (inject_Z (value_of a))). split; [|symmetry; exact E].
    rewrite sign_float, unsigned_whole by assumption || (destruct a as [|x a]; [congruence|]; apply Forall_cons_iff in Ha as [Hx _]; cbn [chars_of map]; lia).
    destruct s; reflexivity.
  - eexists. split; [|symmetry; exact E]. rewrite sign_float.
    + rewrite unsigned_point by assumption. destruct s; reflexivity.
    + destruct a as [|x a]; [cbn [chars_of map app]; lia|]. apply Forall_cons_iff in Ha as [Hx _]. cbn [chars_of map app]. lia.
Qed.
Lemma chars_number a : digit_list a -> Forall (fun c => is_number c = true) (chars_of a).
Proof.
  intros H. apply Forall_map. eapply Forall_impl; [|exact H]. intros d Hd. cbn beta in Hd. unfold is_number.
  destruct (Z.leb_spec 48 (48 + d)); [|lia]. destruct (Z.leb_spec (48 + d) 57); [reflexivity|lia].
Qed.
Lemma writes_chars q t : writes q t -> Forall (fun c => is_number c = true) t.
Proof.
  intros [s a q' Ha N E|s a b q' Ha Hb N E]; apply Forall_app; (split; [destruct s; repeat constructor|]).
  - apply chars_number, Ha.
  - apply Forall_app. split; [apply chars_number, Ha|]. constructor; [reflexivity|apply chars_number, Hb].
Qed.

(** ** Bytes *)
Lemma parse_number st t r : p_comment st = None -> Forall (fun c => is_number c = true) t ->
  parse st (t ++ r) = parse (mkP None (p_code st) (p_value st ++ t) (p_words st)) r.
Proof.
  intros E F. revert st E. induction F as [|c t Hc F IH]; intros st E.
  - cbn [app]. rewrite app_nil_r. destruct st as [pc co v w]. cbn in *. subst pc. reflexivity.
  - cbn [app parse]. unfold parse_byte. rewrite E. pose proof Hc as Hc'. unfold is_number in Hc'.
    assert (B : 43 <= c <= 57 /\ c <> 47) by (destruct (Z.leb_spec 48 c); destruct (Z.leb_spec c 57); cbn [andb orb] in Hc';
      rewrite ?orb_true_iff, ?Z.eqb_eq in Hc'; intuition (try discriminate; lia)).
    destruct (Z.eqb_spec c 40); [lia|]. destruct (Z.eqb_spec c 59); [lia|]. destruct (Z.eqb_spec c 9); [lia|].
    destruct (Z.eqb_spec c 32); [lia|]. destruct (Z.eqb_spec c 47); [lia|]. cbn [orb andb]. rewrite Hc. cbn iota.
    rewrite IH by reflexivity. cbn [p_code p_value p_words]. rewrite <- app_assoc. reflexivity.
Qed.
Lemma parse_blanks st t r : p_comment st = None -> Forall (fun c => c = 32 \/ c = 9) t -> parse st (t ++ r) = parse st r.
Proof.
  intros E F. induction F as [|c t Hc F IH]; [reflexivity|]. cbn [app parse]. unfold parse_byte. rewrite E.
  destruct Hc as [-> | ->]; cbn -[parse]; exact IH.
Qed.
Lemma parse_comment_bytes c : forall st t r, p_comment st = Some t -> Forall (fun b => b <> 10 /\ b <> 13 /\ b <> 41) c ->
  parse st (c ++ r) = parse (mkP (Some (t ++ ascii_of c)) (p_code st) (p_value st) (p_words st)) r.
Proof.
  induction c as [|b c IH]; intros st t r E F.
  - cbn. rewrite app_nil_r. destruct st as [pc co v w]. cbn in *. subst pc. reflexivity.
  - apply Forall_cons_iff in F as [Fb F]. cbn [app parse]. unfold parse_byte. rewrite E.
    destruct (Z.eqb_spec b 10); [lia|]. destruct (Z.eqb_spec b 13); [lia|]. destruct (Z.eqb_spec b 41); [lia|]. cbn [orb].
    unfold ascii_of. cbn [filter]. fold (ascii_of c). destruct (b <? 128).
    + rewrite (IH (mkP (Some (t ++ [b])) (p_code st) (p_value st) (p_words st)) (t ++ [b]) r eq_refl F). cbn [p_code p_value p_words]. rewrite <- app_assoc. reflexivity.
    + rewrite (IH _ t r E F). reflexivity.
Qed.
Lemma parse_comment c r st : p_comment st = None -> Forall (fun b => b <> 10 /\ b <> 13 /\ b <> 41) c ->
  parse st ([40] ++ c ++ [41] ++ r) = parse (mkP None (p_code st) (p_value st) (set_comment (ascii_of c) (p_words st))) r.
Proof.
  intros E F. cbn [app parse]. unfold parse_byte at 1. rewrite E. cbn [Z.eqb orb Pos.eqb]. cbn iota.
  rewrite (parse_comment_bytes c (mkP (Some []) (p_code st) (p_value st) (p_words st)) [] (41 :: r) eq_refl F). cbn [p_code p_value p_words app parse].
  unfold parse_byte. cbn [p_comment p_code p_value p_words Z.eqb Pos.eqb orb]. reflexivity.
Qed.

(** The words read, the last one first: [pending] is the one not stored yet. *)
Definition small (w : gword) : text := [gw_letter w + 32].
Definition pend (w : gword) (ws : words) : pstate := mkP None (small w) (gw_text w) ws.
Lemma mark_letter b : 65 <= b <= 90 -> is_letter b = true /\ letter_code b = [b + 32] /\ is_number b = false /\ (b =? 10) || (b =? 13) = false
  /\ (b =? 40) || (b =? 59) = false /\ (b =? 9) || (b =? 32) = false /\ (b =? 47) = false.
Proof.
  intros H. unfold is_letter, letter_code, is_number.
  destruct (Z.leb_spec 65 b); [|lia]. destruct (Z.leb_spec b 90); [|lia]. destruct (Z.leb_spec 48 b); [|lia]. destruct (Z.leb_spec b 57); [lia|].
  destruct (Z.eqb_spec b 43); [lia|]. destruct (Z.eqb_spec b 45); [lia|]. destruct (Z.eqb_spec b 46); [lia|].
  destruct (Z.eqb_spec b 10); [lia|]. destruct (Z.eqb_spec b 13); [lia|]. destruct (Z.eqb_spec b 40); [lia|]. destruct (Z.eqb_spec b 59); [lia|].
  destruct (Z.eqb_spec b 9); [lia|]. destruct (Z.eqb_spec b 32); [lia|]. destruct (Z.eqb_spec b 47); [lia|].
  repeat split; reflexivity.
Qed.
Lemma parse_first w ws r : gword_ok w -> parse (mkP None [] [] ws) (gword_bytes w ++ r) = parse (pend w ws) r.
Proof.
  intros (H1 & H2 & H3). unfold gword_bytes. rewrite <- !app_assoc. cbn [app parse].
  destruct (mark_letter _ H1) as (E1 & E2 & E3 & E4 & E5 & E6 & E7).
  unfold parse_byte. cbn [p_comment p_code p_value p_words]. rewrite E4, E5, E6, E7, E3. cbn [andb].
  unfold parse_mark. cbn [p_comment p_code p_value p_words List.length Nat.eqb negb]. rewrite andb_false_r. cbn [bindr]. rewrite E1, E2.
  cbn [p_comment p_code p_value p_words app]. rewrite parse_number by (reflexivity || (eapply writes_chars; exact H2)).
  cbn [p_comment p_code p_value p_words app]. rewrite parse_blanks by (reflexivity || exact H3). reflexivity.
Qed.
Lemma parse_next w w' ws r q : gword_ok w -> float_of (gw_text w') = Ok q ->
  parse (pend w' ws) (gword_bytes w ++ r) = parse (pend w (set_word (small w') q ws)) r.
Proof.
  intros (H1 & H2 & H3) Hq. unfold gword_bytes. rewrite <- !app_assoc. cbn [app parse].
  destruct (mark_letter _ H1) as (E1 & E2 & E3 & E4 & E5 & E6 & E7).
  unfold parse_byte, pend. cbn [p_comment p_code p_value p_words]. rewrite E4, E5, E6, E7, E3. cbn [andb].
  unfold parse_mark, small. cbn [p_comment p_code p_value p_words List.length Nat.eqb negb]. rewrite E1. cbn [andb orb]. rewrite Hq. cbn [bindr].
  rewrite E2. cbn [p_comment p_code p_value p_words app]. rewrite parse_number by (reflexivity || (eapply writes_chars; exact H2)).
  cbn [p_comment p_code p_value p_words app]. rewrite parse_blanks by (reflexivity || exact H3). reflexivity.
Qed.
Lemma end_byte b : b = 10 \/ b = 13 -> is_letter b = false /\ is_number b = false /\ (b =? 10) || (b =? 13) = true
  /\ (b =? 40) || (b =? 59) = false /\ (b =? 9) || (b =? 32) = false /\ (b =? 47) = false.
Proof. intros [-> | ->]; repeat split; reflexivity. Qed.
Lemma parse_end w ws q b r : float_of (gw_text w) = Ok q -> b = 10 \/ b = 13 ->
  parse (pend w ws) (b :: r) = Ok (set_word (small w) q ws) :: parse p_start r.
Proof.
  intros Hq Hb. destruct (end_byte b Hb) as (E1 & E3 & E4 & E5 & E6 & E7). cbn [parse].
  unfold parse_byte, pend. cbn [p_comment p_code p_value p_words]. rewrite E4, E5, E6, E7, E3. cbn [andb].
  unfold parse_mark, small. cbn [p_comment p_code p_value p_words List.length Nat.eqb negb]. rewrite E1. cbn [andb orb]. rewrite Hq. cbn [bindr].
  cbn [p_comment p_code p_value p_words]. unfold is_empty, set_word. cbn [w_comment w_words]. destruct (w_comment ws); reflexivity.
Qed.
Lemma parse_end_comment ws b r : w_comment ws <> None -> b = 10 \/ b = 13 ->
  parse (mkP None [] [] ws) (b :: r) = Ok ws :: parse p_start r.
Proof.
  intros Hc Hb. destruct (end_byte b Hb) as (E1 & E3 & E4 & E5 & E6 & E7). cbn [parse].
  unfold parse_byte. cbn [p_comment p_code p_value p_words]. rewrite E4, E5, E6, E7, E3. cbn [andb].
  unfold parse_mark. cbn [p_comment p_code p_value p_words List.length Nat.eqb negb]. rewrite E1. cbn [andb orb bindr].
  unfold is_empty. cbn [p_words]. destruct (w_comment ws); [reflexivity|congruence].
Qed.
(** The words of a line, as stored. *)
Definition stored_word (w : gword) (p : text * Q) : Prop := fst p = small w /\ (snd p == gw_value w)%Q.
Lemma parse_words : forall ws w st b r, Forall gword_ok (w :: ws) -> b = 10 \/ b = 13 ->
  exists l, parse (pend w st) (flat_map gword_bytes ws ++ b :: r) = Ok (mkW (w_comment st) (l ++ w_words st)) :: parse p_start r
    /\ Forall2 stored_word (rev (w :: ws)) l.
Proof.
  induction ws as [|w2 ws IH]; intros w st b r F Hb; apply Forall_cons_iff in F as [Fw F];
    destruct (writes_read _ _ (proj1 (proj2 Fw))) as (q & Eq & Hq).
  - cbn [flat_map app]. rewrite (parse_end w st q) by assumption. exists [(small w, q)]. split; [reflexivity|].
    constructor; [|constructor]. split; [reflexivity|exact Hq].
  - cbn [flat_map]. rewrite <- app_assoc. rewrite (parse_next w2 w st _ q) by (assumption || apply (Forall_inv F)).
    destruct (IH w2 (set_word (small w) q st) b r F Hb) as (l & E & H2). rewrite E. exists (l ++ [(small w, q)]). split.
    + unfold set_word. cbn [w_comment w_words]. rewrite <- app_assoc. reflexivity.
    + cbn [rev] in *. apply Forall2_app; [exact H2|]. constructor; [|constructor]. split; [reflexivity|exact Hq].
Qed.
Lemma parse_line l r : gline_ok l ->
  exists ws, parse p_start (gline_bytes l ++ r)
    = Ok (mkW (match gl_comment l with Some c => Some (ascii_of c) | None => None end) ws) :: parse p_start r
    /\ Forall2 stored_word (rev (gl_words l)) ws.
Proof.
  intros (H1 & H2 & H3). unfold gline_bytes. destruct l as [com ws e]. cbn [gl_comment gl_words gl_end] in *.
  assert (P : forall st, p_comment st = None -> p_code st = [] -> p_value st = [] -> w_words (p_words st) = [] ->
    (ws <> [] \/ w_comment (p_words st) <> None) ->
    exists l, parse st (flat_map gword_bytes ws ++ e :: r) = Ok (mkW (w_comment (p_words st)) l) :: parse p_start r /\ Forall2 stored_word (rev ws) l).
  { intros [pc co v w] Ea Eb Ec Ed Ho. cbn in Ea, Eb, Ec, Ed, Ho. subst pc co v. cbn [p_words]. destruct ws as [|w1 ws].
    - cbn [flat_map app]. rewrite parse_end_comment by (tauto || (destruct Ho; [congruence|assumption])). exists []. split; [|constructor].
      destruct w; cbn in *; subst; reflexivity.
    - cbn [flat_map]. rewrite <- app_assoc. rewrite parse_first by apply (Forall_inv H2).
      destruct (parse_words ws w1 w e r H2 H3) as (l & E & Hl). rewrite E, Ed, app_nil_r. eauto. }
  destruct com as [c|].
  - rewrite <- !app_assoc. rewrite parse_comment by (reflexivity || exact H1). cbn [p_start p_code p_value p_words].
    destruct (P (mkP None [] [] (set_comment (ascii_of c) no_words))) as (l & E & Hl); try reflexivity; [right; discriminate|].
    exists l. split; [|exact Hl]. cbn [app]. cbn [app] in E. rewrite E. reflexivity.
  - cbn [app]. rewrite <- app_assoc. destruct (P p_start) as (l & E & Hl); try reflexivity; [left; exact H1|]. eauto.
Qed.

(** ** Words *)
Lemma value_rev : forall ws letter, value_in letter ws
  = match find (fun w => gw_letter w =? letter) (rev ws) with Some w => Some (gw_value w) | None => None end.
Proof.
  intros ws letter. rewrite <- (rev_involutive ws) at 1. generalize (rev ws) as l. intros l.
  induction l as [|w l IH]; [reflexivity|]. cbn [rev find].
  assert (A : forall a, value_in letter (a ++ [w]) = if gw_letter w =? letter then Some (gw_value w) else value_in letter a).
  { induction a as [|x a IHa]; cbn [app value_in]; [reflexivity|]. rewrite IHa. destruct (gw_letter w =? letter); [reflexivity|]. reflexivity. }
  rewrite A. destruct (gw_letter w =? letter); [reflexivity|exact IH].
Qed.
Definition oqeq (a b : option Q) : Prop := match a, b with Some a, Some b => (a == b)%Q | None, None => True | _, _ => False end.
Lemma word_stored com ws l letter : Forall2 stored_word (rev ws) l ->
  oqeq (word [letter + 32] (mkW com l)) (value_in letter ws).
Proof.
  intros H. rewrite value_rev. unfold word. cbn [w_words]. induction H as [|w p ws' l [E1 E2] H IH]; [exact I|].
  cbn [find]. rewrite E1. unfold small. cbn [text_eqb]. rewrite andb_true_r.
  replace (gw_letter w + 32 =? letter + 32) with (gw_letter w =? letter) by (destruct (Z.eqb_spec (gw_letter w) letter); destruct (Z.eqb_spec (gw_letter w + 32) (letter + 32)); lia || reflexivity).
  destruct (gw_letter w =? letter); [|exact IH]. destruct p as [c q]. exact E2.
Qed.

(** ** The machine *)
Definition near (st : gstate) (absolute : bool) (unit px py : Q) : Prop :=
  g_absolute st = absolute /\ (g_scale st == unit)%Q /\ (g_x st == px)%Q /\ (g_y st == py)%Q.
(** One line: what is added and the next state. *)
Definition line_out (i : gmeaning) (absolute : bool) (unit px py : Q) : list (stitch Q) * (bool * Q * Q * Q) :=
  match i with
  | Sew x y =>
      let x' := if absolute then (- (unit * x))%Q else (px - unit * x)%Q in
      let y' := if absolute then (- (unit * y))%Q else (py - unit * y)%Q in
      ([mkS x' y' STITCH], (absolute, unit, x', y'))
  | Millimetres => ([], (absolute, 10%Q, px, py))
  | Inches => ([], (absolute, 254%Q, px, py))
  | Absolute => ([], (true, unit, px, py))
  | Relative => ([], (false, unit, px, py))
  | Pause => ([mkS px py COLOR_CHANGE], (absolute, unit, px, py))
  | Finish => ([mkS px py END], (absolute, unit, px, py))
  | Nothing => ([], (absolute, unit, px, py))
  end.
Lemma sews_step i absolute unit px py r : sews absolute unit px py (i :: r)
  = fst (line_out i absolute unit px py) ++ (let '(a, u, x, y) := snd (line_out i absolute unit px py) in sews a u x y r).
Proof. destruct i; reflexivity. Qed.
Lemma qeqb_true a b : (a == b)%Q -> Qeq_bool a b = true.
Proof. apply Qeq_bool_iff. Qed.
Lemma qeqb_false a b : ~ (a == b)%Q -> Qeq_bool a b = false.
Proof. intros H. destruct (Qeq_bool a b) eqn:E; [apply Qeq_bool_iff in E; contradiction|reflexivity]. Qed.
Ltac qtest :=
  repeat match goal with
  | |- context [Qeq_bool ?a ?b] =>
      first [rewrite (qeqb_true a b) by (assumption || Lqa.lra) | rewrite (qeqb_false a b) by (assumption || (intro; Lqa.lra))];
      cbn [orb andb]; cbn iota
  end.
Lemma oqeq_some a v : oqeq a (Some v) -> exists q, a = Some q /\ (q == v)%Q.
Proof. destruct a as [q|]; [eauto|contradiction]. Qed.
Lemma oqeq_none a : oqeq a None -> a = None.
Proof. destruct a; [contradiction|reflexivity]. Qed.
Ltac use T k := let H := fresh in pose proof (T k ltac:(cbn; tauto)) as H; unfold inject_Z in H; rewrite H.
Lemma words_step ws i com l st absolute unit px py : means ws i -> Forall2 stored_word (rev ws) l -> near st absolute unit px py ->
  exists s st', do_words (mkW com l) st = Ok (s, st') /\ Forall2 same_stitch s (fst (line_out i absolute unit px py))
    /\ (let '(a, u, x, y) := snd (line_out i absolute unit px py) in near st' a u x y).
Proof.
  intros Hm H2 (N1 & N2 & N3 & N4). unfold do_words, do_m.
  pose proof (word_stored com ws l G H2) as Wg. pose proof (word_stored com ws l M H2) as Wm.
  pose proof (word_stored com ws l X H2) as Wx. pose proof (word_stored com ws l Y H2) as Wy.
  change [G + 32] with code_g in Wg. change [M + 32] with code_m in Wm. change [X + 32] with code_x in Wx. change [Y + 32] with code_y in Wy.
  unfold needed.
  destruct Hm as [v x y Hg Hv Hx Hy|v Hg Hv Hm|v Hg Hv Hm|v Hg Hv Hm|v Hg Hv Hm|v Hg Hv Hxy Hm|v Hg Hv Hm|v Hg Hm Hv|v Hg Hm Hv|v Hg Hm Hv|Hg Hm];
    rewrite Hg in Wg; try rewrite Hm in Wm; try rewrite Hx in Wx; try rewrite Hy in Wy;
    try (apply oqeq_some in Wg as (qg & -> & Eg)); try (apply oqeq_none in Wg; rewrite Wg);
    try (apply oqeq_some in Wm as (qm & -> & Em)); try (apply oqeq_none in Wm; rewrite Wm).
  - apply oqeq_some in Wx as (qx & -> & Ex). apply oqeq_some in Wy as (qy & -> & Ey). cbn [andb bindr].
    assert (T : Qeq_bool qg 0 || Qeq_bool qg 1 = true) by (apply orb_true_iff; rewrite !Qeq_bool_iff; destruct Hv; [left|right]; Lqa.lra).
    rewrite T. rewrite N1. cbn [line_out fst snd]. destruct absolute.
    + eexists. eexists. split; [reflexivity|]. split.
      * constructor; [|constructor]. unfold same_stitch. cbn [sx sy scmd]. rewrite Ex, Ey, N2. repeat split; ring.
      * unfold near. cbn [g_absolute g_scale g_x g_y]. rewrite Ex, Ey, N2. repeat split; try ring. 
    + eexists. eexists. split; [reflexivity|]. split.
      * constructor; [|constructor]. unfold same_stitch. cbn [sx sy scmd]. rewrite Ex, Ey, N2, N3, N4. repeat split; ring.
      * unfold near. cbn [g_absolute g_scale g_x g_y]. rewrite Ex, Ey, N2, N3, N4. repeat split; ring.
  - rewrite (qeqb_false qg 0), (qeqb_false qg 1) by (intro; destruct Hv; Lqa.lra). rewrite andb_false_r. cbn [orb].
    assert (T : Qeq_bool qg 21 || Qeq_bool qg 71 = true) by (apply orb_true_iff; rewrite !Qeq_bool_iff; destruct Hv; [left|right]; Lqa.lra).
    rewrite T. eexists. eexists. split; [reflexivity|]. split; [constructor|]. repeat split; cbn; assumption || reflexivity.
  - rewrite (qeqb_false qg 0), (qeqb_false qg 1) by (intro; destruct Hv; Lqa.lra). rewrite andb_false_r. cbn [orb].
    rewrite (qeqb_false qg 21), (qeqb_false qg 71) by (intro; destruct Hv; Lqa.lra). cbn [orb].
    assert (T : Qeq_bool qg 20 || Qeq_bool qg 70 = true) by (apply orb_true_iff; rewrite !Qeq_bool_iff; destruct Hv; [left|right]; Lqa.lra).
    rewrite T. eexists. eexists. split; [reflexivity|]. split; [constructor|]. repeat split; cbn; assumption || reflexivity.
  - rewrite (qeqb_false qg 0), (qeqb_false qg 1), (qeqb_false qg 21), (qeqb_false qg 71), (qeqb_false qg 20), (qeqb_false qg 70),
      (qeqb_true qg 90) by (assumption || (intro; Lqa.lra) || Lqa.lra). rewrite andb_false_r. cbn [orb].
    eexists. eexists. split; [reflexivity|]. split; [constructor|]. repeat split; cbn; assumption || reflexivity.
  - rewrite (qeqb_false qg 0), (qeqb_false qg 1), (qeqb_false qg 21), (qeqb_false qg 71), (qeqb_false qg 20), (qeqb_false qg 70),
      (qeqb_false qg 90), (qeqb_true qg 91) by (assumption || (intro; Lqa.lra) || Lqa.lra). rewrite andb_false_r. cbn [orb].
    eexists. eexists. split; [reflexivity|]. split; [constructor|]. repeat split; cbn; assumption || reflexivity.
  - rewrite (qeqb_true qg 0), (qeqb_false qg 1), (qeqb_false qg 21), (qeqb_false qg 71), (qeqb_false qg 20), (qeqb_false qg 70),
      (qeqb_false qg 90), (qeqb_false qg 91) by (assumption || (intro; Lqa.lra) || Lqa.lra).
    assert (T : (match word code_x (mkW com l) with Some _ => true | None => false end)
      && (match word code_y (mkW com l) with Some _ => true | None => false end) = false).
    { destruct Hxy as [E|E]; [rewrite E in Wx; apply oqeq_none in Wx; rewrite Wx; reflexivity|
        rewrite E in Wy; apply oqeq_none in Wy; rewrite Wy; apply andb_false_r]. }
    rewrite T. cbn [andb orb].
    eexists. eexists. split; [reflexivity|]. split; [constructor|]. repeat split; cbn; assumption || reflexivity.
  - assert (T : forall k, In k [0; 1; 20; 21; 70; 71; 90; 91] -> Qeq_bool qg (inject_Z k) = false).
    { intros k Hk. rewrite Forall_forall in Hv. apply qeqb_false. intros E. apply (Hv k Hk). rewrite <- Eg. exact E. }
    use T 0. use T 1. use T 20. use T 21. use T 70. use T 71. use T 90. use T 91. rewrite andb_false_r. cbn [orb].
    eexists. eexists. split; [reflexivity|]. split; [constructor|]. repeat split; cbn; assumption || reflexivity.
  - rewrite (qeqb_false qm 30), (qeqb_false qm 2) by (intro; destruct Hv; Lqa.lra). cbn [orb].
    assert (T : Qeq_bool qm 0 || Qeq_bool qm 1 = true) by (apply orb_true_iff; rewrite !Qeq_bool_iff; destruct Hv; [left|right]; Lqa.lra).
    rewrite T. eexists. eexists. split; [reflexivity|]. split; [constructor; [|constructor]; repeat split; cbn; assumption || reflexivity|].
    repeat split; cbn; assumption || reflexivity.
  - assert (T : Qeq_bool qm 30 || Qeq_bool qm 2 = true) by (apply orb_true_iff; rewrite !Qeq_bool_iff; destruct Hv; [left|right]; Lqa.lra).
    rewrite T. eexists. eexists. split; [reflexivity|]. split; [constructor; [|constructor]; repeat split; cbn; assumption || reflexivity|].
    repeat split; cbn; assumption || reflexivity.
  - assert (T : forall k, In k [0; 1; 2; 30] -> Qeq_bool qm (inject_Z k) = false).
    { intros k Hk. rewrite Forall_forall in Hv. apply qeqb_false. intros E. apply (Hv k Hk). rewrite <- Em. exact E. }
    use T 0. use T 1. use T 2. use T 30. cbn [orb].
    eexists. eexists. split; [reflexivity|]. split; [constructor|]. repeat split; cbn; assumption || reflexivity.
  - eexists. eexists. split; [reflexivity|]. split; [constructor|]. repeat split; cbn; assumption || reflexivity.
Qed.

(** ** Comments *)
Lemma starts_spec : forall p t, starts_with p t = true <-> exists r, t = p ++ r.
Proof.
  induction p as [|a p IH]; intros t.
  - cbn. split; [eauto|reflexivity].
  - destruct t as [|b t]; cbn [starts_with].
    + split; [discriminate|]. intros (r & E). discriminate E.
    + rewrite andb_true_iff, Z.eqb_eq, IH. split.
      * intros [-> (r & ->)]. exists r. reflexivity.
      * intros (r & E). injection E as -> ->. eauto.
Qed.
Lemma within_spec : forall t p, within p t = true <-> occurs p t.
Proof.
  induction t as [|c t IH]; intros p; cbn [within]; rewrite orb_true_iff, starts_spec.
  - split.
    + intros [(r & E) | H]; [exists [], r; exact E|discriminate].
    + intros (a & b & E). left. destruct a; [exists b; exact E|discriminate E].
  - rewrite IH. split.
    + intros [(r & E) | (a & b & ->)]; [exists [], r; exact E|exists (c :: a), b; reflexivity].
    + intros (a & b & E). destruct a as [|x a]; [left; exists b; exact E|right]. injection E as -> ->. exists a, b. reflexivity.
Qed.
Lemma hex_no_space c : ~ In 32 (hex_color c).
Proof.
  assert (H : forall b, ~ In 32 (hex2 (Z.land b 0xFF))).
  { intros b [E|[E|[]]]; unfold hex_digit in E; pose proof (Z.land_ones b 8 ltac:(lia)) as L; change (Z.ones 8) with 255 in L;
      change 0xFF with 255 in E; rewrite L in E; change (2 ^ 8) with 256 in E;
      [destruct (Z.ltb_spec (b mod 256 / 16) 10) | destruct (Z.ltb_spec (b mod 256 mod 16) 10)]; lia. }
  unfold hex_color. intros Hin. rewrite !in_app_iff in Hin. destruct Hin as [[E|[]] | [Hin | [Hin | Hin]]]; [lia|eapply H; exact Hin..].
Qed.
Lemma notes_read other c cols ws : notes c cols ->
  comment_thread other (mkW (match c with Some c => Some (ascii_of c) | None => None end) ws) = Ok (map coloured cols).
Proof.
  intros [|c0 H|c0 a color r Ha Ho E Hr]; unfold comment_thread; cbn [w_comment].
  - reflexivity.
  - destruct (within (text_of "Thread") (ascii_of c0)) eqn:E; [apply within_spec in E; contradiction|reflexivity].
  - rewrite (proj2 (within_spec _ _) Ho), E. cbn [app]. rewrite split_on_first by exact Ha.
    assert (S : exists q, split_on 32 (hex_color color ++ r) = hex_color color :: q).
    { destruct Hr as [-> | (r' & ->)]; [rewrite app_nil_r, split_on_none by apply hex_no_space; eauto|].
      rewrite split_on_first by apply hex_no_space. eauto. }
    destruct S as (q & ->).
    assert (T : parse_string_color other (hex_color color) = Ok (Some (Z.land color 0xFFFFFF))) by (rewrite <- hex_round_trip; reflexivity).
    rewrite T. cbn [bindr map]. change 0xFFFFFF with (Z.ones 24). rewrite Z.land_ones by lia. reflexivity.
Qed.

(** ** Programs *)
Theorem program_read other : forall p i cols, Forall gline_ok p -> Forall2 means (map gl_words p) i -> Forall2 notes (map gl_comment p) cols ->
  forall st absolute unit px py, near st absolute unit px py ->
  exists l, interpret other st (parse p_start (flat_map gline_bytes p)) = Ok (l, map coloured (concat cols))
    /\ Forall2 same_stitch l (sews absolute unit px py i).
Proof.
  induction p as [|ln p IH]; intros i cols F Hm Hc st absolute unit px py N.
  - inversion Hm; subst. inversion Hc; subst. exists []. split; [reflexivity|constructor].
  - cbn [map] in Hm, Hc. inversion Hm as [|? i0 ? ir Hi Hm']; subst. inversion Hc as [|? c0 ? cr Hc0 Hc']; subst.
    apply Forall_cons_iff in F as [Fl F]. cbn [flat_map].
    destruct (parse_line ln (flat_map gline_bytes p) Fl) as (ws & E & H2). rewrite E. cbn [interpret].
    rewrite (notes_read other _ _ ws Hc0). cbn [bindr].
    destruct (words_step (gl_words ln) i0 (match gl_comment ln with Some c => Some (ascii_of c) | None => None end) ws st absolute unit px py Hi H2 N)
      as (s & st' & Es & Hs & N'). rewrite Es. cbn [bindr].
    rewrite sews_step. destruct (snd (line_out i0 absolute unit px py)) as [[[a u] x'] y'] eqn:Eo.
    destruct (IH ir cr F Hm' Hc' st' a u x' y' N') as (l & El & Hl). rewrite El. cbn [bindr].
    exists (s ++ l). split; [cbn [concat]; rewrite map_app; reflexivity|]. apply Forall2_app; assumption.
Qed.
