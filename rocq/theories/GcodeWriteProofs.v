From Coq Require Import Ascii String Decimal DecimalPos DecimalZ ZArith QArith Qround Qabs List Bool Lia Lqa.
From Verif Require Import PyBase EmbConst StreamSpec BitLemmas NumQ QuantModel QuantProofs ThreadModel ThreadProofs Utf8Model Utf8Proofs TextModel TextProofs
  PatternModel NameModel CsvModel GcodeModel GcodeSpec GcodeProofs.
Import ListNotations.
Open Scope Z_scope.

(** ** Numbers *)
Lemma str_chars v : 0 <= v -> exists a, str_of_int v = chars_of a /\ digit_list a /\ a <> [] /\ value_of a = v.
Proof.
  intros H. pose proof (to_int_nonnil v) as N. pose proof (DecimalZ.of_to v : Z.of_int (Z.to_int v) = v) as E.
  unfold str_of_int. destruct (Z.to_int v) as [d|d] eqn:Ev.
  - exists (digit_values d). split; [apply digit_values_chars|]. split; [apply digit_values_ok|]. split; [destruct d; [congruence|discriminate..]|].
    rewrite <- of_uint_value. exact E.
  - destruct v as [|p|p]; discriminate || lia.
Qed.
Lemma decimals_chars : forall d n, 0 <= n < 10 ^ Z.of_nat d ->
  exists b, decimals d n = chars_of b /\ digit_list b /\ zlen b = Z.of_nat d /\ value_of b = n.
Proof.
  induction d as [|d IH]; intros n H.
  - exists []. cbn in H. split; [reflexivity|]. split; [constructor|]. split; [reflexivity|]. unfold value_of. cbn. lia.
  - rewrite Nat2Z.inj_succ, Z.pow_succ_r in H by lia.
    destruct (IH (n / 10)) as (b & E & Hb & Hl & Hv); [lia|]. exists (b ++ [n mod 10]). cbn [decimals]. rewrite E.
    split; [unfold chars_of; rewrite map_app; reflexivity|]. split; [apply Forall_app; split; [exact Hb|constructor; [lia|constructor]]|].
    split; [unfold zlen in *; rewrite app_length; cbn [List.length]; lia|].
    rewrite value_app, Hv. unfold value_of. cbn [fold_left]. change (zlen [n mod 10]) with 1. lia.
Qed.
Definition rounded (d : nat) (q : Q) : Q := (inject_Z (q_round (q * inject_Z (10 ^ Z.of_nat d))) / inject_Z (10 ^ Z.of_nat d))%Q.
Lemma fixed_writes d q : writes (rounded d q) (fixed d q).
Proof.
  unfold fixed, rounded. set (p := 10 ^ Z.of_nat d). assert (P : 0 < p) by (apply Z.pow_pos_nonneg; lia).
  set (v := q_round (q * inject_Z p)). set (n := Z.abs v).
  destruct (str_chars (n / p)) as (a & Ea & Ha & Na & Va); [subst n; apply Z.div_pos; lia|].
  destruct (decimals_chars d (n mod p)) as (b & Eb & Hb & Lb & Vb); [apply Z.mod_pos_bound, P|]. rewrite Ea, Eb.
  assert (PQ : ~ (inject_Z p == 0)%Q) by (intros E; unfold Qeq in E; cbn in E; lia).
  assert (D : (inject_Z (n / p) + inject_Z (n mod p) / inject_Z p == inject_Z n / inject_Z p)%Q).
  { rewrite (Z.div_mod n p) at 3 by lia. rewrite inject_Z_plus, inject_Z_mult. field. exact PQ. }
  pose proof (writes_point (if Qle_bool 0 q then No_sign else Minus) a b) as W.
  replace ((if Qle_bool 0 q then [] else [45]) ++ chars_of a ++ [46] ++ chars_of b)
    with (sign_text (if Qle_bool 0 q then No_sign else Minus) ++ chars_of a ++ [46] ++ chars_of b) by (destruct (Qle_bool 0 q); reflexivity).
  apply W; [exact Ha|exact Hb|destruct a; [congruence|discriminate]|].
  rewrite Va, Vb, Lb. fold p.
  assert (R : (sign_value (if Qle_bool 0 q then No_sign else Minus) (inject_Z (n / p) + inject_Z (n mod p) / inject_Z p)
    == sign_value (if Qle_bool 0 q then No_sign else Minus) (inject_Z n / inject_Z p))%Q).
  { destruct (Qle_bool 0 q); cbn [sign_value]; rewrite D; reflexivity. }
  rewrite R. destruct (Qle_bool 0 q) eqn:S; cbn [sign_value].
  - assert (0 <= v).
    { apply q_round_ge. apply Qle_bool_iff in S. assert (0 <= q * inject_Z p)%Q by (apply Qmult_le_0_compat; [exact S|rewrite <- (Zle_Qle 0); lia]).
      change (inject_Z 0) with 0%Q. lra. }
    subst n. rewrite Z.abs_eq by assumption. reflexivity.
  - assert (v <= 0).
    { apply q_round_le. assert (q < 0)%Q by (apply Qnot_le_lt; intros C; apply Qle_bool_iff in C; congruence).
      assert (0 <= (- q) * inject_Z p)%Q by (apply Qmult_le_0_compat; [lra|rewrite <- (Zle_Qle 0); lia]).
      change (inject_Z 0) with 0%Q. lra. }
    subst n. rewrite Z.abs_neq by assumption. rewrite inject_Z_opp. field. exact PQ.
Qed.
(** What is read of a coordinate. *)
Lemma read_back x : hundredth (- x) (- (10 * rounded 3 (x / 10))).
Proof.
  unfold rounded. change (10 ^ Z.of_nat 3) with 1000. set (n := q_round (x / 10 * inject_Z 1000)).
  assert (B := q_round_half (x / 10 * inject_Z 1000)). fold n in B.
  assert (E : (x / 10 * inject_Z 1000 == 100 * x)%Q) by (change (inject_Z 1000) with 1000%Q; field).
  assert (V : (- (10 * (inject_Z n / inject_Z 1000)) == - inject_Z n / 100)%Q) by (change (inject_Z 1000) with 1000%Q; field).
  rewrite E in B. split.
  - rewrite V. apply Qabs_Qle_condition. assert (D : (- inject_Z n / 100 == - (1 # 100) * inject_Z n)%Q) by field. rewrite D. lra.
  - exists (- n). rewrite V. unfold Qdiv, Qeq, Qmult, Qinv, inject_Z. cbn. lia.
Qed.

(** ** Texts *)
Lemma utf8_app a : forall b x y, utf8_encode a = Ok x -> utf8_encode b = Ok y -> utf8_encode (a ++ b) = Ok (x ++ y).
Proof.
  induction a as [|c a IH]; intros b x y Ha Hb.
  - cbn in Ha. injection Ha as <-. exact Hb.
  - cbn [app utf8_encode] in *. destruct (utf8_char c) as [u|e]; [|discriminate]. cbn [bindr] in *.
    destruct (utf8_encode a) as [v|e] eqn:E; [|discriminate]. cbn [bindr] in *. injection Ha as <-.
    rewrite (IH b v y eq_refl Hb). cbn [bindr]. rewrite app_assoc. reflexivity.
Qed.
Lemma comment_encode t : comment_text t -> exists c, utf8_encode t = Ok c /\ Forall (fun b => b <> 10 /\ b <> 13 /\ b <> 41) c /\ ascii_of c = ascii_of t.
Proof.
  induction 1 as [|c t [Hc N] F IH]; [exists []; repeat split; constructor|].
  destruct IH as (r & E & Fr & Ar). cbn [utf8_encode]. rewrite E.
  assert (H : exists u, utf8_char c = Ok u /\ Forall (fun b => b <> 10 /\ b <> 13 /\ b <> 41) u /\ ascii_of u = ascii_of [c]).
  { unfold utf8_char, ascii_of. cbn [filter]. destruct (Z.ltb_spec c 128).
    - exists [c]. split; [reflexivity|]. split; [repeat constructor; lia|]. cbn [filter]. destruct (Z.ltb_spec c 128); [reflexivity|lia].
    - assert (K : forall u, Forall (fun b => 128 <= b) u -> Forall (fun b => b <> 10 /\ b <> 13 /\ b <> 41) u /\ filter (fun b => b <? 128) u = []).
      { induction 1 as [|b u Hb Fu [I1 I2]]; [split; [constructor|reflexivity]|]. split; [constructor; [lia|exact I1]|].
        cbn [filter]. destruct (Z.ltb_spec b 128); [lia|exact I2]. }
      destruct (Z.ltb_spec c 2048).
      { eexists. split; [reflexivity|]. apply K. repeat constructor; lia. }
      assert (S : surrogate c = false) by (unfold surrogate; destruct (Z.leb_spec 0xD800 c); destruct (Z.leb_spec c 0xDFFF); cbn; lia || reflexivity).
      rewrite S. destruct (Z.ltb_spec c 65536); eexists; (split; [reflexivity|]); apply K; repeat constructor; lia. }
  destruct H as (u & -> & Fu & Au). cbn [bindr]. eexists. split; [reflexivity|]. split; [apply Forall_app; split; assumption|].
  unfold ascii_of in *. rewrite filter_app, Au, Ar. change (c :: t) with ([c] ++ t). rewrite filter_app. reflexivity.
Qed.
Definition plain_ascii (t : text) : Prop := Forall (fun c => 0 <= c < 128) t.
Lemma plain_encode t : plain_ascii t -> utf8_encode t = Ok t.
Proof. intros H. apply utf8_ascii. exact H. Qed.

(** A text whose characters are none that matter. *)
Definition quiet (c : Z) : Prop := 0 <= c < 128 /\ c <> 10 /\ c <> 13 /\ c <> 41 /\ c <> 104.
Definition quietb (c : Z) : bool := (0 <=? c) && (c <? 128) && negb (c =? 10) && negb (c =? 13) && negb (c =? 41) && negb (c =? 104).
Lemma quietb_ok t : forallb quietb t = true -> Forall quiet t.
Proof.
  intros H. apply Forall_forall. intros c Hc. rewrite forallb_forall in H. specialize (H c Hc). unfold quietb in H.
  rewrite !andb_true_iff, !negb_true_iff, !Z.eqb_neq, Z.leb_le, Z.ltb_lt in H. unfold quiet. intuition.
Qed.
Lemma quiet_harmless t : Forall quiet t -> harmless t.
Proof.
  intros H. split.
  - eapply Forall_impl; [|exact H]. unfold quiet. intros c Hc. cbn beta in *. lia.
  - intros (a & b & E). assert (Hin : In 104 (ascii_of t)) by (rewrite E; apply in_or_app; right; apply in_or_app; left; cbn; tauto).
    unfold ascii_of in Hin. apply filter_In in Hin as [Hin _]. rewrite Forall_forall in H. specialize (H _ Hin). unfold quiet in H. lia.
Qed.
Lemma quiet_number t : Forall (fun c => is_number c = true) t -> Forall quiet t.
Proof.
  intros H. eapply Forall_impl; [|exact H]. intros c Hc. unfold is_number in Hc. unfold quiet.
  destruct (Z.leb_spec 48 c); destruct (Z.leb_spec c 57); cbn [andb orb] in Hc; rewrite ?orb_true_iff, ?Z.eqb_eq in Hc; intuition (try discriminate; lia).
Qed.
Lemma quiet_str v : Forall quiet (str_of_int v).
Proof. eapply Forall_impl; [|apply str_of_int_chars]. unfold number_char, digit, quiet. intros c Hc. cbn beta in *. lia. Qed.
Lemma quiet_fixed d q : Forall quiet (fixed d q).
Proof. apply quiet_number. eapply writes_chars. apply fixed_writes. Qed.
Lemma quiet_side q : Forall quiet (show_side "inf" q) /\ Forall quiet (show_side "-inf" q).
Proof. destruct q; cbn [show_side]; (split; [apply quiet_fixed|apply quiet_fixed]) || (split; apply quietb_ok; reflexivity). Qed.
Lemma names_quiet : forallb (fun p => forallb quietb (snd p)) common_names = true.
Proof. vm_compute. reflexivity. Qed.
Lemma name_of_in : forall names c n, name_of c names = Some n -> exists k, In (k, n) names.
Proof.
  induction names as [|[k m] names IH]; intros c n E; cbn [name_of] in E; [discriminate|].
  destruct (k =? c); [injection E as ->; exists k; left; reflexivity|]. destruct (IH c n E) as (k' & Hk). exists k'. right. exact Hk.
Qed.
Lemma quiet_name k : Forall quiet (count_name k).
Proof.
  unfold count_name. destruct (name_of (Z.land k COMMAND_MASK) common_names) as [n|] eqn:E; apply Forall_app; (split; [apply quietb_ok; reflexivity|]).
  - apply name_of_in in E as (k' & Hk). apply quietb_ok. pose proof names_quiet as Q. rewrite forallb_forall in Q. exact (Q _ Hk).
  - apply quiet_str.
Qed.

(** ** The lines written *)
(** Lines [p] of a file that mean [i] and name the colours [cols]. *)
Record part (t : text) (p : list gline) (i : list gmeaning) (cols : list (list Z)) : Prop := {
  part_encode : utf8_encode t = Ok (flat_map gline_bytes p);
  part_ok : Forall gline_ok p;
  part_means : Forall2 means (map gl_words p) i;
  part_notes : Forall2 notes (map gl_comment p) cols }.
Lemma part_nil : part [] [] [] [].
Proof. split; constructor. Qed.
Lemma part_app t p i c t' p' i' c' : part t p i c -> part t' p' i' c' -> part (t ++ t') (p ++ p') (i ++ i') (c ++ c').
Proof.
  intros [A1 A2 A3 A4] [B1 B2 B3 B4]. split.
  - rewrite flat_map_app. apply utf8_app; assumption.
  - apply Forall_app; split; assumption.
  - rewrite map_app. apply Forall2_app; assumption.
  - rewrite map_app. apply Forall2_app; assumption.
Qed.
Lemma means_nothing : means [] Nothing.
Proof. apply means_none; reflexivity. Qed.
Lemma remark_part t cols : comment_text t -> (forall c, ascii_of c = ascii_of t -> notes (Some c) cols) ->
  exists p, part (remark t) p [Nothing] [cols].
Proof.
  intros Ht Hn. destruct (comment_encode t Ht) as (c & E & F & A).
  exists [{| gl_comment := Some c; gl_words := []; gl_end := 10 |}]. split.
  - unfold remark. cbn [flat_map gline_bytes gl_comment gl_words gl_end app]. rewrite app_nil_r.
    apply (utf8_app [40] (t ++ [41; 10]) [40]); [reflexivity|]. rewrite <- app_assoc. apply utf8_app; [exact E|reflexivity].
  - constructor; [|constructor]. unfold gline_ok. cbn [gl_comment gl_words gl_end]. repeat split; [exact F|constructor|left; reflexivity].
  - constructor; [apply means_nothing|constructor].
  - constructor; [apply Hn, A|constructor].
Qed.
Lemma harmless_part t : harmless t -> exists p, part (remark t) p [Nothing] [[]].
Proof. intros [H1 H2]. apply remark_part; [exact H1|]. intros c E. apply notes_other. rewrite E. exact H2. Qed.
(** Parts in which nothing is sewn and no colour named. *)
Definition idle (t : text) : Prop := exists p n, part t p (repeat Nothing n) (repeat [] n).
Lemma idle_app a b : idle a -> idle b -> idle (a ++ b).
Proof. intros (p & n & Hp) (q & m & Hq). exists (p ++ q), (n + m)%nat. rewrite !repeat_app. apply part_app; assumption. Qed.
Lemma idle_nil : idle [].
Proof. exists [], 0%nat. apply part_nil. Qed.
Lemma idle_quiet t : Forall quiet t -> idle (remark t).
Proof. intros H. apply quiet_harmless, harmless_part in H as (p & Hp). exists p, 1%nat. exact Hp. Qed.
Lemma idle_harmless t : harmless t -> idle (remark t).
Proof. intros H. apply harmless_part in H as (p & Hp). exists p, 1%nat. exact Hp. Qed.
Lemma idle_named s t : forallb quietb (text_of s) = true -> Forall quiet t -> idle (remark (text_of s ++ t)).
Proof. intros H1 H2. apply idle_quiet, Forall_app. split; [apply quietb_ok, H1|exact H2]. Qed.
Lemma idle_flat {A} (f : A -> text) l : (forall a, In a l -> idle (f a)) -> idle (flat_map f l).
Proof.
  induction l as [|a l IH]; intros H; [apply idle_nil|]. cbn [flat_map]. apply idle_app; [apply H; left; reflexivity|].
  apply IH. intros b Hb. apply H. right. exact Hb.
Qed.
Lemma data_idle l : idle (gcode_data l).
Proof.
  unfold gcode_data. destruct (bounds l) as [[[x0 y0] x1] y1].
  repeat (apply idle_app; [apply idle_named; [reflexivity|apply quiet_str || apply quiet_side]|]).
  apply idle_flat. intros [k n] _. apply idle_quiet. apply Forall_app. split; [apply quiet_name|]. apply Forall_app.
  split; [apply quietb_ok; reflexivity|apply quiet_str].
Qed.
Lemma metadata_idle extras : Forall (fun e => harmless (fst e ++ text_of ": " ++ snd e)) extras -> idle (gcode_metadata extras).
Proof.
  intros H. unfold gcode_metadata. apply idle_flat. intros [k v] Hin. rewrite Forall_forall in H. apply idle_harmless. exact (H _ Hin).
Qed.
Definition thread_texts (t : thread) : Prop :=
  comment_text (str_opt (t_description t)) /\ comment_text (str_opt (t_brand t)) /\ comment_text (str_opt (t_catalog t)).
Lemma quiet_comment t : Forall quiet t -> comment_text t.
Proof. intros H. apply quiet_harmless, H. Qed.
Lemma comment_app a b : comment_text a -> comment_text b -> comment_text (a ++ b).
Proof. intros H1 H2. apply Forall_app. split; assumption. Qed.
Lemma hex_comment c : comment_text (hex_color c).
Proof.
  assert (H : forall b, comment_text (hex2 (Z.land b 0xFF))).
  { intros b. pose proof (Z.land_ones b 8 ltac:(lia)) as L. change (Z.ones 8) with 255 in L. change 0xFF with 255. rewrite L.
    change (2 ^ 8) with 256. unfold hex2, hex_digit.
    constructor; [destruct (Z.ltb_spec (b mod 256 / 16) 10); lia|]. constructor; [destruct (Z.ltb_spec (b mod 256 mod 16) 10); lia|constructor]. }
  unfold hex_color. constructor; [lia|]. cbn [app]. repeat (apply Forall_app; split); apply H.
Qed.
Lemma ascii_app a b : ascii_of (a ++ b) = ascii_of a ++ ascii_of b.
Proof. apply filter_app. Qed.
Lemma ascii_quiet t : Forall (fun c => 0 <= c < 128) t -> ascii_of t = t.
Proof.
  induction 1 as [|c t Hc F IH]; [reflexivity|]. unfold ascii_of in *. cbn [filter]. destruct (Z.ltb_spec c 128); [rewrite IH; reflexivity|lia].
Qed.
Lemma hex_ascii c : ascii_of (hex_color c) = hex_color c.
Proof.
  apply ascii_quiet.
  assert (H : forall b, Forall (fun c => 0 <= c < 128) (hex2 (Z.land b 0xFF))).
  { intros b. pose proof (Z.land_ones b 8 ltac:(lia)) as L. change (Z.ones 8) with 255 in L. change 0xFF with 255. rewrite L.
    change (2 ^ 8) with 256. unfold hex2, hex_digit.
    constructor; [destruct (Z.ltb_spec (b mod 256 / 16) 10); lia|]. constructor; [destruct (Z.ltb_spec (b mod 256 mod 16) 10); lia|constructor]. }
  unfold hex_color. constructor; [lia|]. cbn [app]. repeat (apply Forall_app; split); apply H.
Qed.
Lemma threads_part : forall ts i, Forall thread_texts ts ->
  exists p, part (gcode_threads i ts) p (repeat Nothing (List.length ts)) (map (fun t => [t_color t mod 2 ^ 24]) ts).
Proof.
  induction ts as [|t ts IH]; intros i F.
  - exists []. apply part_nil.
  - apply Forall_cons_iff in F as [(F1 & F2 & F3) F]. destruct (IH (i + 1) F) as (p & Hp). cbn [gcode_threads List.length repeat map].
    match goal with |- context [remark ?t] => destruct (remark_part t [t_color (ltac:(match t with context [hex_color (t_color ?u)] => exact u end)) mod 2 ^ 24]) as (q & Hq) end.
    + apply comment_app; [cbn; repeat constructor; lia|]. apply comment_app; [apply quiet_comment, quiet_str|].
      apply comment_app; [apply quiet_comment, quietb_ok; reflexivity|]. apply comment_app; [apply hex_comment|].
      apply comment_app; [apply quiet_comment, quietb_ok; reflexivity|]. apply comment_app; [exact F1|].
      apply comment_app; [apply quiet_comment, quietb_ok; reflexivity|]. apply comment_app; [exact F2|].
      apply comment_app; [apply quiet_comment, quietb_ok; reflexivity|exact F3].
    + intros c E. apply (notes_thread c (text_of "Thread" ++ str_of_int i ++ [58]) (t_color t)
        ([32] ++ ascii_of (str_opt (t_description t) ++ [32] ++ str_opt (t_brand t) ++ [32] ++ str_opt (t_catalog t)))).
      * rewrite !in_app_iff. intros [H | [H | H]]; [cbn in H; lia| |cbn in H; lia].
        pose proof (str_of_int_chars i) as S. rewrite Forall_forall in S. specialize (S _ H). unfold number_char, digit in S. lia.
      * rewrite E. rewrite ascii_app. exists [], (ascii_of (str_of_int i ++ text_of ": " ++ hex_color (t_color t) ++ [32] ++ str_opt (t_description t)
              ++ [32] ++ str_opt (t_brand t) ++ [32] ++ str_opt (t_catalog t))). reflexivity.
      * rewrite E. rewrite !ascii_app, hex_ascii. rewrite (ascii_quiet (str_of_int i)) by
          (eapply Forall_impl; [|apply quiet_str]; unfold quiet; intros z Hz; cbn beta in *; lia).
        rewrite <- !app_assoc. reflexivity.
      * right. eexists. reflexivity.
    + exists (q ++ p). exact (part_app _ _ _ _ _ _ _ _ Hq Hp).
Qed.

(** ** The stitches *)
Definition gw (letter : Z) (q : Q) (t : text) (b : text) : gword := {| gw_letter := letter; gw_value := q; gw_text := t; gw_blanks := b |}.
Lemma zero_writes : writes 0 (text_of "00").
Proof. apply (writes_whole No_sign [0; 0] 0); [repeat constructor; lia|discriminate|reflexivity]. Qed.
Lemma thirty_writes : writes 30 (text_of "30").
Proof. apply (writes_whole No_sign [3; 0] 30); [repeat constructor; lia|discriminate|reflexivity]. Qed.
Definition words_line (ws : list gword) : gline := {| gl_comment := None; gl_words := ws; gl_end := 10 |}.
Lemma number_ascii t : Forall (fun c => is_number c = true) t -> plain_ascii t.
Proof. intros H. eapply Forall_impl; [|apply quiet_number; exact H]. unfold quiet. intros c Hc. cbn beta in *. lia. Qed.
Lemma words_part t ws i : t = flat_map gword_bytes ws ++ [10] -> ws <> [] -> Forall gword_ok ws -> means ws i ->
  part t [words_line ws] [i] [[]].
Proof.
  intros -> N F M. split.
  - cbn [flat_map]. rewrite app_nil_r. unfold gline_bytes, words_line. cbn [gl_comment gl_words gl_end app]. apply plain_encode.
    apply Forall_app. split; [|repeat constructor; lia]. clear N M. induction F as [|w ws (H1 & H2 & H3) F IH]; [constructor|].
    cbn [flat_map]. apply Forall_app. split; [|exact IH]. unfold gword_bytes. apply Forall_app. split; [constructor; [lia|constructor]|].
    apply Forall_app. split; [apply number_ascii; eapply writes_chars; exact H2|]. eapply Forall_impl; [|exact H3]. cbn beta. intros c Hc. lia.
  - constructor; [|constructor]. unfold gline_ok, words_line. cbn [gl_comment gl_words gl_end]. repeat split; [exact N|exact F|left; reflexivity].
  - constructor; [exact M|constructor].
  - constructor; [constructor|constructor].
Qed.
(** What the lines mean. *)
Fixpoint meant (l : list (stitch Q)) : list gmeaning :=
  match l with
  | [] => []
  | s :: r =>
      let c := cmd_of (scmd s) in
      if c =? STITCH then [Sew (rounded 3 (sx s / 10)) (rounded 3 (sy s / 10)); Nothing] ++ meant r
      else if (c =? JUMP) || (c =? TRIM) then meant r
      else if c =? END then Finish :: meant r
      else Pause :: meant r
  end.
Lemma stitch_part x y z : exists p, part (text_of "G00 X" ++ fixed 3 (x / 10) ++ text_of " Y" ++ fixed 3 (y / 10) ++ [10]
        ++ text_of "G00 Z" ++ fixed 1 z ++ [10]) p [Sew (rounded 3 (x / 10)) (rounded 3 (y / 10)); Nothing] [[]; []].
Proof.
  pose proof (words_part (text_of "G00 X" ++ fixed 3 (x / 10) ++ text_of " Y" ++ fixed 3 (y / 10) ++ [10])
    [gw 71 0 (text_of "00") [32]; gw 88 (rounded 3 (x / 10)) (fixed 3 (x / 10)) [32]; gw 89 (rounded 3 (y / 10)) (fixed 3 (y / 10)) []]
    (Sew (rounded 3 (x / 10)) (rounded 3 (y / 10)))) as A.
  pose proof (words_part (text_of "G00 Z" ++ fixed 1 z ++ [10]) [gw 71 0 (text_of "00") [32]; gw 90 (rounded 1 z) (fixed 1 z) []] Nothing) as B.
  assert (OK : forall c q t b, 65 <= c <= 90 -> writes q t -> Forall (fun c => c = 32 \/ c = 9) b -> gword_ok (gw c q t b)) by (intros; repeat split; cbn; assumption || tauto).
  eexists.
  replace (text_of "G00 X" ++ fixed 3 (x / 10) ++ text_of " Y" ++ fixed 3 (y / 10) ++ [10] ++ text_of "G00 Z" ++ fixed 1 z ++ [10])
    with ((text_of "G00 X" ++ fixed 3 (x / 10) ++ text_of " Y" ++ fixed 3 (y / 10) ++ [10]) ++ (text_of "G00 Z" ++ fixed 1 z ++ [10]))
    by (rewrite <- !app_assoc; reflexivity).
  refine (part_app _ _ [_] [_] _ _ [_] [_] (A _ _ _ _) (B _ _ _ _)).
  - cbn [flat_map gword_bytes gw gw_letter gw_text gw_blanks]. unfold gword_bytes. cbn [gw gw_letter gw_text gw_blanks].
    rewrite ?app_nil_r. rewrite <- ?app_assoc. reflexivity.
  - discriminate.
  - repeat (constructor; [apply OK; [lia|apply zero_writes || apply fixed_writes|repeat constructor]|]). constructor.
  - eapply means_sew; [reflexivity|left; reflexivity|reflexivity|reflexivity].
  - cbn [flat_map gword_bytes gw gw_letter gw_text gw_blanks]. unfold gword_bytes. cbn [gw gw_letter gw_text gw_blanks].
    rewrite ?app_nil_r. rewrite <- ?app_assoc. reflexivity.
  - discriminate.
  - repeat (constructor; [apply OK; [lia|apply zero_writes || apply fixed_writes|repeat constructor]|]). constructor.
  - eapply means_lift; [reflexivity|reflexivity|left; reflexivity|reflexivity].
Qed.
Lemma pause_part : exists p, part (text_of "M00" ++ [10]) p [Pause] [[]].
Proof.
  eexists. apply (words_part _ [gw 77 0 (text_of "00") []]); [reflexivity|discriminate| |].
  - constructor; [|constructor]. split; [cbn; lia|]. split; [apply zero_writes|constructor].
  - eapply means_pause; [reflexivity|reflexivity|left; reflexivity].
Qed.
Lemma finish_part : exists p, part (text_of "M30" ++ [10]) p [Finish] [[]].
Proof.
  eexists. apply (words_part _ [gw 77 30 (text_of "30") []]); [reflexivity|discriminate| |].
  - constructor; [|constructor]. split; [cbn; lia|]. split; [apply thirty_writes|constructor].
  - eapply means_finish; [reflexivity|reflexivity|left; reflexivity].
Qed.
Lemma lines_part travel : forall l z, gcode_commands l ->
  exists p n, part (gcode_lines travel z l) p (meant l) (repeat [] n).
Proof.
  induction l as [|s l IH]; intros z F.
  - exists [], 0%nat. apply part_nil.
  - apply Forall_cons_iff in F as [Fs F]. cbn [gcode_lines meant].
    destruct (Z.eqb_spec (cmd_of (scmd s)) STITCH) as [E|N1].
    { destruct (IH (z + travel)%Q F) as (p & n & Hp). destruct (stitch_part (sx s) (sy s) z) as (q & Hq).
      exists (q ++ p), (2 + n)%nat. pose proof (part_app _ _ _ _ _ _ _ _ Hq Hp) as R. rewrite <- !app_assoc in R. exact R. }
    destruct (IH z F) as (p & n & Hp).
    destruct (Z.eqb_spec (cmd_of (scmd s)) JUMP) as [E|N2]; [exists p, n; exact Hp|].
    destruct (Z.eqb_spec (cmd_of (scmd s)) TRIM) as [E|N3]; [exists p, n; exact Hp|]. cbn [orb].
    destruct (Z.eqb_spec (cmd_of (scmd s)) COLOR_CHANGE) as [E|N4].
    { rewrite E. destruct pause_part as (q & Hq). exists (q ++ p), (1 + n)%nat. pose proof (part_app _ _ _ _ _ _ _ _ Hq Hp) as R. rewrite <- app_assoc in R. exact R. }
    destruct (Z.eqb_spec (cmd_of (scmd s)) STOP) as [E|N5].
    { rewrite E. destruct pause_part as (q & Hq). exists (q ++ p), (1 + n)%nat. pose proof (part_app _ _ _ _ _ _ _ _ Hq Hp) as R. rewrite <- app_assoc in R. exact R. }
    destruct (Z.eqb_spec (cmd_of (scmd s)) END) as [E|N6].
    { destruct finish_part as (q & Hq). exists (q ++ p), (1 + n)%nat. pose proof (part_app _ _ _ _ _ _ _ _ Hq Hp) as R. rewrite <- app_assoc in R. exact R. }
    cbn [In] in Fs. exfalso. intuition congruence.
Qed.
Lemma nothings n a u px py r : sews a u px py (repeat Nothing n ++ r) = sews a u px py r.
Proof. induction n as [|n IH]; [reflexivity|exact IH]. Qed.
Lemma kept_meant : forall l px py, gcode_commands l -> kept_commands px py l (sews true 10 px py (meant l)).
Proof.
  induction l as [|s l IH]; intros px py F; [reflexivity|]. apply Forall_cons_iff in F as [Fs F]. cbn [kept_commands meant].
  destruct (Z.eqb_spec (cmd_of (scmd s)) STITCH) as [E|N1].
  { cbn [app sews]. split; [reflexivity|]. cbn [sx sy]. split; [apply read_back|]. split; [apply read_back|]. apply IH, F. }
  destruct ((cmd_of (scmd s) =? JUMP) || (cmd_of (scmd s) =? TRIM)); [apply IH, F|].
  destruct (cmd_of (scmd s) =? END); cbn [sews]; repeat split; try reflexivity; apply IH, F.
Qed.
Lemma hundredth_same a b q : (a == b)%Q -> hundredth q b -> hundredth q a.
Proof. intros E [H (n & Hn)]. split; [rewrite E; exact H|exists n; rewrite E; exact Hn]. Qed.
Lemma kept_same : forall l px py px' py' k k', (px' == px)%Q -> (py' == py)%Q -> Forall2 same_stitch k' k ->
  kept_commands px py l k -> kept_commands px' py' l k'.
Proof.
  induction l as [|s l IH]; intros px py px' py' k k' Ex Ey F H; cbn [kept_commands] in *.
  - subst k. inversion F; reflexivity.
  - destruct (cmd_of (scmd s) =? STITCH).
    { destruct k as [|t k]; [contradiction|]. inversion F as [|t' ? k'' ? (S1 & S2 & S3) F']; subst.
      destruct H as (H1 & H2 & H3 & H4). split; [congruence|]. split; [eapply hundredth_same; eassumption|]. split; [eapply hundredth_same; eassumption|].
      eapply IH; eassumption. }
    destruct ((cmd_of (scmd s) =? JUMP) || (cmd_of (scmd s) =? TRIM)); [eapply IH; eassumption|].
    destruct k as [|t k]; [contradiction|]. inversion F as [|t' ? k'' ? (S1 & S2 & S3) F']; subst.
    destruct H as (H1 & H2 & H3 & H4). split; [congruence|]. split; [rewrite S1, H2; symmetry; exact Ex|].
    split; [rewrite S2, H3; symmetry; exact Ey|]. eapply IH; eassumption.
Qed.
Theorem gcode_round_trip other travel extras threads l : gcode_commands l ->
  Forall (fun e => harmless (fst e ++ text_of ": " ++ snd e)) extras -> Forall thread_texts threads ->
  exists file k, gcode_write travel extras threads l = Ok file /\
    gcode_read other file = Ok (k, map (fun t => coloured (t_color t mod 2 ^ 24)) threads) /\ kept_commands 0 0 l k.
Proof.
  intros Hl He Ht. destruct (data_idle l) as (p1 & n1 & P1). destruct (metadata_idle extras He) as (p2 & n2 & P2).
  destruct (threads_part threads 0 Ht) as (p3 & P3). destruct (lines_part travel l 0 Hl) as (p4 & n4 & P4).
  pose proof (part_app _ _ _ _ _ _ _ _ P1 (part_app _ _ _ _ _ _ _ _ P2 (part_app _ _ _ _ _ _ _ _ P3 P4))) as [R1 R2 R3 R4].
  destruct (program_read other _ _ _ R2 R3 R4 g_start true 10 0 0) as (k & E & S); [repeat split; reflexivity|].
  eexists. exists k. split; [exact R1|]. split.
  - unfold gcode_read. rewrite E. f_equal. f_equal. rewrite !concat_app.
    assert (Z : forall n, concat (repeat (@nil Z) n) = []) by (induction n as [|n IH]; [reflexivity|exact IH]). rewrite !Z.
    cbn [app]. rewrite app_nil_r. clear. induction threads as [|t ts IH]; [reflexivity|]. cbn [map concat app]. f_equal. exact IH.
  - rewrite !nothings in S. eapply kept_same; [reflexivity|reflexivity|exact S|]. apply kept_meant, Hl.
Qed.
(** A command of another kind ends the file. *)
Lemma lines_stop travel : forall a z s b, gcode_commands a -> ~ In (cmd_of (scmd s)) [STITCH; JUMP; TRIM; COLOR_CHANGE; STOP; END] ->
  gcode_lines travel z (a ++ s :: b) = gcode_lines travel z a.
Proof.
  induction a as [|t a IH]; intros z s b F N.
  - cbn [app gcode_lines]. cbn [In] in N.
    repeat match goal with |- context [?x =? ?y] => destruct (Z.eqb_spec x y) as [E|]; [exfalso; apply N; rewrite E; tauto|] end. reflexivity.
  - apply Forall_cons_iff in F as [_ F]. cbn [app gcode_lines].
    destruct (cmd_of (scmd t) =? STITCH); [rewrite (IH (z + travel)%Q s b F N); reflexivity|].
    rewrite (IH z s b F N). reflexivity.
Qed.
Theorem gcode_truncated other travel extras threads a s b : gcode_commands a ->
  ~ In (cmd_of (scmd s)) [STITCH; JUMP; TRIM; COLOR_CHANGE; STOP; END] ->
  Forall (fun e => harmless (fst e ++ text_of ": " ++ snd e)) extras -> Forall thread_texts threads ->
  exists file k, gcode_write travel extras threads (a ++ s :: b) = Ok file /\
    gcode_read other file = Ok (k, map (fun t => coloured (t_color t mod 2 ^ 24)) threads) /\ kept_commands 0 0 a k.
Proof.
  intros Hl Hs He Ht. destruct (data_idle (a ++ s :: b)) as (p1 & n1 & P1). destruct (metadata_idle extras He) as (p2 & n2 & P2).
  destruct (threads_part threads 0 Ht) as (p3 & P3). destruct (lines_part travel a 0 Hl) as (p4 & n4 & P4).
  rewrite <- (lines_stop travel a 0 s b Hl Hs) in P4.
  pose proof (part_app _ _ _ _ _ _ _ _ P1 (part_app _ _ _ _ _ _ _ _ P2 (part_app _ _ _ _ _ _ _ _ P3 P4))) as [R1 R2 R3 R4].
  destruct (program_read other _ _ _ R2 R3 R4 g_start true 10 0 0) as (k & E & S); [repeat split; reflexivity|].
  eexists. exists k. split; [exact R1|]. split.
  - unfold gcode_read. rewrite E. f_equal. f_equal. rewrite !concat_app.
    assert (Z : forall n, concat (repeat (@nil Z) n) = []) by (induction n as [|n IH]; [reflexivity|exact IH]). rewrite !Z.
    cbn [app]. rewrite app_nil_r. clear. induction threads as [|t ts IH]; [reflexivity|]. cbn [map concat app]. f_equal. exact IH.
  - rewrite !nothings in S. eapply kept_same; [reflexivity|reflexivity|exact S|]. apply kept_meant, Hl.
Qed.

(** ** Any file *)
Lemma parse_app : forall a st b, exists r, parse st (a ++ b) = parse st a ++ r.
Proof.
  induction a as [|c a IH]; intros st b; [eexists; reflexivity|]. cbn [app parse].
  destruct (parse_byte c st) as [[[w|] st']|e].
  - destruct (IH st' b) as (r & ->). exists r. reflexivity.
  - apply IH.
  - exists []. reflexivity.
Qed.
Lemma interpret_app other : forall a st b l t, interpret other st (a ++ b) = Ok (l, t) ->
  exists l1 t1 l2 t2, interpret other st a = Ok (l1, t1) /\ l = l1 ++ l2 /\ t = t1 ++ t2.
Proof.
  induction a as [|[w|e] a IH]; intros st b l t E; [exists [], [], l, t; repeat split| |discriminate].
  cbn [app interpret] in *. destruct (comment_thread other w) as [u|e]; [|discriminate]. cbn [bindr] in *.
  destruct (do_words w st) as [[s st']|e]; [|discriminate]. cbn [bindr] in *.
  destruct (interpret other st' (a ++ b)) as [[l' t']|e] eqn:E'; [|discriminate]. cbn [bindr] in *. injection E as <- <-.
  destruct (IH st' b l' t' E') as (l1 & t1 & l2 & t2 & E1 & -> & ->). rewrite E1. cbn [bindr].
  exists (s ++ l1), (u ++ t1), l2, t2. rewrite !app_assoc. repeat split.
Qed.
Theorem gcode_cut other a b l t : gcode_read other (a ++ b) = Ok (l, t) ->
  exists l1 t1 l2 t2, gcode_read other a = Ok (l1, t1) /\ l = l1 ++ l2 /\ t = t1 ++ t2.
Proof. unfold gcode_read. destruct (parse_app a p_start b) as (r & ->). apply interpret_app. Qed.

Lemma number_error t e : number t = Err e -> e = ValueError.
Proof. unfold number. destruct t; [congruence|]. destruct (digits_of _); congruence. Qed.
Lemma digits_error t e : digits t = Err e -> e = ValueError.
Proof. unfold digits. destruct (digits_of t); congruence. Qed.
Lemma unsigned_error t e : unsigned_float t = Err e -> e = ValueError.
Proof.
  unfold unsigned_float. destruct (split_on 46 t) as [|a [|b [|c r]]]; try congruence.
  - destruct (number a) as [n|e'] eqn:E; cbn [bindr]; [congruence|]. intros [= <-]. eapply number_error, E.
  - assert (H : (do n <- digits a; do m <- digits b; Ok (inject_Z n + inject_Z m / inject_Z (10 ^ zlen b))%Q) = Err e -> e = ValueError).
    { destruct (digits a) as [n|e'] eqn:Ea; cbn [bindr]; [|intros [= <-]; eapply digits_error, Ea].
      destruct (digits b) as [m|e'] eqn:Eb; cbn [bindr]; [congruence|intros [= <-]; eapply digits_error, Eb]. }
    destruct a; [destruct b; [congruence|]|]; exact H.
Qed.
Lemma float_error t e : float_of t = Err e -> e = ValueError.
Proof.
  unfold float_of. destruct t as [|c t]; [congruence|]. destruct (c =? 45).
  - destruct (unsigned_float t) as [q|e'] eqn:E; cbn [bindr]; [congruence|]. intros [= <-]. eapply unsigned_error, E.
  - destruct (c =? 43); apply unsigned_error.
Qed.
Lemma mark_error c b st e : parse_mark c b st = Err e -> e = ValueError.
Proof.
  unfold parse_mark. destruct ((is_letter c || b) && _).
  - destruct (float_of (p_value st)) as [q|e'] eqn:E; cbn [bindr].
    + destruct (is_letter c); [congruence|]. destruct b; [destruct (is_empty _); congruence|congruence].
    + intros [= <-]. eapply float_error, E.
  - cbn [bindr]. destruct (is_letter c); [congruence|]. destruct b; [destruct (is_empty _); congruence|congruence].
Qed.
Lemma byte_error c st e : parse_byte c st = Err e -> e = ValueError.
Proof.
  unfold parse_byte. destruct (p_comment st) as [t|];
    repeat match goal with |- context [if ?b then _ else _] => destruct b end; try congruence; apply mark_error.
Qed.
Lemma parse_error : forall f st e, In (Err e) (parse st f) -> e = ValueError.
Proof.
  induction f as [|c f IH]; intros st e H; [contradiction|]. cbn [parse] in H. destruct (parse_byte c st) as [[[w|] st']|e'] eqn:E.
  - destruct H as [H|H]; [discriminate|]. eapply IH, H.
  - eapply IH, H.
  - destruct H as [[= <-]|[]]. eapply byte_error, E.
Qed.
Lemma int16_error t e : int16 t = Err e -> e = ValueError.
Proof.
  assert (H : forall t acc, int16_acc acc t = Err e -> e = ValueError).
  { induction t0 as [|c t0 IH]; intros acc E; cbn [int16_acc] in E; [discriminate|]. destruct (digit_value c); [eapply IH, E|congruence]. }
  unfold int16. destruct t; [congruence|apply H].
Qed.
Lemma hex_error t e : color_hex t = Err e -> e = ValueError.
Proof.
  unfold color_hex. destruct (Nat.eqb _ 6 || Nat.eqb _ 8).
  - destruct (int16 _) as [v|e'] eqn:E; cbn [bindr]; [congruence|]. intros [= <-]. eapply int16_error, E.
  - destruct (Nat.eqb _ 4 || Nat.eqb _ 3) eqn:L; [|congruence].
    destruct (lstrip 35 t) as [|a [|b [|c r]]]; try discriminate L.
    destruct (int16 _) as [v|e'] eqn:E; cbn [bindr]; [congruence|]. intros [= <-]. eapply int16_error, E.
Qed.
Lemma interpret_error other : forall items st e, (forall e, In (Err e) items -> e = ValueError) -> interpret other st items = Err e ->
  e = ValueError \/ e = IndexError \/ e = KeyError.
Proof.
  induction items as [|[w|e'] r IH]; intros st e H E; [discriminate| |].
  - cbn [interpret] in E. destruct (comment_thread other w) as [u|e'] eqn:Ec.
    + cbn [bindr] in E. destruct (do_words w st) as [[s st']|e'] eqn:Ew.
      * cbn [bindr] in E. destruct (interpret other st' r) as [[l t]|e'] eqn:Ei; [discriminate|]. cbn [bindr] in E. injection E as <-.
        eapply IH; [|exact Ei]. intros x Hx. apply H. right. exact Hx.
      * cbn [bindr] in E. injection E as <-. right; right. unfold do_words, needed in Ew.
        destruct (word code_g w); [|discriminate]. destruct (_ || _); [|discriminate].
        destruct (word code_x w); cbn [bindr] in Ew; [|congruence]. destruct (word code_y w); cbn [bindr] in Ew; congruence.
    + cbn [bindr] in E. injection E as <-. unfold comment_thread in Ec. destruct (w_comment w) as [c|]; [|discriminate].
      destruct (within _ c); [|discriminate]. destruct (split_on 32 c) as [|? [|t ?]]; [right; left; congruence..|].
      destruct (parse_string_color other t) as [v|e] eqn:Ep; cbn [bindr] in Ec; [discriminate|]. injection Ec as <-. left.
      unfold parse_string_color in Ep. destruct t as [|b t]; [discriminate|]. destruct (b =? 35); [|discriminate]. eapply hex_error, Ep.
  - cbn [interpret] in E. injection E as <-. left. apply H. left. reflexivity.
Qed.
Theorem gcode_any other f : match gcode_read other f with Ok _ => True | Err e => e = ValueError \/ e = IndexError \/ e = KeyError end.
Proof.
  destruct (gcode_read other f) as [r|e] eqn:E; [exact I|]. eapply interpret_error; [|exact E]. intros x Hx. eapply parse_error, Hx.
Qed.
