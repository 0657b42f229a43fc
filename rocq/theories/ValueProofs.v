(** Lemmas about values whose type is only known at run time. *)
From Coq Require Import Ascii String ZArith QArith List Bool Lia.
From Verif Require Import PyBase EmbConst BitLemmas ThreadModel TextModel ValueModel ValueSpec.
Import ListNotations.
Open Scope Z_scope.

Lemma text_eqb_iff : forall a b, text_eqb a b = true <-> a = b.
Proof.
  induction a as [|x a IH]; intros [|y b]; cbn [text_eqb]; split; intros H; try discriminate; try reflexivity.
  - apply andb_prop in H as [H1 H2]. apply Z.eqb_eq in H1. apply IH in H2. congruence.
  - inversion H; subst. rewrite Z.eqb_refl. apply IH. reflexivity.
Qed.
Lemma text_eqb_self : forall a, text_eqb a a = true.
Proof. intros a. apply text_eqb_iff. reflexivity. Qed.

Lemma lookup_in : forall A (d : list (text * A)) k v, NoDup (map fst d) -> In (k, v) d -> lookup k d = Some v.
Proof.
  induction d as [|[k' w] d IH]; intros k v N H; [contradiction|]. cbn [lookup map fst] in *. inversion N; subst.
  destruct H as [H|H].
  - inversion H; subst. rewrite text_eqb_self. reflexivity.
  - destruct (text_eqb k k') eqn:E; [|apply IH; assumption]. apply text_eqb_iff in E. subst. exfalso. apply H2.
    apply in_map_iff. exists (k', v). auto.
Qed.
Lemma lookup_absent : forall A (d : list (text * A)) k, ~ In k (map fst d) -> lookup k d = None.
Proof.
  induction d as [|[k' w] d IH]; intros k N; [reflexivity|]. cbn [lookup map fst In] in *.
  destruct (text_eqb k k') eqn:E; [apply text_eqb_iff in E; subst; exfalso; auto|]. apply IH. auto.
Qed.
Lemma lookup_some : forall A (d : list (text * A)) k v, lookup k d = Some v -> In (k, v) d.
Proof.
  induction d as [|[k' w] d IH]; intros k v H; [discriminate|]. cbn [lookup] in H.
  destruct (text_eqb k k') eqn:E; [apply text_eqb_iff in E; inversion H; subst; left; reflexivity|right; auto].
Qed.
Lemma lookup_none : forall A (d : list (text * A)) k, lookup k d = None -> ~ In k (map fst d).
Proof.
  induction d as [|[k' w] d IH]; intros k H; [cbn; auto|]. cbn [lookup map fst In] in *.
  destruct (text_eqb k k') eqn:E; [discriminate|]. intros [->|I]; [rewrite text_eqb_self in E; discriminate|exact (IH _ H I)].
Qed.

(** ** Colour texts *)
Definition plain_digit (ch : Z) : Prop := 48 <= ch <= 57 \/ 97 <= ch <= 102 \/ 65 <= ch <= 70.
Lemma digit_char_plain : forall d ch, digit_char d ch -> plain_digit ch /\ digit_value ch = Some d /\ 0 <= d <= 15.
Proof.
  intros d ch H. unfold digit_char, plain_digit, digit_value in *.
  destruct (Z.leb_spec 48 ch), (Z.leb_spec ch 57), (Z.leb_spec 97 ch), (Z.leb_spec ch 102), (Z.leb_spec 65 ch), (Z.leb_spec ch 70);
    cbn [andb]; split; try lia; split; try lia; f_equal; lia.
Qed.
Lemma plain_not_blank : forall ch, plain_digit ch -> blank ch = false.
Proof.
  intros ch H. unfold plain_digit, blank in *.
  repeat match goal with |- context [?a =? ?b] => destruct (Z.eqb_spec a b); [lia|] | |- context [?a <=? ?b] => destruct (Z.leb_spec a b) end;
    cbn [andb orb]; try reflexivity; lia.
Qed.
Lemma drop_none : forall ch t, plain_digit ch -> drop_blanks (ch :: t) = ch :: t.
Proof. intros ch t H. cbn [drop_blanks]. rewrite plain_not_blank by exact H. reflexivity. Qed.
Lemma strip_plain : forall a t b, plain_digit a -> plain_digit b -> strip (a :: t ++ [b]) = a :: t ++ [b].
Proof.
  intros a t b Ha Hb. unfold strip. rewrite drop_none by exact Ha. cbn [rev]. rewrite rev_app_distr. cbn [rev app].
  rewrite drop_none by exact Hb. cbn [rev]. rewrite rev_app_distr, rev_involutive. reflexivity.
Qed.
Lemma hex_digits_step : forall ch d prev acc r, digit_char d ch -> hex_digits prev acc (ch :: r) = hex_digits true (acc * 16 + d) r.
Proof.
  intros ch d prev acc r H. destruct (digit_char_plain _ _ H) as (P & V & _). cbn [hex_digits].
  destruct (Z.eqb_spec ch 95) as [->|_]; [unfold plain_digit in P; lia|]. rewrite V. reflexivity.
Qed.
Lemma int16_six : forall r1 r2 g1 g2 b1 b2 t, Forall2 digit_char [r1; r2; g1; g2; b1; b2] t ->
  py_int16 t = Ok ((r1 * 16 + r2) * 65536 + (g1 * 16 + g2) * 256 + (b1 * 16 + b2)).
Proof.
  intros r1 r2 g1 g2 b1 b2 t H.
  inversion H as [|? a ? t1 Ha H1]; subst. inversion H1 as [|? b ? t2 Hb H2]; subst. inversion H2 as [|? c ? t3 Hc H3]; subst.
  inversion H3 as [|? d ? t4 Hd H4]; subst. inversion H4 as [|? e ? t5 He H5]; subst. inversion H5 as [|? f ? t6 Hf H6]; subst. inversion H6; subst.
  destruct (digit_char_plain _ _ Ha) as (Pa & _), (digit_char_plain _ _ Hb) as (Pb & _), (digit_char_plain _ _ Hf) as (Pf & _).
  unfold py_int16. change [a; b; c; d; e; f] with (a :: [b; c; d; e] ++ [f]). rewrite (strip_plain a [b; c; d; e] f Pa Pf). cbn [app].
  assert (K : hex_number [a; b; c; d; e; f] = Ok ((r1 * 16 + r2) * 65536 + (g1 * 16 + g2) * 256 + (b1 * 16 + b2))).
  { assert (D : hex_digits false 0 [a; b; c; d; e; f] = Ok ((r1 * 16 + r2) * 65536 + (g1 * 16 + g2) * 256 + (b1 * 16 + b2))).
    { rewrite (hex_digits_step _ _ _ _ _ Ha), (hex_digits_step _ _ _ _ _ Hb), (hex_digits_step _ _ _ _ _ Hc),
        (hex_digits_step _ _ _ _ _ Hd), (hex_digits_step _ _ _ _ _ He), (hex_digits_step _ _ _ _ _ Hf). cbn [hex_digits]. f_equal. lia. }
    unfold hex_number. destruct (Z.eqb_spec b 120) as [->|_]; [unfold plain_digit in Pb; lia|].
    destruct (Z.eqb_spec b 88) as [->|_]; [unfold plain_digit in Pb; lia|]. cbn [orb]. rewrite andb_false_r. exact D. }
  destruct (Z.eqb_spec a 45) as [->|_]; [unfold plain_digit in Pa; lia|].
  destruct (Z.eqb_spec a 43) as [->|_]; [unfold plain_digit in Pa; lia|]. exact K.
Qed.

Lemma lstrip_plain : forall a t, plain_digit a -> lstrip 35 (a :: t) = a :: t.
Proof. intros a t H. cbn [lstrip]. destruct (Z.eqb_spec a 35) as [->|_]; [unfold plain_digit in H; lia|reflexivity]. Qed.
Lemma lstrip_mark : forall t, lstrip 35 (35 :: t) = lstrip 35 t.
Proof. reflexivity. Qed.
Lemma hex_six : forall c t, six_digits c t -> color_hex_any t = Ok (VInt c) /\ color_hex_any (35 :: t) = Ok (VInt c).
Proof.
  intros c t (r1 & r2 & g1 & g2 & b1 & b2 & -> & H).
  pose proof (int16_six _ _ _ _ _ _ _ H) as E.
  inversion H as [|? a ? t1 Ha H1]; subst. inversion H1 as [|? b ? t2 Hb H2]; subst. inversion H2 as [|? c ? t3 Hc H3]; subst.
  inversion H3 as [|? d ? t4 Hd H4]; subst. inversion H4 as [|? e ? t5 He H5]; subst. inversion H5 as [|? f ? t6 Hf H6]; subst. inversion H6; subst.
  destruct (digit_char_plain _ _ Ha) as (Pa & _).
  unfold color_hex_any. rewrite lstrip_mark, lstrip_plain by exact Pa. cbn [List.length Nat.eqb orb firstn]. rewrite E. cbn [bindr]. auto.
Qed.
Lemma hex_three : forall c t, three_digits c t -> color_hex_any t = Ok (VInt c) /\ color_hex_any (35 :: t) = Ok (VInt c).
Proof.
  intros c t (r & g & b & -> & H).
  inversion H as [|? x ? t1 Hx H1]; subst. inversion H1 as [|? y ? t2 Hy H2]; subst. inversion H2 as [|? z ? t3 Hz H3]; subst. inversion H3; subst.
  destruct (digit_char_plain _ _ Hx) as (Pa & _).
  assert (E : Forall2 digit_char [r; r; g; g; b; b] [x; x; y; y; z; z]) by (repeat (constructor; [assumption|]); constructor).
  apply int16_six in E.
  unfold color_hex_any. rewrite lstrip_mark, lstrip_plain by exact Pa. cbn [List.length Nat.eqb orb]. rewrite E. cbn [bindr]. auto.
Qed.

Definition small_letters (t : text) : bool := forallb (fun c => (97 <=? c) && (c <=? 122)) t.
Lemma lower_spelled : forall s t, spelled s t -> small_letters s = true -> lower t = s.
Proof.
  induction 1 as [|c s t H IH|c s t Hc H IH]; intros L; [reflexivity| |]; cbn [small_letters forallb] in L; apply andb_prop in L as [L1 L2];
    fold (small_letters s) in L2; unfold lower; cbn [map]; fold (lower t); rewrite IH by exact L2; f_equal;
    apply andb_prop in L1 as [L1 L1']; apply Z.leb_le in L1; apply Z.leb_le in L1'.
  - destruct (Z.leb_spec 65 c), (Z.leb_spec c 90); cbn [andb]; try lia; destruct (Z.eqb_spec c 0x212A); lia.
  - destruct (Z.leb_spec 65 (c - 32)), (Z.leb_spec (c - 32) 90); cbn [andb]; try lia.
Qed.
Lemma svg_table : forallb (fun e => small_letters (text_of (fst e)) &&
  match lookup (text_of (fst e)) color_dict with Some c => c =? snd e | None => false end) svg_colors = true.
Proof. vm_compute. reflexivity. Qed.
Lemma names_no_other : forallb (fun e => match lookup (fst e) (map (fun e => (text_of (fst e), snd e)) svg_colors) with Some c => c =? snd e | None => false end) color_dict = true.
Proof. vm_compute. reflexivity. Qed.
Lemma spelled_head : forall s t, spelled s t -> small_letters s = true -> forall r, t <> 35 :: r.
Proof.
  intros s t H L r ->. inversion H; subst; cbn [small_letters forallb] in L; apply andb_prop in L as [L1 _]; apply andb_prop in L1 as [L1 L1'];
    apply Z.leb_le in L1; apply Z.leb_le in L1'; lia.
Qed.
Lemma not_random : forall t c, lookup (lower t) color_dict = Some c -> text_eqb t (text_of "random") = false.
Proof.
  intros t c H. destruct (text_eqb t (text_of "random")) eqn:E; [|reflexivity]. apply text_eqb_iff in E. subst. vm_compute in H. discriminate.
Qed.
Lemma parse_color : forall c t, color_text c t -> parse_string_color t = Ok (VInt c).
Proof.
  intros c t [t' H|t' H|name t' I S].
  - unfold parse_string_color. change (text_eqb (35 :: t') (text_of "random")) with false. cbv iota. exact (proj1 (hex_six _ _ H)).
  - unfold parse_string_color. change (text_eqb (35 :: t') (text_of "random")) with false. cbv iota. exact (proj1 (hex_three _ _ H)).
  - pose proof svg_table as T. rewrite forallb_forall in T. specialize (T _ I). cbn [fst snd] in T. apply andb_prop in T as [T1 T2].
    destruct (lookup (text_of name) color_dict) as [c'|] eqn:L; [|discriminate]. apply Z.eqb_eq in T2. subst c'.
    rewrite <- (lower_spelled _ _ S T1) in L. pose proof (spelled_head _ _ S T1) as Hh.
    unfold parse_string_color. rewrite (not_random _ _ L), L. destruct t' as [|x r]; [reflexivity|].
    destruct (Z.eqb_spec x 35) as [->|_]; [exfalso; exact (Hh r eq_refl)|reflexivity].
Qed.
Lemma bytes_color : forall r g b, 0 <= r < 256 -> 0 <= g < 256 -> 0 <= b < 256 ->
  Z.lor (Z.lor (Z.shiftl (Z.land r 0xFF) 16) (Z.shiftl (Z.land g 0xFF) 8)) (Z.land b 0xFF) = r * 65536 + g * 256 + b.
Proof.
  intros r g b Hr Hg Hb. rewrite !land_ff, !Z.mod_small by lia.
  rewrite (Z.lor_comm (Z.shiftl r 16)). change 16 with (8 + 8). rewrite <- (Z.shiftl_shiftl r 8 8) by lia. rewrite <- Z.shiftl_lor.
  rewrite (Z.lor_comm _ b), (lor_shiftl_add g r 8), (lor_shiftl_add b _ 8) by (change (2 ^ 8) with 256; lia).
  change (2 ^ 8) with 256. lia.
Qed.

(** ** Dicts *)
Definition pick (d : list (text * val)) (w : val) (keys : list string) : val :=
  fold_left (fun w k => match lookup (text_of k) d with Some v => v | None => w end) keys w.
Lemma says_pick : forall d w keys, says d w keys (pick d w keys).
Proof.
  intros d w keys. induction keys as [|k keys IH] using rev_ind; [constructor|]. unfold pick. rewrite fold_left_app. cbn [fold_left].
  destruct (lookup (text_of k) d) as [v|] eqn:E.
  - apply says_last. apply lookup_some. exact E.
  - apply says_before; [|exact IH]. apply lookup_none. exact E.
Qed.
Lemma entry_lookup : forall d k v, NoDup (map fst d) -> entry d k v -> lookup (text_of k) d = Some v.
Proof. intros d k v N H. apply lookup_in; assumption. Qed.
Lemma absent_lookup : forall d k, absent d k -> lookup (text_of k) d = None.
Proof. intros d k H. apply lookup_absent. exact H. Qed.

Lemma color_value_of : forall c v t, color_value c v -> color_of v t = Ok (set_color (VInt c) t).
Proof.
  intros c v t [|s H|r g b -> Hr Hg Hb].
  - reflexivity.
  - cbn [color_of]. rewrite (parse_color _ _ H). reflexivity.
  - cbn [color_of item nth_error bindr low_byte]. rewrite bytes_color by assumption. reflexivity.
Qed.
Lemma hex_value_of : forall c v, hex_value c v -> exists s, v = VStr s /\ color_hex_any s = Ok (VInt c).
Proof.
  intros c v [t [H|H]|t [H|H]]; eexists; (split; [reflexivity|]); solve [apply hex_six; exact H|apply hex_three; exact H].
Qed.

(** The colour that a dict of well-formed colours comes to. *)
Lemma set_dict : forall d t, 
  (forall v, lookup (text_of "color") d = Some v -> exists c, color_value c v) ->
  (forall v, lookup (text_of "rgb") d = Some v -> exists c, color_value c v) ->
  (forall v, lookup (text_of "hex") d = Some v -> exists c, hex_value c v) ->
  exists c, set_thread t (VDict d) =
    (mkD c (pick d (d_description t) ["name"; "description"; "desc"]%string) (pick d (d_catalog t) ["id"; "catalog"]%string)
       (d_details t) (pick d (d_brand t) ["brand"; "manufacturer"]%string) (d_chart t) (d_weight t), None) /\
    match lookup (text_of "hex") d with
    | Some v => exists n, c = VInt n /\ hex_value n v
    | None => match lookup (text_of "color") d with
              | Some v => exists n, c = VInt n /\ color_value n v
              | None => match lookup (text_of "rgb") d with
                        | Some v => exists n, c = VInt n /\ color_value n v
                        | None => c = d_color t
                        end
              end
    end.
Proof.
  intros d t Hc Hr Hh. unfold set_thread.
  set (t1 := from_key "manufacturer" _ _ _).
  assert (E1 : t1 = mkD (d_color t) (pick d (d_description t) ["name"; "description"; "desc"]%string) (d_catalog t) (d_details t)
     (pick d (d_brand t) ["brand"; "manufacturer"]%string) (d_chart t) (d_weight t)).
  { subst t1. unfold from_key, pick. cbn [fold_left]. destruct t as [c de n e b h w].
    destruct (lookup (text_of "name") d), (lookup (text_of "description") d), (lookup (text_of "desc") d), (lookup (text_of "brand") d),
      (lookup (text_of "manufacturer") d); reflexivity. }
  clearbody t1. subst t1.
  set (t1 := mkD (d_color t) _ _ _ _ _ _).
  assert (E2 : exists c, match lookup (text_of "color") d with
                 | Some c => color_of c t1
                 | None => match lookup (text_of "rgb") d with Some c => color_of c t1 | None => Ok t1 end
                 end = Ok (set_color c t1) /\
     match lookup (text_of "color") d with
              | Some v => exists n, c = VInt n /\ color_value n v
              | None => match lookup (text_of "rgb") d with
                        | Some v => exists n, c = VInt n /\ color_value n v
                        | None => c = d_color t
                        end
              end).
  { destruct (lookup (text_of "color") d) as [v|].
    - destruct (Hc v eq_refl) as [n Hn]. exists (VInt n). split; [apply color_value_of; exact Hn|eauto].
    - destruct (lookup (text_of "rgb") d) as [v|].
      + destruct (Hr v eq_refl) as [n Hn]. exists (VInt n). split; [apply color_value_of; exact Hn|eauto].
      + exists (d_color t). split; reflexivity. }
  destruct E2 as (c1 & E2 & K). rewrite E2. clear E2.
  destruct (lookup (text_of "hex") d) as [v|].
  - destruct (Hh v eq_refl) as [n Hn]. destruct (hex_value_of _ _ Hn) as (s & -> & Es). rewrite Es. cbn [bindr].
    exists (VInt n). split; [|eauto]. unfold from_key, pick. cbn [fold_left].
    destruct (lookup (text_of "id") d), (lookup (text_of "catalog") d); reflexivity.
  - exists c1. split; [|exact K]. unfold from_key, pick. cbn [fold_left].
    destruct (lookup (text_of "id") d), (lookup (text_of "catalog") d); reflexivity.
Qed.

(** ** Any text as a colour *)
Lemma hex_digits_bound : forall h prev acc v, 0 <= acc -> hex_digits prev acc h = Ok v ->
  0 <= v < (acc + 1) * 16 ^ Z.of_nat (List.length h).
Proof.
  induction h as [|ch h IH]; intros prev acc v Ha H.
  - cbn [hex_digits] in H. destruct prev; inversion H; subst. cbn [List.length]. change (16 ^ Z.of_nat 0) with 1. lia.
  - cbn [List.length]. rewrite Nat2Z.inj_succ, Z.pow_succ_r by lia. set (k := 16 ^ Z.of_nat (List.length h)) in *.
    assert (0 < k) by (apply Z.pow_pos_nonneg; lia).
    cbn [hex_digits] in H. destruct (ch =? 95).
    + destruct prev; [|discriminate]. destruct h as [|c' h']; [discriminate|]. apply IH in H; [|exact Ha]. fold k in H. clear IH. nia.
    + destruct (digit_value ch) as [d|] eqn:D; [|discriminate].
      assert (0 <= d <= 15).
      { unfold digit_value in D.
        destruct (Z.leb_spec 48 ch), (Z.leb_spec ch 57), (Z.leb_spec 97 ch), (Z.leb_spec ch 102), (Z.leb_spec 65 ch), (Z.leb_spec ch 70);
          cbn [andb] in D; inversion D; lia. }
      apply IH in H; [|lia]. fold k in H. clear IH D. nia.
Qed.
Lemma hex_digits_error : forall h prev acc e, hex_digits prev acc h = Err e -> e = ValueError.
Proof.
  induction h as [|ch h IH]; intros prev acc e H; cbn [hex_digits] in H.
  - destruct prev; congruence.
  - destruct (ch =? 95).
    + destruct prev; [|congruence]. destruct h; [congruence|]. eauto.
    + destruct (digit_value ch); [eauto|congruence].
Qed.
Lemma hex_number_error : forall h e, hex_number h = Err e -> e = ValueError.
Proof.
  intros h e H. unfold hex_number in H.
  repeat match type of H with
  | context [match ?x with _ => _ end] => destruct x
  end; solve [eapply hex_digits_error; eassumption|congruence].
Qed.
Lemma hex_number_bound : forall h v, hex_number h = Ok v -> 0 <= v < 16 ^ Z.of_nat (List.length h).
Proof.
  assert (P : forall k n, (k <= n)%nat -> 16 ^ Z.of_nat k <= 16 ^ Z.of_nat n) by (intros k n L; apply Z.pow_le_mono_r; lia).
  assert (D : forall h n v, hex_digits false 0 h = Ok v -> (List.length h <= n)%nat -> 0 <= v < 16 ^ Z.of_nat n).
  { intros h n v H L. apply hex_digits_bound in H; [|lia]. specialize (P _ _ L). lia. }
  intros h v H. unfold hex_number in H. destruct h as [|z [|x r]]; [eapply D; [eassumption|lia]|eapply D; [eassumption|lia]|].
  destruct ((z =? 48) && ((x =? 120) || (x =? 88))); [|eapply D; [eassumption|lia]].
  destruct r as [|u r']; [discriminate|]. destruct (u =? 95); eapply D; try eassumption; cbn [List.length]; lia.
Qed.
Lemma drop_blanks_length : forall t, (List.length (drop_blanks t) <= List.length t)%nat.
Proof. induction t as [|c t IH]; [reflexivity|]. cbn [drop_blanks]. destruct (blank c); cbn [List.length]; lia. Qed.
Lemma drop_blanks_in : forall t c, In c (drop_blanks t) -> In c t.
Proof. induction t as [|a t IH]; intros c H; [exact H|]. cbn [drop_blanks] in H. destruct (blank a); [right; auto|exact H]. Qed.
Lemma strip_length : forall t, (List.length (strip t) <= List.length t)%nat.
Proof.
  intros t. unfold strip. rewrite rev_length. pose proof (drop_blanks_length (rev (drop_blanks t))) as H. rewrite rev_length in H.
  pose proof (drop_blanks_length t). lia.
Qed.
Lemma strip_in : forall t c, In c (strip t) -> In c t.
Proof. intros t c H. unfold strip in H. rewrite <- in_rev in H. apply drop_blanks_in in H. rewrite <- in_rev in H. apply drop_blanks_in. exact H. Qed.

Lemma int16_error : forall t e, py_int16 t = Err e -> e = ValueError.
Proof.
  intros t e H. unfold py_int16 in H. destruct (strip t) as [|c r]; [congruence|].
  destruct (c =? 45).
  - destruct (hex_number r) eqn:E; cbn [bindr] in H; [discriminate|]. inversion H; subst. eapply hex_number_error; eassumption.
  - destruct (c =? 43); eapply hex_number_error; eassumption.
Qed.
Lemma int16_bound : forall t v, py_int16 t = Ok v -> Z.abs v < 16 ^ Z.of_nat (List.length t) /\ (v < 0 -> In 45 t).
Proof.
  intros t v H. unfold py_int16 in H. destruct (strip t) as [|c r] eqn:S; [congruence|].
  pose proof (strip_length t) as L. rewrite S in L. cbn [List.length] in L.
  assert (P : forall k, (k <= List.length t)%nat -> 16 ^ Z.of_nat k <= 16 ^ Z.of_nat (List.length t)) by (intros k Hk; apply Z.pow_le_mono_r; lia).
  destruct (Z.eqb_spec c 45) as [->|_].
  - destruct (hex_number r) eqn:E; cbn [bindr] in H; [|discriminate]. inversion H; subst. apply hex_number_bound in E.
    specialize (P (List.length r) ltac:(lia)). split; [lia|]. intros _. apply strip_in. rewrite S. left. reflexivity.
  - destruct (c =? 43); apply hex_number_bound in H; cbn [List.length] in H.
    + specialize (P (List.length r) ltac:(lia)). split; lia.
    + specialize (P (Datatypes.S (List.length r)) ltac:(lia)). split; lia.
Qed.
Lemma lstrip_in : forall c t x, In x (lstrip c t) -> In x t.
Proof. induction t as [|a t IH]; intros x H; [exact H|]. cbn [lstrip] in H. destruct (a =? c); [right; auto|exact H]. Qed.

Lemma color_hex_range : forall s, match color_hex_any s with
  | Ok VNone => True
  | Ok (VInt c) => Z.abs c < 2 ^ 24 /\ (c < 0 -> In 45 s)
  | Ok _ => False
  | Err e => e = ValueError
  end.
Proof.
  intros s. unfold color_hex_any. set (h := lstrip 35 s).
  assert (I : forall x, In x h -> In x s) by (intros x; apply lstrip_in).
  destruct (Nat.eqb (List.length h) 6 || Nat.eqb (List.length h) 8) eqn:E1.
  - destruct (py_int16 (firstn 6 h)) as [v|e] eqn:E; cbn [bindr]; [|eapply int16_error; eassumption].
    apply int16_bound in E as [A B]. split.
    + assert (L : List.length (firstn 6 h) = 6%nat).
      { rewrite firstn_length. apply orb_prop in E1 as [E1|E1]; apply Nat.eqb_eq in E1; rewrite E1; reflexivity. }
      rewrite L in A. exact A.
    + intros N. apply I. specialize (B N). rewrite <- (firstn_skipn 6 h). apply in_or_app. left. exact B.
  - destruct (Nat.eqb (List.length h) 4 || Nat.eqb (List.length h) 3) eqn:E2; [|exact Logic.I].
    destruct h as [|a [|b [|c r]]]; try discriminate.
    destruct (py_int16 [a; a; b; b; c; c]) as [v|e] eqn:E; cbn [bindr]; [|eapply int16_error; eassumption].
    apply int16_bound in E as [A B]. split; [exact A|]. intros N. apply I. specialize (B N). cbn [In] in *. tauto.
Qed.
Lemma table_range : forallb (fun e => (0 <=? snd e) && (snd e <? 2 ^ 24)) color_dict = true.
Proof. vm_compute. reflexivity. Qed.
Lemma lookup_range : forall t c, lookup t color_dict = Some c -> 0 <= c < 2 ^ 24.
Proof.
  intros t c H. apply lookup_some in H. pose proof table_range as T. rewrite forallb_forall in T. specialize (T _ H). cbn [snd] in T.
  apply andb_prop in T as [T1 T2]. apply Z.leb_le in T1. apply Z.ltb_lt in T2. lia.
Qed.

(** ** Stitches *)
Definition with_stitches (p : dpat) (l : list (val * val * val)) : dpat :=
  let last := last l (dp_x p, dp_y p, VNone) in
  mkDP (dp_stitches p ++ l) (dp_threads p) (dp_extras p) (fst (fst last)) (snd (fst last)).
Lemma with_stitches_nil : forall p, with_stitches p [] = p.
Proof. intros [s t e x y]. unfold with_stitches. cbn. rewrite app_nil_r. reflexivity. Qed.
Lemma with_stitches_cons : forall p x y c l, with_stitches (append_absolute c x y p) l = with_stitches p ((x, y, c) :: l).
Proof.
  intros [s t e px py] x y c l. unfold with_stitches, append_absolute. cbn [dp_stitches dp_threads dp_extras dp_x dp_y].
  rewrite <- app_assoc. cbn [app]. destruct l as [|a l]; [reflexivity|].
  f_equal; change (last ((x, y, c) :: a :: l) (px, py, VNone)) with (last (a :: l) (px, py, VNone));
    f_equal; f_equal; generalize (x, y, VNone), (px, py, VNone); clear; revert a; induction l as [|b l IH]; intros; try reflexivity; apply (IH b).
Qed.
Lemma add_given : forall b p, meant b <> [] ->
  match given b with VSeq l => add_sequence l p = (with_stitches p (meant b), None) /\ l <> [] /\ (forall t r, l <> VStr t :: r) | _ => False end.
Proof.
  intros [l|l|l] p N; cbn [given meant] in *.
  - assert (A : forall l p, add_points (map (fun '(x, y, c) => VSeq (num x :: num y :: match c with Some c => [VInt c] | None => [] end)) l) p =
      (with_stitches p (map (fun '(x, y, c) => (num x, num y, VInt match c with Some c => c | None => STITCH end)) l), None)).
    { clear. induction l as [|[[x y] c] l IH]; intros p; cbn [map add_points]; [rewrite with_stitches_nil; reflexivity|].
      destruct c as [c|]; cbn [triple index item nth_error bindr]; rewrite IH, with_stitches_cons; reflexivity. }
    destruct l as [|[[x y] c] l]; [contradiction N; reflexivity|]. rewrite <- (A ((x, y, c) :: l)). cbn [map].
    split; [reflexivity|]. split; [discriminate|]. intros t r. discriminate.
  - assert (A : forall l p, add_complex (map (fun '(x, y) => VComplex x y) l) p =
      (with_stitches p (map (fun '(x, y) => (VFloat x, VFloat y, VInt STITCH)) l), None)).
    { clear. induction l as [|[x y] l IH]; intros p; cbn [map add_complex]; [rewrite with_stitches_nil; reflexivity|].
      cbn [parts]. rewrite IH, with_stitches_cons. reflexivity. }
    destruct l as [|[x y] l]; [contradiction N; reflexivity|]. rewrite <- (A ((x, y) :: l)). cbn [map].
    split; [reflexivity|]. split; [discriminate|]. intros t r. discriminate.
  - assert (A : forall l p, add_numbers (flat_map (fun '(x, y) => [num x; num y]) l) p =
      (with_stitches p (map (fun '(x, y) => (num x, num y, VInt STITCH)) l), None)).
    { clear. induction l as [|[x y] l IH]; intros p; cbn [flat_map map app add_numbers]; [rewrite with_stitches_nil; reflexivity|].
      rewrite IH, with_stitches_cons. reflexivity. }
    destruct l as [|[x y] l]; [contradiction N; reflexivity|]. rewrite <- (A ((x, y) :: l)). cbn [flat_map app].
    split; [destruct x; reflexivity|]. split; [discriminate|]. intros t r. destruct x; discriminate.
Qed.
