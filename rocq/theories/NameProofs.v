(** Commands written by name read back as the same command. *)
From Coq Require Import Ascii String ZArith List Bool Lia.
From Verif Require Import PyBase EmbConst FunctionsModel BitLemmas ThreadModel TextModel TextProofs NameModel.
Import ListNotations.
Open Scope Z_scope.

Lemma name_of_in c l n : name_of c l = Some n -> In (c, n) l.
Proof.
  induction l as [|[k m] r IH]; cbn [name_of]; [discriminate|].
  destruct (Z.eqb_spec k c) as [->|_]; [intros [= ->]; left; reflexivity|]. intros H; right; auto.
Qed.

Definition good_entry (e : Z * text) : bool :=
  let '(k, n) := e in
  (k =? -1) || (match command_named n command_dictionary with Some c => c =? k | None => false end
     && forallb (fun ch => negb (ch =? 32)) n).
Lemma entries_good : forallb good_entry common_names = true.
Proof. vm_compute. reflexivity. Qed.

Lemma name_of_good c n : 0 <= c -> name_of c common_names = Some n ->
  command_named n command_dictionary = Some c /\ ~ In 32 n.
Proof.
  intros Hc H. apply name_of_in in H. pose proof entries_good as G. rewrite forallb_forall in G. specialize (G _ H).
  unfold good_entry in G. destruct (Z.eqb_spec c (-1)); [lia|]. cbn [orb] in G.
  apply andb_prop in G as [G1 G2]. split.
  - destruct (command_named n command_dictionary) as [k|]; [|discriminate]. apply Z.eqb_eq in G1. congruence.
  - intros K. rewrite forallb_forall in G2. specialize (G2 _ K). discriminate.
Qed.

Definition field_of (c k : Z) : Z := (c / 2 ^ k) mod 256.
Lemma dec_field_of c k : 0 <= k ->
  dec_field c (Z.shiftl 0xFF k) k = if field_of c k =? 0 then None else Some (field_of c k - 1).
Proof.
  intros Hk. unfold dec_field. rewrite shiftr_mask by exact Hk. fold (field_of c k).
  assert (0 <= field_of c k < 256) by (apply Z.mod_pos_bound; lia).
  destruct (Z.eqb_spec (field_of c k - 1) (-1)), (Z.eqb_spec (field_of c k) 0); try reflexivity; lia.
Qed.

(** The words after the name. *)
Definition attr_word (letter : Z) (v : option Z) : list text :=
  match v with Some v => [letter :: str_of_int v] | None => [] end.
Lemma split_attr letter v rest : letter <> 32 ->
  split_on 32 (attribute letter v ++ rest) =
  match v with None => split_on 32 rest
  | Some v => [] :: split_on 32 (letter :: str_of_int v ++ rest) end.
Proof. intros _. destruct v; reflexivity. Qed.

Lemma no_space_word letter v : letter <> 32 -> ~ In 32 (letter :: str_of_int v).
Proof. intros H [K|K]; [congruence|]. revert K. no_char. Qed.

Lemma split_words a t n o : ~ In 32 a ->
  split_on 32 (a ++ attribute 116 t ++ attribute 110 n ++ attribute 111 o)
  = a :: attr_word 116 t ++ attr_word 110 n ++ attr_word 111 o.
Proof.
  assert (W : forall l v, l = 116 \/ l = 110 \/ l = 111 -> ~ In 32 (l :: str_of_int v)).
  { intros l v Hl. apply no_space_word. lia. }
  intros Ha. destruct t as [t|], n as [n|], o as [o|]; cbn [attribute attr_word app];
    rewrite ?app_nil_r;
    repeat first
      [ rewrite split_on_first by exact Ha
      | rewrite split_on_none by exact Ha
      | match goal with
        | |- context [split_on 32 (?l :: str_of_int ?v ++ 32 :: ?r)] =>
            rewrite (split_on_first 32 (l :: str_of_int v) r : _ -> split_on 32 (l :: str_of_int v ++ 32 :: r) = _)
              by (apply W; lia)
        | |- context [split_on 32 (?l :: str_of_int ?v)] =>
            rewrite (split_on_none 32 (l :: str_of_int v)) by (apply W; lia)
        end ]; reflexivity.
Qed.

Definition field_word (letter v : Z) : list text :=
  attr_word letter (if v =? 0 then None else Some (v - 1)).
Lemma add_field letter k v command rest :
  (letter = 116 /\ k = 8) \/ (letter = 110 /\ k = 16) \/ (letter = 111 /\ k = 24) ->
  add_attributes command (field_word letter v ++ rest) = add_attributes (Z.lor command (Z.shiftl v k)) rest.
Proof.
  intros H. unfold field_word. destruct (Z.eqb_spec v 0) as [->|Hv]; cbn [attr_word app].
  - rewrite Z.shiftl_0_l, Z.lor_0_r. reflexivity.
  - destruct H as [[-> ->] | [[-> ->] | [-> ->]]]; cbn [add_attributes Z.eqb Pos.eqb]; rewrite int_of_str_0; cbn [bindr];
      replace (v - 1 + 1) with v by lia; reflexivity.
Qed.

Lemma bytes_of_command c :
  c mod 256 + field_of c 8 * 2 ^ 8 + field_of c 16 * 2 ^ 16 + field_of c 24 * 2 ^ 24 = c mod 2 ^ 32.
Proof. unfold field_of. cbn [Z.pow Z.pow_pos Pos.iter Z.mul Pos.mul]. lia. Qed.

Lemma command_by_name c : decoded_command (decoded_name c) =
  match name_of (c mod 256) common_names with
  | Some _ => Ok (c mod 2 ^ 32)
  | None => Err KeyError
  end.
Proof.
  unfold decoded_name, decode_embroidery_command. change COMMAND_MASK with 0xFF. rewrite land_ff.
  change THREAD_MASK with (Z.shiftl 0xFF 8). change NEEDLE_MASK with (Z.shiftl 0xFF 16).
  change ORDER_MASK with (Z.shiftl 0xFF 24). rewrite !dec_field_of by lia.
  destruct (name_of (c mod 256) common_names) as [n|] eqn:E.
  - assert (Hc : 0 <= c mod 256 < 256) by (apply Z.mod_pos_bound; lia).
    destruct (name_of_good _ _ (proj1 Hc) E) as [Hn Hs].
    unfold decoded_command. rewrite split_words by exact Hs. rewrite Hn.
    fold (field_word 116 (field_of c 8)). fold (field_word 110 (field_of c 16)). fold (field_word 111 (field_of c 24)).
    rewrite add_field with (k := 8) by auto.
    rewrite add_field with (k := 16) by auto.
    rewrite <- (app_nil_r (field_word 111 _)), add_field with (k := 24) by auto.
    cbn [add_attributes].
    assert (F : forall k, 0 <= field_of c k < 256) by (intros k; apply Z.mod_pos_bound; lia).
    pose proof (F 8); pose proof (F 16); pose proof (F 24).
    rewrite (lor_shiftl_add (c mod 256)), (lor_shiftl_add (c mod 256 + _)), (lor_shiftl_add (c mod 256 + _ + _)) by lia.
    rewrite bytes_of_command. reflexivity.
  - unfold decoded_command.
    change (text_of "UNKNOWN " ++ str_of_int c) with (text_of "UNKNOWN" ++ 32 :: str_of_int c).
    rewrite split_on_first; [reflexivity|]. vm_compute. intuition discriminate.
Qed.
