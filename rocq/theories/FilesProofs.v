(** Proofs about files by name. *)
From Coq Require Import Ascii String ZArith QArith List Bool Lia.
From Verif Require Import PyBase EmbConst StreamModel NumQ QuantModel ThreadModel Utf8Model TextModel PatternModel
  CsvModel DstModel DstFileModel GcodeModel PesModel ValueModel FilesModel FilesSpec TrimProofs.
Import ListNotations.
Open Scope Z_scope.

Lemma text_eqb_spec : forall a b, text_eqb a b = true <-> a = b.
Proof.
  induction a as [|x a IH]; intros [|y b]; cbn [text_eqb]; split; intros H; try discriminate; try reflexivity.
  - apply andb_true_iff in H. destruct H as [H1 H2]. apply Z.eqb_eq in H1. apply IH in H2. congruence.
  - inversion H; subst. rewrite Z.eqb_refl. apply IH. reflexivity.
Qed.
Lemma text_eqb_same a : text_eqb a a = true. Proof. apply text_eqb_spec. reflexivity. Qed.
Lemma text_eqb_other a b : a <> b -> text_eqb a b = false.
Proof. intros H. destruct (text_eqb a b) eqn:E; [|reflexivity]. apply text_eqb_spec in E. contradiction. Qed.

(** ** rfind *)
Lemma rfind_bound c t : -1 <= rfind c t < zlen t.
Proof.
  induction t as [|x t IH]; cbn [rfind].
  - rewrite zlen_nil. lia.
  - rewrite zlen_cons. destruct (0 <=? rfind c t) eqn:E; [|destruct (x =? c)]; apply Z.leb_le in E || apply Z.leb_gt in E; lia.
Qed.
Lemma rfind_none c t : ~ In c t -> rfind c t = -1.
Proof.
  induction t as [|x t IH]; cbn [rfind]; intros H; [reflexivity|].
  rewrite IH by (intros I; apply H; right; exact I). cbn [Z.leb Z.compare].
  destruct (x =? c) eqn:E; [|reflexivity]. apply Z.eqb_eq in E. exfalso. apply H. left. exact E.
Qed.
Lemma rfind_last c a b : ~ In c b -> rfind c (a ++ c :: b) = zlen a.
Proof.
  intros H. induction a as [|x a IH]; cbn [app rfind].
  - rewrite (rfind_none c b H). cbn [Z.leb Z.compare]. rewrite Z.eqb_refl. reflexivity.
  - rewrite IH, zlen_cons. pose proof (zlen_nonneg a). destruct (0 <=? zlen a) eqn:E; [lia|]. apply Z.leb_gt in E. lia.
Qed.
Lemma rfind_hit c t : 0 <= rfind c t -> exists a b, t = a ++ c :: b /\ ~ In c b /\ rfind c t = zlen a.
Proof.
  induction t as [|x t IH]; cbn [rfind]; intros H; [lia|].
  destruct (0 <=? rfind c t) eqn:E.
  - apply Z.leb_le in E. destruct (IH E) as (a & b & E1 & E2 & E3). exists (x :: a), b. rewrite E1 at 1. rewrite zlen_cons. repeat split; [exact E2|lia].
  - destruct (x =? c) eqn:E'; [|lia]. apply Z.eqb_eq in E'. subst x. exists [], t. repeat split.
    intros I. apply Z.leb_gt in E. apply in_split in I. clear IH H.
    revert E I. induction t as [|y t IH2]; intros E (l1 & l2 & I); [destruct l1; discriminate|].
    cbn [rfind] in E. destruct (0 <=? rfind c t) eqn:E3; [apply Z.leb_le in E3; lia|].
    destruct (y =? c) eqn:E4; [lia|]. destruct l1 as [|z l1]; cbn [app] in I; inversion I; subst.
    + rewrite Z.eqb_refl in E4. discriminate.
    + apply Z.leb_gt in E3. apply IH2; [exact E3|]. exists l1, l2. reflexivity.
Qed.
Lemma rfind_miss c t : rfind c t < 0 -> ~ In c t.
Proof.
  intros H I. apply in_split in I. destruct I as (a & b & E).
  revert t H E. induction a as [|x a IH]; intros t H E; subst t; cbn [app rfind] in H.
  - destruct (0 <=? rfind c b) eqn:E; [apply Z.leb_le in E; lia|]. rewrite Z.eqb_refl in H. lia.
  - destruct (0 <=? rfind c (a ++ c :: b)) eqn:E; [apply Z.leb_le in E; lia|]. apply Z.leb_gt in E. exact (IH _ E eq_refl).
Qed.

Lemma firstn_zlen {A} (a b : list A) : firstn (Z.to_nat (zlen a)) (a ++ b) = a.
Proof. unfold zlen. rewrite Nat2Z.id, firstn_app, firstn_all, Nat.sub_diag. apply app_nil_r. Qed.
Lemma skipn_zlen {A} (a b : list A) : skipn (Z.to_nat (zlen a)) (a ++ b) = b.
Proof. unfold zlen. rewrite Nat2Z.id, skipn_app, skipn_all, Nat.sub_diag. reflexivity. Qed.
Lemma slice_middle {A} (a b c : list A) : py_slice (zlen a) (zlen (a ++ b)) (a ++ b ++ c) = b.
Proof.
  unfold py_slice. rewrite skipn_zlen, zlen_app. replace (zlen a + zlen b - zlen a) with (zlen b) by lia. apply firstn_zlen.
Qed.

Lemma extension_found name e : has_extension name e -> get_extension_by_filename name = e.
Proof.
  intros (dir & base & -> & Hd & Hb & He & He' & (c & Hc & Hc')).
  unfold get_extension_by_filename, splitext.
  assert (E1 : rfind 46 (dir ++ base ++ [46] ++ e) = zlen (dir ++ base))
    by (rewrite app_assoc; apply rfind_last; exact He').
  assert (E2 : rfind 47 (dir ++ base ++ [46] ++ e) = zlen dir - 1).
  { assert (T : ~ In 47 (base ++ [46] ++ e)).
    { intros I. apply in_app_or in I. destruct I as [I|[I|I]]; [exact (Hb I)|discriminate|exact (He I)]. }
    destruct Hd as [-> |(d & ->)].
    - cbn [app]. rewrite zlen_nil. apply rfind_none. exact T.
    - rewrite <- app_assoc. cbn [app]. rewrite rfind_last by exact T. rewrite zlen_app, zlen_cons, zlen_nil. lia. }
  rewrite E1, E2. replace (zlen dir - 1 + 1) with (zlen dir) by lia. rewrite slice_middle.
  assert (B : base <> []) by (intros ->; exact Hc).
  assert (L : 0 < zlen base) by (destruct base; [contradiction|rewrite zlen_cons; pose proof (zlen_nonneg base); lia]).
  replace (zlen dir - 1 <? zlen (dir ++ base)) with true by (rewrite zlen_app; symmetry; apply Z.ltb_lt; lia).
  replace (existsb (fun c => negb (c =? 46)) base) with true.
  2:{ symmetry. apply existsb_exists. exists c. split; [exact Hc|]. apply negb_true_iff, Z.eqb_neq. exact Hc'. }
  cbn [andb snd]. rewrite app_assoc, skipn_zlen. reflexivity.
Qed.
Lemma slice_of_parts (d base rest : text) : forall s, s = zlen d -> py_slice s (zlen (d ++ base)) (d ++ base ++ rest) = base.
Proof. intros s ->. apply slice_middle. Qed.
Lemma extension_made name : get_extension_by_filename name = [] \/ exists e, has_extension name e.
Proof.
  unfold get_extension_by_filename, splitext.
  destruct ((rfind 47 name <? rfind 46 name)
            && existsb (fun c => negb (c =? 46)) (py_slice (rfind 47 name + 1) (rfind 46 name) name)) eqn:E; [|left; reflexivity].
  right. apply andb_true_iff in E. destruct E as [E1 E2]. apply Z.ltb_lt in E1.
  assert (Hp : 0 <= rfind 46 name) by (pose proof (rfind_bound 47 name); lia).
  destruct (rfind_hit 46 name Hp) as (a & e & En & Ne & Er).
  destruct (Z_lt_le_dec (rfind 47 name) 0) as [Hs|Hs].
  - exists e, [], a. pose proof (rfind_miss 47 name Hs) as Hm.
    assert (Es : rfind 47 name = -1) by (pose proof (rfind_bound 47 name); lia).
    rewrite Es, Er in E2. change (-1 + 1) with 0 in E2.
    assert (Ea : py_slice 0 (zlen a) name = a)
      by (rewrite En; apply (slice_of_parts [] a (46 :: e)); reflexivity).
    rewrite Ea in E2. apply existsb_exists in E2. destruct E2 as (c & C1 & C2).
    repeat split.
    + exact En.
    + left. reflexivity.
    + intros I. apply Hm. rewrite En. apply in_or_app. left. exact I.
    + intros I. apply Hm. rewrite En. apply in_or_app. right. right. exact I.
    + exact Ne.
    + exists c. split; [exact C1|]. apply negb_true_iff, Z.eqb_neq in C2. exact C2.
  - destruct (rfind_hit 47 name Hs) as (d & q & Ed & Nq & Es).
    (* the slash stands in a *)
    assert (Hsplit : exists base, a = d ++ 47 :: base /\ q = base ++ 46 :: e).
    { rewrite Es, Er in E1. rewrite En in Ed. clear - Ed E1 Nq.
      assert (L : (List.length d < List.length a)%nat) by (unfold zlen in E1; lia).
      exists (skipn (S (List.length d)) a).
      assert (F : firstn (List.length a) (a ++ 46 :: e) = firstn (List.length a) (d ++ 47 :: q)) by (rewrite Ed; reflexivity).
      rewrite firstn_app, Nat.sub_diag, firstn_all in F. cbn [firstn] in F. rewrite app_nil_r in F.
      rewrite firstn_app in F. rewrite firstn_all2 in F by lia.
      destruct (List.length a - List.length d)%nat as [|k] eqn:K; [lia|]. cbn [firstn] in F.
      assert (A1 : skipn (S (List.length d)) a = firstn k q).
      { rewrite F. rewrite skipn_app, skipn_all2 by lia. replace (S (List.length d) - List.length d)%nat with 1%nat by lia. reflexivity. }
      split; [rewrite A1; exact F|].
      rewrite A1. assert (G : skipn (List.length a) (a ++ 46 :: e) = skipn (List.length a) (d ++ 47 :: q)) by (rewrite Ed; reflexivity).
      rewrite skipn_app, Nat.sub_diag, skipn_all in G. cbn [skipn app] in G.
      rewrite skipn_app, skipn_all2 in G by lia. rewrite K in G. cbn [skipn app] in G. rewrite G. symmetry. apply firstn_skipn. }
    destruct Hsplit as (base & Ea & Eq).
    exists e, (d ++ [47]), base.
    assert (Es' : py_slice (rfind 47 name + 1) (rfind 46 name) name = base).
    { rewrite Es, Er, En, Ea. replace (d ++ 47 :: base) with ((d ++ [47]) ++ base) by (rewrite <- app_assoc; reflexivity).
      rewrite <- (app_assoc (d ++ [47]) base). apply slice_of_parts. rewrite zlen_app, zlen_cons, zlen_nil. lia. }
    rewrite Es' in E2. apply existsb_exists in E2. destruct E2 as (c & C1 & C2).
    repeat split.
    + rewrite En, Ea. rewrite <- !app_assoc. reflexivity.
    + right. exists d. reflexivity.
    + intros I. apply Nq. rewrite Eq. apply in_or_app. left. exact I.
    + intros I. apply Nq. rewrite Eq. apply in_or_app. right. right. exact I.
    + exact Ne.
    + exists c. split; [exact C1|]. apply negb_true_iff, Z.eqb_neq in C2. exact C2.
Qed.

Lemma extension_none name : (forall e, ~ has_extension name e) -> get_extension_by_filename name = [].
Proof. intros H. destruct (extension_made name) as [E|(e & E)]; [exact E|]. exfalso. exact (H e E). Qed.
Lemma extension_real name : get_extension_by_filename name <> [] -> has_extension name (get_extension_by_filename name).
Proof. intros H. destruct (extension_made name) as [E|(e & E)]; [contradiction|]. rewrite (extension_found name e E). exact E. Qed.

(** ** The table *)
Definition small_letter (c : Z) : bool := negb ((65 <=? c) && (c <=? 90)) && negb (c =? 0x212A).
Lemma lower_spells e t : forallb small_letter t = true -> (lower e = t <-> Forall2 same_letter e t).
Proof.
  revert t. induction e as [|x e IH]; intros [|y t] H; cbn [lower map]; split; intros K; try discriminate; try (inversion K; fail); try constructor.
  - cbn [forallb] in H. apply andb_true_iff in H. destruct H as [H1 H2]. inversion K; subst y.
    destruct ((65 <=? x) && (x <=? 90)) eqn:E; [|destruct (x =? 0x212A) eqn:E'].
    + right. left. apply andb_true_iff in E. destruct E as [E1 E2]. apply Z.leb_le in E1, E2. lia.
    + right. right. apply Z.eqb_eq in E'. lia.
    + left. reflexivity.
  - cbn [forallb] in H. apply andb_true_iff in H. destruct H as [H1 H2]. injection K as _ K. apply (IH t H2). exact K.
  - cbn [forallb] in H. apply andb_true_iff in H. destruct H as [H1 H2]. inversion K as [|? ? ? ? K1 K2]; subst.
    apply IH in K2; [|exact H2]. unfold lower in K2. rewrite K2. f_equal.
    unfold small_letter in H1. apply andb_true_iff in H1. destruct H1 as [H1 H3]. apply negb_true_iff in H1, H3.
    destruct K1 as [-> |[[K1 ->]|[-> ->]]].
    + rewrite H1, H3. reflexivity.
    + replace ((65 <=? x) && (x <=? 90)) with true by (symmetry; apply andb_true_iff; split; apply Z.leb_le; lia). reflexivity.
    + reflexivity.
Qed.
Lemma table_small : forallb (fun f => forallb small_letter (text_of (f_extension f))) supported_formats = true.
Proof. vm_compute. reflexivity. Qed.
Lemma spells_lower e f : In f supported_formats -> (spells e (f_extension f) <-> text_of (f_extension f) = lower e).
Proof.
  intros H. pose proof (proj1 (forallb_forall _ _) table_small f H) as K. cbv beta in K.
  unfold spells. rewrite <- (lower_spells e _ K). split; intros E; symmetry; exact E.
Qed.
Lemma find_some e l f : find_format e l = Some f -> In f l /\ text_of (f_extension f) = e.
Proof.
  induction l as [|g l IH]; cbn [find_format]; [discriminate|]. destruct (text_eqb _ e) eqn:E; intros H.
  - inversion H; subst. split; [left; reflexivity|apply text_eqb_spec; exact E].
  - destruct (IH H). split; [right|]; assumption.
Qed.
Lemma find_none e l : find_format e l = None -> forall f, In f l -> text_of (f_extension f) <> e.
Proof.
  induction l as [|g l IH]; cbn [find_format]; intros H f [].
  - subst g. destruct (text_eqb _ e) eqn:E; [discriminate|]. intros K. apply text_eqb_spec in K. congruence.
  - destruct (text_eqb _ e); [discriminate|]. apply IH; assumption.
Qed.
Lemma last_some e l f : last_format e l = Some f -> In f l /\ text_of (f_extension f) = e.
Proof.
  induction l as [|g l IH]; cbn [last_format]; [discriminate|].
  destruct (last_format e l) as [h|]; intros H.
  - destruct (IH H). split; [right|]; assumption.
  - destruct (text_eqb _ e) eqn:E; [|discriminate]. inversion H; subst. split; [left; reflexivity|apply text_eqb_spec; exact E].
Qed.
Lemma last_none e l : last_format e l = None -> forall f, In f l -> text_of (f_extension f) <> e.
Proof.
  induction l as [|g l IH]; cbn [last_format]; intros H f I; [destruct I|].
  destruct (last_format e l) as [h|]; [discriminate|]. destruct (text_eqb (text_of (f_extension g)) e) eqn:E; [discriminate|].
  destruct I as [->|I]; [|exact (IH eq_refl f I)]. intros K. apply text_eqb_spec in K. congruence.
Qed.
(** No two entries have the same extension. *)
Fixpoint distinct (l : list text) : bool :=
  match l with [] => true | a :: r => forallb (fun b => negb (text_eqb a b)) r && distinct r end.
Lemma distinct_nodup l : distinct l = true -> NoDup l.
Proof.
  induction l as [|a l IH]; cbn [distinct]; intros H; constructor; apply andb_true_iff in H; destruct H as [H1 H2].
  - intros I. pose proof (proj1 (forallb_forall _ _) H1 a I) as K. cbv beta in K. rewrite text_eqb_same in K. discriminate.
  - apply IH. exact H2.
Qed.
Lemma table_nodup : NoDup (map (fun f => text_of (f_extension f)) supported_formats).
Proof. apply distinct_nodup. vm_compute. reflexivity. Qed.
Lemma nodup_same {A B} (g : A -> B) l a b : NoDup (map g l) -> In a l -> In b l -> g a = g b -> a = b.
Proof.
  induction l as [|x l IH]; cbn [map]; intros N Ia Ib E; [destruct Ia|]. inversion N as [|? ? N1 N2]; subst.
  destruct Ia as [->|Ia], Ib as [->|Ib].
  - reflexivity.
  - exfalso. apply N1. rewrite E. apply in_map. exact Ib.
  - exfalso. apply N1. rewrite <- E. apply in_map. exact Ia.
  - apply IH; assumption.
Qed.
Lemma found_both name f : In f supported_formats -> names_format name f ->
  find_format (lower (get_extension_by_filename name)) supported_formats = Some f /\
  last_format (lower (get_extension_by_filename name)) supported_formats = Some f.
Proof.
  intros I (e & H1 & H2). rewrite (extension_found name e H1). apply (spells_lower e f I) in H2. split.
  - destruct (find_format (lower e) supported_formats) as [g|] eqn:E.
    + apply find_some in E. destruct E as [E1 E2]. f_equal.
      apply (nodup_same _ _ g f table_nodup E1 I). congruence.
    + exfalso. exact (find_none _ _ E f I H2).
  - destruct (last_format (lower e) supported_formats) as [g|] eqn:E.
    + apply last_some in E. destruct E as [E1 E2]. f_equal.
      apply (nodup_same _ _ g f table_nodup E1 I). congruence.
    + exfalso. exact (last_none _ _ E f I H2).
Qed.
Lemma table_nonempty f : In f supported_formats -> text_of (f_extension f) <> [].
Proof.
  intros I. assert (K : forallb (fun f => match text_of (f_extension f) with [] => false | _ => true end) supported_formats = true) by (vm_compute; reflexivity).
  pose proof (proj1 (forallb_forall _ _) K f I) as Q. cbv beta in Q. destruct (text_of (f_extension f)); [discriminate|discriminate].
Qed.
Lemma found_none name : (forall f, In f supported_formats -> ~ names_format name f) ->
  find_format (lower (get_extension_by_filename name)) supported_formats = None /\
  last_format (lower (get_extension_by_filename name)) supported_formats = None.
Proof.
  intros H. assert (K : forall f, In f supported_formats -> text_of (f_extension f) <> lower (get_extension_by_filename name)).
  { intros f I E. destruct (get_extension_by_filename name) as [|c t] eqn:G; [exact (table_nonempty f I E)|].
    apply (H f I). exists (c :: t). rewrite <- G. split; [apply extension_real; rewrite G; discriminate|].
    apply (spells_lower _ f I). rewrite G. exact E. }
  split.
  - destruct (find_format _ _) as [f|] eqn:E; [|reflexivity]. apply find_some in E. destruct E as [E1 E2]. exfalso. exact (K f E1 E2).
  - destruct (last_format _ _) as [f|] eqn:E; [|reflexivity]. apply last_some in E. destruct E as [E1 E2]. exfalso. exact (K f E1 E2).
Qed.

(** ** What the DST writer has written *)
Lemma run_pieces_app a b : run_pieces (a ++ b) =
  match run_pieces a with (x, Some e) => (x, Some e) | (x, None) => let '(y, e) := run_pieces b in (x ++ y, e) end.
Proof.
  induction a as [|[p|e] a IH]; cbn [app run_pieces]; [destruct (run_pieces b); reflexivity| |reflexivity].
  rewrite IH. destruct (run_pieces a) as [x [e|]]; [reflexivity|]. destruct (run_pieces b) as [y e]. rewrite app_assoc. reflexivity.
Qed.
Lemma run_emit {A} (g : A -> res (list Z)) l : match emit_all g l with
  | Ok b => run_pieces (map g l) = (b, None)
  | Err e => snd (run_pieces (map g l)) = Some e
  end.
Proof.
  induction l as [|a l IH]; cbn [emit_all map run_pieces bindr]; [reflexivity|].
  destruct (g a) as [h|e]; cbn [bindr]; [|reflexivity].
  destruct (emit_all g l) as [t|e]; cbn [bindr].
  - rewrite IH. reflexivity.
  - destruct (run_pieces (map g l)) as [t e']. cbn [snd] in *. exact IH.
Qed.
Lemma utf8_join a b : utf8_encode (a ++ b) = do x <- utf8_encode a; do y <- utf8_encode b; Ok (x ++ y).
Proof.
  induction a as [|c a IH]; cbn [app utf8_encode bindr].
  - destruct (utf8_encode b); reflexivity.
  - destruct (utf8_char c) as [h|e]; cbn [bindr]; [|reflexivity]. rewrite IH.
    destruct (utf8_encode a) as [x|e]; cbn [bindr]; [|reflexivity].
    destruct (utf8_encode b) as [y|e]; cbn [bindr]; [|reflexivity]. rewrite app_assoc. reflexivity.
Qed.
Lemma run_texts (ts : list text) : match utf8_encode (concat ts) with
  | Ok b => run_pieces (map encode_piece (map Ok ts)) = (b, None)
  | Err e => snd (run_pieces (map encode_piece (map Ok ts))) = Some e
  end.
Proof.
  induction ts as [|t ts IH]; cbn [concat map run_pieces bindr]; [reflexivity|]. rewrite utf8_join. unfold encode_piece at 1 3. cbn [bindr].
  destruct (utf8_encode t) as [x|e]; cbn [bindr]; [|reflexivity].
  destruct (utf8_encode (concat ts)) as [y|e]; cbn [bindr].
  - rewrite IH. reflexivity.
  - destruct (run_pieces _) as [q e']. cbn [snd] in *. exact IH.
Qed.
Lemma run_fails {A} (g : A -> res (list Z)) l a e : In a l -> g a = Err e -> exists e', snd (run_pieces (map g l)) = Some e'.
Proof.
  induction l as [|b l IH]; intros I E; [destruct I|]. cbn [map run_pieces].
  destruct (g b) as [h|e'] eqn:G; [|exists e'; reflexivity].
  destruct I as [->|I]; [congruence|]. destruct (IH I E) as (e' & K). exists e'.
  destruct (run_pieces (map g l)) as [t q]. exact K.
Qed.
Lemma header_strings_text extended p l : match header_text extended p l with
  | Ok t => exists ts, header_strings extended p l = map Ok ts /\ concat ts = t
  | Err e => exists e, In (Err e) (header_strings extended p l)
  end.
Proof.
  unfold header_text, header_strings. destruct (bounds l) as [[[x0 y0] x1] y1].
  destruct (match rev l with s :: _ => (q_cut (sx s), - q_cut (sy s)) | [] => (0, 0) end) as [ax ay].
  destruct (cut_abs x1) as [a|e]; cbn [bindr]; [|exists e; cbn [app In]; tauto].
  destruct (cut_abs x0) as [b|e]; cbn [bindr]; [|exists e; cbn [app In]; tauto].
  destruct (cut_abs y1) as [c|e]; cbn [bindr]; [|exists e; cbn [app In]; tauto].
  destruct (cut_abs y0) as [d|e]; cbn [bindr]; [|exists e; cbn [app In]; tauto].
  set (tail := if extended then _ else _).
  assert (T : exists ts, tail = map Ok ts /\ concat ts = (if extended
      then match i_author p with Some a => header_line "AU" a | None => [] end
           ++ match i_copyright p with Some c => header_line "CP" c | None => [] end
           ++ flat_map thread_line (i_threads p) else [])).
  { subst tail. destruct extended; [|exists []; split; reflexivity].
    exists (match i_author p with Some a => [header_line "AU" a] | None => [] end
            ++ match i_copyright p with Some c => [header_line "CP" c] | None => [] end ++ map thread_line (i_threads p)).
    split.
    - rewrite !map_app, map_map. destruct (i_author p), (i_copyright p); reflexivity.
    - rewrite !concat_app, <- flat_map_concat_map.
      destruct (i_author p), (i_copyright p); cbn [concat app]; rewrite ?app_nil_r; reflexivity. }
  destruct T as (ts & T1 & T2). rewrite T1.
  eexists (_ :: _ :: _ :: _ :: _ :: _ :: _ :: _ :: _ :: _ :: _ :: _ :: ts). split; [cbn [app map]; reflexivity|].
  cbn [concat]. rewrite T2. reflexivity.
Qed.
Lemma stream_write extended t p l : match dst_write extended t p l with
  | Ok b => dst_stream extended t p l = (b, None)
  | Err _ => exists e, snd (dst_stream extended t p l) = Some e
  end.
Proof.
  unfold dst_write, dst_stream, dst_body.
  pose proof (header_strings_text extended p l) as H. destruct (header_text extended p l) as [tx|e]; cbn [bindr].
  - destruct H as (ts & -> & <-). pose proof (run_texts ts) as R.
    destruct (utf8_encode (concat ts)) as [h|e]; cbn [bindr].
    + rewrite R. pose proof (run_emit (dst_emit t) (quantise qz_q 0 0 l)) as Q.
      destruct (emit_all (dst_emit t) (quantise qz_q 0 0 l)) as [b|e]; cbn [bindr].
      * rewrite Q. reflexivity.
      * destruct (run_pieces (map (dst_emit t) _)) as [b e']. cbn [snd] in *. exists e. exact Q.
    + destruct (run_pieces _) as [h e']. cbn [snd] in R. subst e'. exists e. reflexivity.
  - destruct H as (e' & I). destruct (run_fails encode_piece _ _ e' I eq_refl) as (e'' & K).
    destruct (run_pieces (map encode_piece (header_strings extended p l))) as [h q]. cbn [snd] in K. subst q. exists e''. reflexivity.
Qed.
