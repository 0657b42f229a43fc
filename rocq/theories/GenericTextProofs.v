(** Proofs about the text of a file of the generic writer. *)
From Coq Require Import Ascii String ZArith QArith Lia List Bool.
From Verif Require Import PyBase EmbConst NumQ ThreadModel TextModel FunctionsModel NameModel PatternModel FilesProofs DstFileSpec DstWholeProofs
  GenericModel GenericTextModel GenericTextSpec.
Import ListNotations.
Open Scope Z_scope.

(** ** Templates *)
Lemma fill_words d t : forall r, fill d None (double_braces t ++ r) = (do q <- fill d None r; Ok (t ++ q)).
Proof.
  induction t as [|c t IH]; intros r.
  - cbn [double_braces flat_map app]. destruct (fill d None r); reflexivity.
  - unfold double_braces. cbn [flat_map]. fold (double_braces t). rewrite <- app_assoc.
    destruct (c =? 123) eqn:E1; [apply Z.eqb_eq in E1; subst c|destruct (c =? 125) eqn:E2; [apply Z.eqb_eq in E2; subst c|]];
      cbn [orb app Z.eqb fill Pos.eqb]; rewrite ?E1, ?E2, IH; destruct (fill d None r); reflexivity.
Qed.
Lemma fill_field d n : (forall c, In c n -> ~ In c [123; 125; 58; 33; 46; 91]) -> forall acc r,
  fill d (Some acc) (n ++ 125 :: r) = (do v <- field d (rev (rev n ++ acc)); do q <- fill d None r; Ok (v ++ q)).
Proof.
  induction n as [|c n IH]; intros H acc r.
  - reflexivity.
  - cbn [app fill]. pose proof (H c (or_introl eq_refl)) as Hc.
    destruct (c =? 125) eqn:E; [apply Z.eqb_eq in E; subst c; exfalso; apply Hc; cbn; tauto|].
    destruct (special c) eqn:E2.
    { exfalso. apply Hc. unfold special in E2. apply existsb_exists in E2. destruct E2 as (x & Ix & Ex). apply Z.eqb_eq in Ex. subst x. cbn in *. tauto. }
    rewrite IH by (intros x Ix; apply H; right; exact Ix). cbn [rev]. rewrite <- app_assoc. reflexivity.
Qed.
Lemma fill_value d n r : plain_name n ->
  fill d None (123 :: n ++ 125 :: r) = (do v <- match lookup n d with Some v => Ok v | None => Err KeyError end; do q <- fill d None r; Ok (v ++ q)).
Proof.
  intros [(c & Ic & Hc) Hn]. destruct n as [|a n]; [contradiction|].
  assert (Ha : a =? 123 = false). { apply Z.eqb_neq. intros ->. apply (Hn 123 (or_introl eq_refl)). cbn. tauto. }
  change (fill d None (123 :: (a :: n) ++ 125 :: r)) with (if a =? 123 then do q <- fill d None (n ++ 125 :: r); Ok (123 :: q) else fill d (Some []) ((a :: n) ++ 125 :: r)).
  rewrite Ha. rewrite fill_field by exact Hn. rewrite app_nil_r, rev_involutive. unfold field.
  assert (Hd : forallb digit (a :: n) = false).
  { destruct (forallb digit (a :: n)) eqn:E; [|reflexivity]. rewrite forallb_forall in E. specialize (E c Ic). unfold digit in E.
    apply andb_true_iff in E. destruct E as [E1 E2]. apply Z.leb_le in E1, E2. lia. }
  rewrite Hd. reflexivity.
Qed.
Fixpoint evaluate (d : dict) (ps : list piece) : res text :=
  match ps with
  | [] => Ok []
  | Words t :: r => do q <- evaluate d r; Ok (t ++ q)
  | Value n :: r => do v <- match lookup n d with Some v => Ok v | None => Err KeyError end; do q <- evaluate d r; Ok (v ++ q)
  end.
Lemma format_pieces d ps : plain ps -> format_map (template_text ps) d = evaluate d ps.
Proof.
  unfold format_map, plain. induction ps as [|[t|n] ps IH]; intros P; cbn [template_text flat_map piece_text names_in evaluate] in *.
  - reflexivity.
  - fold (template_text ps). rewrite fill_words, IH by exact P. reflexivity.
  - fold (template_text ps). inversion P; subst. rewrite <- app_assoc. cbn [app]. rewrite <- app_assoc. cbn [app]. rewrite fill_value by assumption.
    rewrite IH by assumption. reflexivity.
Qed.
Lemma evaluate_ext d1 d2 ps : (forall n, In n (names_in ps) -> lookup n d1 = lookup n d2) -> evaluate d1 ps = evaluate d2 ps.
Proof.
  induction ps as [|[t|n] ps IH]; intros H; cbn [evaluate names_in flat_map app] in *; [reflexivity| |].
  - rewrite IH by exact H. reflexivity.
  - rewrite (H n) by (left; reflexivity). rewrite IH by (intros m Im; apply H; right; exact Im). reflexivity.
Qed.
Lemma evaluate_put d name v ps : lookup name d = Some v -> evaluate d (put name v ps) = evaluate d ps.
Proof.
  intros L. induction ps as [|[t|n] ps IH]; cbn [put map evaluate].
  - reflexivity.
  - fold (put name v ps). rewrite IH. reflexivity.
  - fold (put name v ps). destruct (text_eqb n name) eqn:E; cbn [evaluate].
    + apply text_eqb_spec in E. subst n. rewrite L, IH. reflexivity.
    + rewrite IH. reflexivity.
Qed.
Lemma evaluate_spelled d f ps : (forall n, In n (names_in ps) -> lookup n d = Some (f n)) -> evaluate d ps = Ok (spelled f ps).
Proof.
  induction ps as [|[t|n] ps IH]; intros H; cbn [evaluate names_in flat_map app spelled] in *; [reflexivity| |].
  - rewrite IH by exact H. reflexivity.
  - rewrite (H n) by (left; reflexivity). rewrite IH by (intros m Im; apply H; right; exact Im). reflexivity.
Qed.
Lemma names_put name v ps : incl (names_in (put name v ps)) (names_in ps).
Proof.
  induction ps as [|[t|n] ps IH]; cbn [put map names_in flat_map app].
  - intros x [].
  - exact IH.
  - destruct (text_eqb n name); cbn [app]; intros x I.
    + right. apply IH, I.
    + destruct I as [I|I]; [left; exact I|right; apply IH, I].
Qed.
Lemma plain_put name v ps : plain ps -> plain (put name v ps).
Proof. unfold plain. rewrite !Forall_forall. intros H x I. apply H, (names_put name v), I. Qed.

(** ** Dictionaries *)
Lemma lookup_app n a b : lookup n (a ++ b) = match lookup n a with Some v => Some v | None => lookup n b end.
Proof. induction a as [|[k v] a IH]; cbn [lookup app]; [reflexivity|]. destruct (text_eqb n k); [reflexivity|exact IH]. Qed.
Lemma lookup_none n d : ~ In n (map fst d) -> lookup n d = None.
Proof.
  induction d as [|[k v] d IH]; cbn [lookup map fst]; intros H; [reflexivity|].
  destruct (text_eqb n k) eqn:E; [apply text_eqb_spec in E; subst; exfalso; apply H; left; reflexivity|]. apply IH. intros I. apply H. right. exact I.
Qed.
Lemma lookup_some n d : In n (map fst d) -> exists v, lookup n d = Some v.
Proof.
  induction d as [|[k v] d IH]; cbn [lookup map fst]; intros H; [contradiction|].
  destruct (text_eqb n k) eqn:E; [eexists; reflexivity|]. destruct H as [H|H]; [subst; rewrite text_eqb_same in E; discriminate|]. apply IH, H.
Qed.
Lemma lookup_in k v d : NoDup (map fst d) -> In (k, v) d -> lookup k d = Some v.
Proof.
  induction d as [|[k1 v1] d IH]; cbn [lookup map fst]; intros N I; [contradiction|]. inversion N; subst.
  destruct I as [I|I]; [injection I as -> ->; rewrite text_eqb_same; reflexivity|].
  destruct (text_eqb k k1) eqn:E; [|apply IH; assumption]. apply text_eqb_spec in E. subst k1. exfalso. apply H1.
  change k with (fst (k, v)). apply in_map, I.
Qed.
Definition member (n : text) (l : list text) : bool := existsb (text_eqb n) l.
Lemma member_in n l : member n l = true <-> In n l.
Proof.
  unfold member. rewrite existsb_exists. split.
  - intros (x & I & E). apply text_eqb_spec in E. subst. exact I.
  - intros I. exists n. split; [exact I|apply text_eqb_same].
Qed.
Fixpoint distinct (l : list text) : bool := match l with [] => true | a :: r => negb (member a r) && distinct r end.
Lemma distinct_nodup l : distinct l = true -> NoDup l.
Proof.
  induction l as [|a l IH]; intros H; [constructor|]. cbn [distinct] in H. apply andb_true_iff in H. destruct H as [H1 H2].
  constructor; [|apply IH, H2]. intros I. apply member_in in I. rewrite I in H1. discriminate.
Qed.
Definition disjoint (a b : list text) : bool := forallb (fun n => negb (member n b)) a.
Lemma disjoint_not n a b : disjoint a b = true -> In n a -> ~ In n b.
Proof. unfold disjoint. rewrite forallb_forall. intros H I J. specialize (H n I). apply member_in in J. rewrite J in H. discriminate. Qed.

(** The names of the numbers of documents, colours and blocks. *)
Definition number_names : list text :=
  map text_of ["document_index"; "document_index1"; "color_index"; "color_index1"; "block_index"; "block_index1"]%string.
Definition working_names : list text := command_names ++ number_names.

Section Text.
Variables (show show_float : Q -> text).
Notation position_values := (position_values show show_float).
Notation start_values := (start_values show show_float).
Notation statistics := (statistics show show_float).
Notation text_commands := (text_commands show show_float).
Notation fill_events := (fill_events show show_float).
Notation after_events := (after_events show show_float).
Notation generic_text := (generic_text show show_float).

Lemma command_keys i s name : map fst (command_values i s name) = firstn 7 command_names.
Proof. unfold command_values. destruct (decode_embroidery_command (scmd s)) as [[[a b] c] e]. reflexivity. Qed.
Lemma position_keys v : map fst (position_values v) = skipn 7 command_names.
Proof. reflexivity. Qed.
Lemma number_keys v : incl (map fst (index_values v)) number_names.
Proof. unfold index_values. destruct (v_document v <? 0); [intros x []|]. intros x I. exact I. Qed.
Lemma statistic_keys p : map fst (statistics p) = firstn 2 statistic_names ++ map fst (extent_values show show_float (gp_stitches p)) ++ skipn 14 statistic_names.
Proof. unfold GenericTextModel.statistics. rewrite !map_app. unfold count_values, statistic_names. rewrite map_map. reflexivity. Qed.
Lemma extent_keys l n : In n (map fst (extent_values show show_float l)) <-> In n (firstn 12 (skipn 2 statistic_names)).
Proof.
  unfold extent_values. destruct (bounds l) as [[[[x0|] [y0|]] [x1|]] [y1|]];
    cbn [map fst app firstn skipn statistic_names In]; try tauto.
Qed.

(** ** Two runs side by side *)
Section Simulation.
Variables (gs1 gs2 : gsettings) (related : dict -> dict -> Prop).
Definition agree (t1 t2 : text) : Prop := forall i s name v d1 d2, related d1 d2 ->
  format_map t1 (index_values v ++ position_values v ++ command_values i s name ++ d1)
  = format_map t2 (index_values v ++ position_values v ++ command_values i s name ++ d2).
Definition orelated {A} (r : A -> A -> Prop) (a b : option A) : Prop :=
  match a, b with Some a, Some b => r a b | None, None => True | _, _ => False end.
Hypothesis same_travel : g_travel gs1 = g_travel gs2.
Hypothesis keep : forall a d1 d2, incl (map fst a) working_names -> related d1 d2 -> related (a ++ d1) (a ++ d2).
Hypothesis parts : forall k, k <> Pattern_start -> k <> Pattern_end -> orelated agree (g_part gs1 k) (g_part gs2 k).
Hypothesis segments : forall c, orelated agree (get_write_segment gs1 c) (get_write_segment gs2 c).

Definition same_event (v : gvalues) (e1 e2 : gevent) : Prop := agree (template_of e1) (template_of e2) /\ values_of e1 = v /\ values_of e2 = v.
Lemma same_part k v : k <> Pattern_start -> k <> Pattern_end -> Forall2 (same_event v) (part_event gs1 k v) (part_event gs2 k v).
Proof.
  intros H1 H2. pose proof (parts k H1 H2) as P. unfold part_event. destruct (g_part gs1 k), (g_part gs2 k); cbn [orelated] in P; try contradiction.
  - constructor; [|constructor]. split; [exact P|split; reflexivity].
  - constructor.
Qed.
Lemma same_events t1 t2 i s name w : agree t1 t2 -> exists v,
  Forall2 (same_event v) (fst (generic_command gs1 t1 i s name w)) (fst (generic_command gs2 t2 i s name w)) /\
  snd (generic_command gs1 t1 i s name w) = snd (generic_command gs2 t2 i s name w).
Proof.
  intros A. unfold generic_command. rewrite same_travel. destruct (opens (cmd_of (scmd s))) as [[od oc] ob]. destruct (closes (cmd_of (scmd s))) as [[cd cc] cb].
  cbv zeta. cbn [fst snd]. match goal with |- context [part_event gs1 Segment_start ?x] => generalize x end. intros v. exists v. split; [|reflexivity].
  repeat apply Forall2_app;
    repeat first [ match goal with |- Forall2 _ (if ?b then _ else _) _ => destruct b end | apply Forall2_app
                 | apply same_part; discriminate | apply Forall2_nil
                 | (constructor; [split; [exact A|split; reflexivity]|]) ].
Qed.
Lemma same_fill v i s name d1 d2 es1 es2 : related d1 d2 -> Forall2 (same_event v) es1 es2 ->
  fill_events (command_values i s name ++ d1) es1 = fill_events (command_values i s name ++ d2) es2.
Proof.
  intros R F. induction F as [|e1 e2 es1 es2 (A & V1 & V2) F IH]; cbn [GenericTextModel.fill_events]; [reflexivity|].
  rewrite V1, V2, (A i s name v d1 d2 R), IH. reflexivity.
Qed.
Definition same_result (r1 r2 : res (text * dict)) : Prop :=
  match r1, r2 with
  | Ok (t1, d1), Ok (t2, d2) => t1 = t2 /\ related d1 d2
  | Err a, Err b => a = b
  | _, _ => False
  end.
Lemma same_commands l : forall i w d1 d2, related d1 d2 -> same_result (text_commands gs1 i l w d1) (text_commands gs2 i l w d2).
Proof.
  induction l as [|s l IH]; intros i w d1 d2 R; cbn [GenericTextModel.text_commands].
  - split; [reflexivity|exact R].
  - destruct (name_of (cmd_of (scmd s)) common_names) as [name|]; [|reflexivity].
    assert (R1 : related (command_values i s name ++ d1) (command_values i s name ++ d2)).
    { apply keep; [|exact R]. rewrite command_keys. intros x I. apply in_or_app. left. rewrite <- (firstn_skipn 7 command_names). apply in_or_app. left. exact I. }
    pose proof (segments (cmd_of (scmd s))) as G.
    destruct (get_write_segment gs1 (cmd_of (scmd s))) as [t1|], (get_write_segment gs2 (cmd_of (scmd s))) as [t2|]; cbn [orelated] in G; try contradiction.
    + destruct (same_events t1 t2 i s name w G) as (v & F & W).
      destruct (generic_command gs1 t1 i s name w) as [es1 w1], (generic_command gs2 t2 i s name w) as [es2 w2]. cbn [fst snd] in F, W. subst w2.
      rewrite (same_fill v i s name d1 d2 es1 es2 R F).
      destruct (fill_events (command_values i s name ++ d2) es2) as [e|e]; cbn [bindr]; [|reflexivity].
      assert (R2 : related (after_events (command_values i s name ++ d1) es1) (after_events (command_values i s name ++ d2) es2)).
      { inversion F as [|e1 e2 q1 q2 (A & V1 & V2) F']; subst; cbn [GenericTextModel.after_events]; [exact R1|]. rewrite V2.
        apply keep. { intros x I. apply in_or_app. right. apply (number_keys _ x I). }
        apply keep. { rewrite position_keys. intros x I. apply in_or_app. left. rewrite <- (firstn_skipn 7 command_names). apply in_or_app. right. exact I. }
        exact R1. }
      specialize (IH (i + 1) w1 _ _ R2). unfold same_result in IH |- *.
      destruct (text_commands gs1 (i + 1) l w1 _) as [[q1 q2]|], (text_commands gs2 (i + 1) l w1 _) as [[q3 q4]|]; cbn [bindr]; try contradiction.
      * destruct IH as [-> IH]. split; [reflexivity|exact IH].
      * exact IH.
    + apply IH, R1.
Qed.
End Simulation.

(** ** Entries *)
Lemma same_entries {A} (values : Z -> A -> dict) (related : dict -> dict -> Prop) t1 t2 :
  (forall i a d1 d2, related d1 d2 -> related (values i a ++ d1) (values i a ++ d2)) ->
  (forall i a d1 d2, related d1 d2 -> format_map t1 (values i a ++ d1) = format_map t2 (values i a ++ d2)) ->
  forall l i d1 d2, related d1 d2 -> same_result related (entries values t1 i l d1) (entries values t2 i l d2).
Proof.
  intros K F. induction l as [|a l IH]; intros i d1 d2 R; cbn [entries].
  - split; [reflexivity|exact R].
  - rewrite (F i a d1 d2 R). destruct (format_map t2 (values i a ++ d2)) as [e|e]; cbn [bindr]; [|reflexivity].
    specialize (IH (i + 1) _ _ (K i a d1 d2 R)). unfold same_result in IH |- *.
    destruct (entries values t1 (i + 1) l (values i a ++ d1)) as [[q1 q2]|], (entries values t2 (i + 1) l (values i a ++ d2)) as [[q3 q4]|]; cbn [bindr]; try contradiction.
    + destruct IH as [-> IH]. split; [reflexivity|exact IH].
    + exact IH.
Qed.
Lemma entries_listing {A} (values : Z -> A -> dict) f ps : plain ps ->
  (forall i a d n, In n (names_in ps) -> lookup n (values i a ++ d) = Some (f i a n)) ->
  forall l i d, exists d', entries values (template_text ps) i l d = Ok (listing (fun i a => spelled (f i a) ps) i l, d').
Proof.
  intros P H. induction l as [|a l IH]; intros i d; cbn [entries listing].
  - eexists. reflexivity.
  - rewrite format_pieces by exact P. rewrite (evaluate_spelled _ (f i a)) by (intros n I; apply H, I). cbn [bindr].
    destruct (IH (i + 1) (values i a ++ d)) as (d' & ->). eexists. reflexivity.
Qed.
Lemma entries_last {A} (values : Z -> A -> dict) t a l : forall i d q d', entries values t i (l ++ [a]) d = Ok (q, d') ->
  exists d0, d' = values (i + zlen l) a ++ d0.
Proof.
  induction l as [|b l IH]; intros i d q d' H; cbn [app entries] in H.
  - destruct (format_map t (values i a ++ d)); cbn [bindr] in H; [|discriminate]. injection H as _ <-. exists d. unfold zlen. cbn [length Z.of_nat]. rewrite Z.add_0_r. reflexivity.
  - destruct (format_map t (values i b ++ d)); cbn [bindr] in H; [|discriminate].
    destruct (entries values t (i + 1) (l ++ [a]) (values i b ++ d)) as [[q1 q2]|] eqn:E; cbn [bindr] in H; [|discriminate]. injection H as _ <-.
    destruct (IH _ _ _ _ E) as (d0 & ->). exists d0. unfold zlen. cbn [length]. do 2 f_equal. lia.
Qed.

(** ** The statistics *)
Lemma statistics_nodup p : NoDup (map fst (statistics p)).
Proof.
  rewrite statistic_keys. unfold extent_values. destruct (bounds (gp_stitches p)) as [[[[x0|] [y0|]] [x1|]] [y1|]];
    apply distinct_nodup; cbn [map fst app]; vm_compute; reflexivity.
Qed.
Lemma statistics_names p n : In n (map fst (statistics p)) <-> In n statistic_names.
Proof.
  rewrite statistic_keys, !in_app_iff, extent_keys, <- !in_app_iff. apply iff_refl.
Qed.
Hypothesis show_same : forall a b, (a == b)%Q -> show a = show b.
Hypothesis show_float_same : forall a b, (a == b)%Q -> show_float a = show_float b.
Lemma least_same f l lo hi m : extent f l lo hi -> least f l m -> (lo == m)%Q.
Proof.
  intros ((a & Ia & Ea) & _ & F) ((b & Ib & Eb) & H). rewrite Forall_forall in F. specialize (F b Ib). specialize (H a Ia). subst m.
  rewrite Ea in H. apply Qle_antisym; [apply F|exact H].
Qed.
Lemma greatest_same f l lo hi m : extent f l lo hi -> greatest f l m -> (hi == m)%Q.
Proof.
  intros (_ & (a & Ia & Ea) & F) ((b & Ib & Eb) & H). rewrite Forall_forall in F. specialize (F b Ib). specialize (H a Ia). subst m.
  rewrite Ea in H. apply Qle_antisym; [exact H|apply F].
Qed.
Lemma statistic_in p name v : statistic show show_float p name v -> In (name, v) (statistics p).
Proof.
  intros H. unfold GenericTextModel.statistics.
  assert (B : forall f m, least f (gp_stitches p) m \/ greatest f (gp_stitches p) m -> gp_stitches p <> []).
  { intros f m [((s & I & _) & _)|((s & I & _) & _)] E; rewrite E in I; exact I. }
  destruct H as [| |c n Hc|x H|y H|x H|y H|x0 x1 H H'|y0 y1 H H'|x H|y H|x H|y H|x0 x1 H H'|y0 y1 H H'].
  { left. reflexivity. }
  { right. left. reflexivity. }
  { apply in_or_app. right. apply in_or_app. right. unfold count_values. apply in_map_iff. exists (c, n). split; [reflexivity|exact Hc]. }
  all: apply in_or_app; right; apply in_or_app; left.
  all: assert (NE : gp_stitches p <> []) by (eapply B; eauto).
  all: destruct (bounds_extent (gp_stitches p) NE) as (a0 & b0 & a1 & b1 & E & X & Y); unfold extent_values; rewrite E.
  - rewrite <- (show_same _ _ (least_same _ _ _ _ _ X H)). cbn [In]. tauto.
  - rewrite <- (show_same _ _ (least_same _ _ _ _ _ Y H)). cbn [In]. tauto.
  - rewrite <- (show_same _ _ (greatest_same _ _ _ _ _ X H)). cbn [In]. tauto.
  - rewrite <- (show_same _ _ (greatest_same _ _ _ _ _ Y H)). cbn [In]. tauto.
  - rewrite <- (show_same (a1 - a0)%Q (x1 - x0)%Q) by (rewrite (least_same _ _ _ _ _ X H), (greatest_same _ _ _ _ _ X H'); reflexivity). cbn [In]. tauto.
  - rewrite <- (show_same (b1 - b0)%Q (y1 - y0)%Q) by (rewrite (least_same _ _ _ _ _ Y H), (greatest_same _ _ _ _ _ Y H'); reflexivity). cbn [In]. tauto.
  - rewrite <- (show_float_same (a0 / 10)%Q (x / 10)%Q) by (rewrite (least_same _ _ _ _ _ X H); reflexivity). cbn [In]. tauto.
  - rewrite <- (show_float_same (b0 / 10)%Q (y / 10)%Q) by (rewrite (least_same _ _ _ _ _ Y H); reflexivity). cbn [In]. tauto.
  - rewrite <- (show_float_same (a1 / 10)%Q (x / 10)%Q) by (rewrite (greatest_same _ _ _ _ _ X H); reflexivity). cbn [In]. tauto.
  - rewrite <- (show_float_same (b1 / 10)%Q (y / 10)%Q) by (rewrite (greatest_same _ _ _ _ _ Y H); reflexivity). cbn [In]. tauto.
  - rewrite <- (show_float_same ((a1 - a0) / 10)%Q ((x1 - x0) / 10)%Q) by (rewrite (least_same _ _ _ _ _ X H), (greatest_same _ _ _ _ _ X H'); reflexivity). cbn [In]. tauto.
  - rewrite <- (show_float_same ((b1 - b0) / 10)%Q ((y1 - y0) / 10)%Q) by (rewrite (least_same _ _ _ _ _ Y H), (greatest_same _ _ _ _ _ Y H'); reflexivity). cbn [In]. tauto.
Qed.
Lemma statistic_lookup p name v : statistic show show_float p name v -> lookup name (start_values p) = Some v.
Proof.
  intros H. unfold GenericTextModel.start_values. rewrite lookup_app, (lookup_in name v); [reflexivity|apply statistics_nodup|apply statistic_in, H].
Qed.
Lemma statistic_name p name v : statistic show show_float p name v -> In name statistic_names.
Proof. intros H. apply (statistics_names p). change name with (fst (name, v)). apply in_map, statistic_in, H. Qed.

(** ** The files *)
Definition pieces_of (ts : templates) (c : Z) : option (list piece) :=
  if existsb (Z.eqb c) named_commands then match ts_named ts c with Some t => Some t | None => ts_segment ts end else ts_segment ts.
Lemma segment_pieces ts c : get_write_segment (settings_of ts) c = option_map template_text (pieces_of ts c).
Proof. unfold get_write_segment, pieces_of, settings_of. cbn [g_named g_segment]. destruct (existsb (Z.eqb c) named_commands); [|reflexivity]. destruct (ts_named ts c); reflexivity. Qed.
Lemma pieces_plain ts c : all_plain ts -> oplain (pieces_of ts c).
Proof. intros (_ & N & G & _). unfold pieces_of. destruct (existsb (Z.eqb c) named_commands); [|exact G]. specialize (N c). destruct (ts_named ts c); [exact N|exact G]. Qed.
Definition knows (name v : text) (d1 d2 : dict) : Prop := d1 = d2 /\ lookup name d1 = Some v.
Lemma knows_app name v a d1 d2 : ~ In name (map fst a) -> knows name v d1 d2 -> knows name v (a ++ d1) (a ++ d2).
Proof. intros N [-> H]. split; [reflexivity|]. rewrite lookup_app, lookup_none by exact N. exact H. Qed.
Lemma knows_put name v ps d1 d2 : plain ps -> knows name v d1 d2 -> format_map (template_text ps) d1 = format_map (template_text (put name v ps)) d2.
Proof. intros P [-> H]. rewrite !format_pieces by (try apply plain_put; exact P). rewrite evaluate_put by exact H. reflexivity. Qed.
Lemma not_working name l : disjoint l working_names = true -> In name l -> forall a : dict, incl (map fst a) working_names -> ~ In name (map fst a).
Proof. intros D I a S J. apply (disjoint_not name _ _ D I), S, J. Qed.
Lemma put_agree name v l ps : disjoint l working_names = true -> In name l -> plain ps -> agree (knows name v) (template_text ps) (template_text (put name v ps)).
Proof.
  intros D I P i s n w d1 d2 R. apply knows_put; [exact P|]. pose proof (not_working name l D I) as W.
  apply knows_app. { apply W. intros x J. apply in_or_app. right. apply (number_keys _ x J). }
  apply knows_app. { apply W. rewrite position_keys. intros x J. apply in_or_app. left. rewrite <- (firstn_skipn 7 command_names). apply in_or_app. right. exact J. }
  apply knows_app. { apply W. rewrite command_keys. intros x J. apply in_or_app. left. rewrite <- (firstn_skipn 7 command_names). apply in_or_app. left. exact J. }
  exact R.
Qed.
Lemma statistics_everywhere ts p name v : all_plain ts -> statistic show show_float p name v ->
  generic_text (settings_of ts) (entries_of ts) p = generic_text (settings_of (put_everywhere name v ts)) (entries_of (put_everywhere name v ts)) p.
Proof.
  intros P H. pose proof (statistic_lookup p name v H) as L. pose proof (statistic_name p name v H) as N.
  assert (R0 : knows name v (start_values p) (start_values p)) by (split; [reflexivity|exact L]).
  unfold GenericTextModel.generic_text. cbv zeta.
  assert (E1 : optional_fill (g_part (settings_of ts) Pattern_start) (start_values p) = optional_fill (g_part (settings_of (put_everywhere name v ts)) Pattern_start) (start_values p)).
  { cbn [settings_of g_part put_everywhere ts_part]. pose proof (proj1 P Pattern_start) as Q. destruct (ts_part ts Pattern_start); [|reflexivity]. apply knows_put; [exact Q|exact R0]. }
  rewrite <- E1. destruct (optional_fill (g_part (settings_of ts) Pattern_start) (start_values p)) as [a|]; cbn [bindr]; [|reflexivity].
  assert (E2 : same_result (knows name v) (optional_entries metadata_values (e_metadata (entries_of ts)) (gp_extras p) (start_values p))
    (optional_entries metadata_values (e_metadata (entries_of (put_everywhere name v ts))) (gp_extras p) (start_values p))).
  { destruct P as (_ & _ & _ & Q & _). cbn [entries_of e_metadata put_everywhere ts_metadata]. destruct (ts_metadata ts) as [ps|]; cbn [option_map optional_entries]; [|split; [reflexivity|exact R0]].
    assert (K : forall i e d1 d2, knows name v d1 d2 -> knows name v (metadata_values i e ++ d1) (metadata_values i e ++ d2)).
    { intros i e d1 d2 R. apply knows_app; [|exact R]. apply (disjoint_not name statistic_names metadata_names); [vm_compute; reflexivity|exact N]. }
    apply same_entries; [exact K| |exact R0]. intros i e d1 d2 R. apply knows_put; [exact Q|apply K, R]. }
  unfold same_result in E2. destruct (optional_entries metadata_values (e_metadata (entries_of ts)) (gp_extras p) (start_values p)) as [[m d1]|],
    (optional_entries metadata_values (e_metadata (entries_of (put_everywhere name v ts))) (gp_extras p) (start_values p)) as [[m' d1']|]; cbn [bindr]; try contradiction; [|congruence].
  destruct E2 as [<- R1].
  assert (E3 : same_result (knows name v) (optional_entries thread_values (e_thread (entries_of ts)) (gp_threads p) d1)
    (optional_entries thread_values (e_thread (entries_of (put_everywhere name v ts))) (gp_threads p) d1')).
  { destruct P as (_ & _ & _ & _ & Q). cbn [entries_of e_thread put_everywhere ts_thread]. destruct (ts_thread ts) as [ps|]; cbn [option_map optional_entries]; [|split; [reflexivity|exact R1]].
    assert (K : forall i e d1 d2, knows name v d1 d2 -> knows name v (thread_values i e ++ d1) (thread_values i e ++ d2)).
    { intros i e q1 q2 R. apply knows_app; [|exact R]. apply (disjoint_not name statistic_names thread_names); [vm_compute; reflexivity|exact N]. }
    apply same_entries; [exact K| |exact R1]. intros i e q1 q2 R. apply knows_put; [exact Q|apply K, R]. }
  unfold same_result in E3. destruct (optional_entries thread_values (e_thread (entries_of ts)) (gp_threads p) d1) as [[h d2]|],
    (optional_entries thread_values (e_thread (entries_of (put_everywhere name v ts))) (gp_threads p) d1') as [[h' d2']|]; cbn [bindr]; try contradiction; [|congruence].
  destruct E3 as [<- R2].
  assert (D : disjoint statistic_names working_names = true) by (vm_compute; reflexivity).
  assert (E4 : same_result (knows name v) (text_commands (settings_of ts) 0 (gp_stitches p) gw_start d2) (text_commands (settings_of (put_everywhere name v ts)) 0 (gp_stitches p) gw_start d2')).
  { apply same_commands; [reflexivity| | | |exact R2].
    - intros b q1 q2 W R. apply knows_app; [|exact R]. apply (not_working name statistic_names D N b W).
    - intros k _ _. cbn [settings_of g_part put_everywhere ts_part]. pose proof (proj1 P k) as Q. destruct (ts_part ts k); cbn [option_map orelated]; [|exact I].
      apply (put_agree name v statistic_names); assumption.
    - intros c. rewrite !segment_pieces. pose proof (pieces_plain ts c P) as Q.
      replace (pieces_of (put_everywhere name v ts) c) with (option_map (put name v) (pieces_of ts c)).
      2:{ unfold pieces_of. cbn [put_everywhere ts_named ts_segment]. destruct (existsb (Z.eqb c) named_commands); [|reflexivity]. destruct (ts_named ts c); reflexivity. }
      destruct (pieces_of ts c); cbn [option_map orelated]; [|exact I]. apply (put_agree name v statistic_names); assumption. }
  unfold same_result in E4. destruct (text_commands (settings_of ts) 0 (gp_stitches p) gw_start d2) as [[b d3]|],
    (text_commands (settings_of (put_everywhere name v ts)) 0 (gp_stitches p) gw_start d2') as [[b' d3']|]; cbn [bindr]; try contradiction; [|congruence].
  destruct E4 as [<- R3].
  cbn [settings_of g_part put_everywhere ts_part]. pose proof (proj1 P Pattern_end) as Q. destruct (ts_part ts Pattern_end); cbn [option_map optional_fill]; [|reflexivity].
  rewrite (knows_put name v l d3 d3' Q R3). reflexivity.
Qed.

Lemma last_thread ts pt p ths t name : all_plain ts -> ts_thread ts = Some pt -> gp_threads p = ths ++ [t] -> In name thread_names ->
  generic_text (settings_of ts) (entries_of ts) p
  = generic_text (settings_of (put_after_entries name (thread_value_of (zlen ths) t name) ts)) (entries_of (put_after_entries name (thread_value_of (zlen ths) t name) ts)) p.
Proof.
  intros P T H N. set (v := thread_value_of (zlen ths) t name). unfold GenericTextModel.generic_text. cbv zeta.
  change (entries_of (put_after_entries name v ts)) with (entries_of ts).
  change (g_part (settings_of (put_after_entries name v ts)) Pattern_start) with (g_part (settings_of ts) Pattern_start).
  destruct (optional_fill (g_part (settings_of ts) Pattern_start) (start_values p)) as [a|]; cbn [bindr]; [|reflexivity].
  destruct (optional_entries metadata_values (e_metadata (entries_of ts)) (gp_extras p) (start_values p)) as [[m d1]|]; cbn [bindr]; [|reflexivity].
  destruct (optional_entries thread_values (e_thread (entries_of ts)) (gp_threads p) d1) as [[h d2]|] eqn:E; cbn [bindr]; [|reflexivity].
  cbn [entries_of e_thread] in E. rewrite T, H in E. cbn [option_map optional_entries] in E. destruct (entries_last _ _ _ _ _ _ _ _ E) as (d0 & ->). rewrite Z.add_0_l in *.
  assert (L : lookup name (thread_values (zlen ths) t ++ d0) = Some v).
  { unfold v. cbn [thread_names map In] in N. repeat (destruct N as [<-|N]; [reflexivity|]). contradiction. }
  assert (R2 : knows name v (thread_values (zlen ths) t ++ d0) (thread_values (zlen ths) t ++ d0)) by (split; [reflexivity|exact L]).
  assert (D : disjoint thread_names working_names = true) by (vm_compute; reflexivity).
  revert R2. generalize (thread_values (zlen ths) t ++ d0). intros d2 R2.
  assert (E4 : same_result (knows name v) (text_commands (settings_of ts) 0 (gp_stitches p) gw_start d2) (text_commands (settings_of (put_after_entries name v ts)) 0 (gp_stitches p) gw_start d2)).
  { apply same_commands; [reflexivity| | | |exact R2].
    - intros b q1 q2 W R. apply knows_app; [|exact R]. apply (not_working name thread_names D N b W).
    - intros k K _. cbn [settings_of g_part put_after_entries ts_part]. pose proof (proj1 P k) as Q.
      assert (G : orelated (agree (knows name v)) (option_map template_text (ts_part ts k)) (option_map template_text (option_map (put name v) (ts_part ts k)))).
      { destruct (ts_part ts k); cbn [option_map orelated]; [|exact I]. apply (put_agree name v thread_names); assumption. }
      destruct k; try exact G. contradiction.
    - intros c. rewrite !segment_pieces. pose proof (pieces_plain ts c P) as Q.
      replace (pieces_of (put_after_entries name v ts) c) with (option_map (put name v) (pieces_of ts c)).
      2:{ unfold pieces_of. cbn [put_after_entries ts_named ts_segment]. destruct (existsb (Z.eqb c) named_commands); [|reflexivity]. destruct (ts_named ts c); reflexivity. }
      destruct (pieces_of ts c); cbn [option_map orelated]; [|exact I]. apply (put_agree name v thread_names); assumption. }
  unfold same_result in E4. destruct (text_commands (settings_of ts) 0 (gp_stitches p) gw_start d2) as [[b d3]|],
    (text_commands (settings_of (put_after_entries name v ts)) 0 (gp_stitches p) gw_start d2) as [[b' d3']|]; cbn [bindr]; try contradiction; [|congruence].
  destruct E4 as [<- R3].
  cbn [settings_of g_part put_after_entries ts_part]. pose proof (proj1 P Pattern_end) as Q. destruct (ts_part ts Pattern_end); cbn [option_map optional_fill]; [|reflexivity].
  rewrite (knows_put name v l d3 d3' Q R3). reflexivity.
Qed.

Lemma listed ts pm pt p t : ts_part ts Pattern_start = None -> ts_metadata ts = Some pm -> ts_thread ts = Some pt -> plain pm -> plain pt ->
  incl (names_in pm) metadata_names -> incl (names_in pt) thread_names -> generic_text (settings_of ts) (entries_of ts) p = Ok t ->
  exists rest, t = listing (fun i e => spelled (metadata_value_of i (fst e) (snd e)) pm) 0 (gp_extras p)
    ++ listing (fun i th => spelled (thread_value_of i th) pt) 0 (gp_threads p) ++ rest.
Proof.
  intros H0 Hm Ht Pm Pt Nm Nt. unfold GenericTextModel.generic_text. cbv zeta. cbn [settings_of g_part entries_of e_metadata e_thread]. rewrite H0, Hm, Ht.
  cbn [option_map optional_fill optional_entries bindr].
  destruct (entries_listing metadata_values (fun i e => metadata_value_of i (fst e) (snd e)) pm Pm) with (l := gp_extras p) (i := 0) (d := start_values p) as (d1 & ->).
  { intros i e d n I. apply Nm in I. cbn [metadata_names map In] in I. repeat (destruct I as [<-|I]; [reflexivity|]). contradiction. }
  cbn [bindr]. destruct (entries_listing thread_values thread_value_of pt Pt) with (l := gp_threads p) (i := 0) (d := d1) as (d2 & ->).
  { intros i e d n I. apply Nt in I. cbn [thread_names map In] in I. repeat (destruct I as [<-|I]; [reflexivity|]). contradiction. }
  cbn [bindr]. destruct (text_commands _ 0 (gp_stitches p) gw_start d2) as [[b d3]|]; cbn [bindr]; [|discriminate].
  destruct (optional_fill _ d3) as [z|]; cbn [bindr]; [|discriminate]. intros E. injection E as <-. exists (b ++ z). cbn [app]. reflexivity.
Qed.

(** ** Metadata and the names of the writer *)
Section Shadow.
Variables (l : list (stitch Q)) (ths : list thread) (ex1 ex2 : list (text * text)).
Let stats := statistics (mkGP l ths ex1).
Definition same_but_metadata (d1 d2 : dict) : Prop := exists a, d1 = a ++ stats ++ ex1 /\ d2 = a ++ stats ++ ex2.
Lemma same_app a d1 d2 : same_but_metadata d1 d2 -> same_but_metadata (a ++ d1) (a ++ d2).
Proof. intros (b & -> & ->). exists (a ++ b). split; apply app_assoc. Qed.
Lemma same_own ps a d1 d2 : plain ps -> incl (names_in ps) (statistic_names ++ map fst a) -> same_but_metadata d1 d2 ->
  format_map (template_text ps) (a ++ d1) = format_map (template_text ps) (a ++ d2).
Proof.
  intros P N (b & -> & ->). rewrite !format_pieces by exact P. apply evaluate_ext. intros n I. apply N in I. rewrite !lookup_app.
  destruct (lookup n a) eqn:E; [reflexivity|]. destruct (lookup n b); [reflexivity|]. apply in_app_or in I. destruct I as [I|I].
  - apply (statistics_names (mkGP l ths ex1)) in I. destruct (lookup_some _ _ I) as (v & V). fold stats in V. rewrite V. reflexivity.
  - destruct (lookup_some _ _ I) as (v & V). congruence.
Qed.
Lemma same_agree ps : plain ps -> incl (names_in ps) (statistic_names ++ command_names) -> agree same_but_metadata (template_text ps) (template_text ps).
Proof.
  intros P N i s name v d1 d2 R.
  rewrite !app_assoc.
  apply same_own; [exact P| |exact R]. intros n I. apply N in I. apply in_app_or in I. apply in_or_app. destruct I as [I|I]; [left; exact I|right].
  rewrite !map_app, command_keys, position_keys. rewrite <- (firstn_skipn 7 command_names) in I. rewrite !in_app_iff in *. tauto.
Qed.
Lemma metadata_harmless ts : all_plain ts -> own_names ts -> ts_metadata ts = None ->
  generic_text (settings_of ts) (entries_of ts) (mkGP l ths ex1) = generic_text (settings_of ts) (entries_of ts) (mkGP l ths ex2).
Proof.
  intros P (N1 & N2 & N3 & N4 & N5 & N6) M. unfold GenericTextModel.generic_text. cbv zeta. cbn [gp_stitches gp_threads gp_extras].
  assert (R0 : same_but_metadata (start_values (mkGP l ths ex1)) (start_values (mkGP l ths ex2))) by (exists []; split; reflexivity).
  assert (E1 : optional_fill (g_part (settings_of ts) Pattern_start) (start_values (mkGP l ths ex1)) = optional_fill (g_part (settings_of ts) Pattern_start) (start_values (mkGP l ths ex2))).
  { cbn [settings_of g_part]. pose proof (proj1 P Pattern_start) as Q. destruct (ts_part ts Pattern_start) as [ps|]; [|reflexivity]. cbn [option_map optional_fill].
    apply (same_own ps []); [exact Q| |exact R0]. cbn [map]. rewrite app_nil_r. exact N1. }
  rewrite <- E1. destruct (optional_fill (g_part (settings_of ts) Pattern_start) (start_values (mkGP l ths ex1))) as [a|]; cbn [bindr]; [|reflexivity].
  cbn [entries_of e_metadata e_thread]. rewrite M. cbn [option_map optional_entries bindr].
  assert (E3 : same_result same_but_metadata (optional_entries thread_values (option_map template_text (ts_thread ts)) ths (start_values (mkGP l ths ex1)))
    (optional_entries thread_values (option_map template_text (ts_thread ts)) ths (start_values (mkGP l ths ex2)))).
  { destruct P as (_ & _ & _ & _ & Q). destruct (ts_thread ts) as [ps|]; cbn [option_map optional_entries]; [|split; [reflexivity|exact R0]].
    apply same_entries; [intros; apply same_app; assumption| |exact R0]. intros i e d1 d2 R. apply same_own; [exact Q|exact N6|exact R]. }
  unfold same_result in E3. destruct (optional_entries thread_values (option_map template_text (ts_thread ts)) ths (start_values (mkGP l ths ex1))) as [[h d2]|],
    (optional_entries thread_values (option_map template_text (ts_thread ts)) ths (start_values (mkGP l ths ex2))) as [[h' d2']|]; cbn [bindr]; try contradiction; [|congruence].
  destruct E3 as [<- R2].
  assert (E4 : same_result same_but_metadata (text_commands (settings_of ts) 0 l gw_start d2) (text_commands (settings_of ts) 0 l gw_start d2')).
  { apply same_commands; [reflexivity| | | |exact R2].
    - intros b q1 q2 _ R. apply same_app, R.
    - intros k K1 K2. cbn [settings_of g_part]. pose proof (proj1 P k) as Q. specialize (N3 k K1 K2). destruct (ts_part ts k); cbn [option_map orelated]; [|exact I].
      apply same_agree; [exact Q|exact N3].
    - intros c. rewrite !segment_pieces. pose proof (pieces_plain ts c P) as Q.
      assert (G : only (statistic_names ++ command_names) (pieces_of ts c)).
      { unfold pieces_of. destruct (existsb (Z.eqb c) named_commands); [|exact N5]. specialize (N4 c). destruct (ts_named ts c); [exact N4|exact N5]. }
      destruct (pieces_of ts c); cbn [option_map orelated]; [|exact I]. apply same_agree; [exact Q|exact G]. }
  unfold same_result in E4. destruct (text_commands (settings_of ts) 0 l gw_start d2) as [[b d3]|],
    (text_commands (settings_of ts) 0 l gw_start d2') as [[b' d3']|]; cbn [bindr]; try contradiction; [|congruence].
  destruct E4 as [<- R3].
  cbn [settings_of g_part]. pose proof (proj1 P Pattern_end) as Q. destruct (ts_part ts Pattern_end) as [ps|]; cbn [option_map optional_fill]; [|reflexivity].
  assert (E5 : format_map (template_text ps) d3 = format_map (template_text ps) d3').
  { apply (same_own ps []); [exact Q| |exact R3]. cbn [map]. rewrite app_nil_r. exact N2. }
  rewrite E5. reflexivity.
Qed.
End Shadow.
End Text.

(** A test for plain names. *)
Definition plainb (ps : list piece) : bool :=
  forallb (fun n => negb (forallb digit n) && forallb (fun c => negb (existsb (Z.eqb c) [123; 125; 58; 33; 46; 91])) n) (names_in ps).
Lemma plainb_plain ps : plainb ps = true -> plain ps.
Proof.
  unfold plainb, plain. rewrite forallb_forall, Forall_forall. intros H n I. specialize (H n I). apply andb_true_iff in H. destruct H as [H1 H2]. split.
  - clear - H1. induction n as [|c n IH]; [discriminate|]. cbn [forallb] in H1. destruct (digit c) eqn:E.
    + destruct (IH H1) as (x & Ix & Hx). exists x. split; [right; exact Ix|exact Hx].
    + exists c. split; [left; reflexivity|]. unfold digit in E. apply andb_false_iff in E. destruct E as [E|E]; apply Z.leb_gt in E; lia.
  - intros c J K. rewrite forallb_forall in H2. specialize (H2 c J).
    assert (E : existsb (Z.eqb c) [123; 125; 58; 33; 46; 91] = true) by (apply existsb_exists; exists c; split; [exact K|apply Z.eqb_refl]).
    rewrite E in H2. discriminate.
Qed.
