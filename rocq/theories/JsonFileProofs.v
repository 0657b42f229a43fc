(** Proofs about whole JSON files: from the pattern to the text and back. *)
From Coq Require Import Ascii String ZArith List Bool Lia.
From Verif Require Import PyBase BitLemmas EmbConst FunctionsModel ThreadModel TextModel TextProofs NameModel NameProofs CsvModel JsonModel JsonTextModel JsonTextSpec JsonTextProofs.
Import ListNotations.
Open Scope Z_scope.

(** ** Texts of the writer's own *)
Lemma printable_sound : forall t, Forall printable t -> sound_text t.
Proof.
  intros t H. split; [eapply Forall_impl; [|exact H]; unfold printable; intros c Hc; lia|].
  induction H as [|c r Hc Hr IH]; [exact I|]. destruct r as [|d r]; [exact I|]. cbn [no_pairs]. split; [|exact IH].
  unfold printable in Hc. unfold high_half. lia.
Qed.
Lemma int_printable : forall v, Forall printable (str_of_int v).
Proof. intros v. eapply Forall_impl; [|apply str_of_int_chars]. unfold number_char, digit, printable. intros c H. lia. Qed.
Lemma attribute_printable : forall l v, printable l -> Forall printable (attribute l v).
Proof. intros l [v|] H; cbn [attribute app]; [|constructor]. constructor; [unfold printable; lia|]. constructor; [exact H|apply int_printable]. Qed.
Definition printableb (c : Z) : bool := (32 <=? c) && (c <=? 126).
Lemma printable_const : forall t, forallb printableb t = true -> Forall printable t.
Proof. intros t H. rewrite forallb_forall in H. apply Forall_forall. intros c Hc. specialize (H c Hc). unfold printableb in H. unfold printable. lia. Qed.
Lemma names_printable : forall c n, name_of c common_names = Some n -> Forall printable n.
Proof.
  assert (G : forallb (fun e : Z * text => forallb printableb (snd e)) common_names = true) by (vm_compute; reflexivity).
  intros c n. generalize dependent common_names. intros l. induction l as [|[k m] l IH]; cbn [name_of forallb snd]; intros G; [discriminate|].
  apply andb_true_iff in G. destruct G as [G1 G2]. destruct (k =? c); [|exact (IH G2)]. intros E. injection E as <-. exact (printable_const _ G1).
Qed.
Lemma command_printable : forall c, Forall printable (decoded_name c).
Proof.
  intros c. unfold decoded_name. destruct (decode_embroidery_command c) as [[[f t] n] o]. destruct (name_of f common_names) as [m|] eqn:E.
  - apply Forall_app. split; [exact (names_printable _ _ E)|]. apply Forall_app. split; [apply attribute_printable; unfold printable; lia|].
    apply Forall_app. split; apply attribute_printable; unfold printable; lia.
  - apply Forall_app. split; [apply printable_const; vm_compute; reflexivity|apply int_printable].
Qed.
Lemma hex_printable : forall c, Forall printable (hex_color c).
Proof.
  assert (D : forall d, 0 <= d < 16 -> printable (hex_digit d)).
  { intros d H. assert (X : In d [0;1;2;3;4;5;6;7;8;9;10;11;12;13;14;15]) by (cbn [In]; lia).
    cbn [In] in X. repeat (destruct X as [<-|X]; [vm_compute; split; discriminate|]). contradiction. }
  assert (B : forall b, 0 <= b < 256 -> Forall printable (hex2 b)) by (intros b H; unfold hex2; repeat constructor; apply D; lia).
  assert (M : forall a, 0 <= Z.land a 255 < 256) by (intros a; change 255 with 0xFF; rewrite land_ff; lia).
  intros c. unfold hex_color. cbn [app]. constructor; [unfold printable; lia|]. unfold get_red, get_green, get_blue.
  apply Forall_app. split; [apply B, M|]. apply Forall_app. split; apply B, M.
Qed.

Section file.
Context {F : Type}.
Variable show : F -> text.
Variable read : text -> F.

(** ** The object *)
Lemma keyed_new : forall {A} k (v : A) l, ~ In k (map fst l) -> keyed k v l = l ++ [(k, v)].
Proof.
  intros A k v l. induction l as [|[k' v'] l IH]; intros H; [reflexivity|]. cbn [keyed map fst In app] in *. unfold text_eqb. destruct (list_eq_dec Z.eq_dec k k') as [->|_]; [tauto|].
  rewrite IH by tauto. reflexivity.
Qed.
Lemma dict_same : forall {A} (l : list (text * A)), NoDup (map fst l) -> dict_of l = l.
Proof.
  intros A l H. unfold dict_of. assert (G : forall l d : list (text * A), NoDup (map fst (d ++ l)) -> fold_left (fun d e => keyed (fst e) (snd e) d) l d = d ++ l).
  { clear H l. induction l as [|[k v] l IH]; intros d H; cbn [fold_left fst snd]; [rewrite app_nil_r; reflexivity|]. rewrite keyed_new.
    - rewrite IH; rewrite <- app_assoc; [reflexivity|exact H].
    - intros X. rewrite map_app in H. cbn [map fst] in H. apply NoDup_remove_2 in H. apply H. apply in_or_app. left. exact X. }
  exact (G l [] H).
Qed.
Lemma to_of_text : forall t, to_text (F := F) (of_text t) = Ok t.
Proof. intros [t|]; reflexivity. Qed.
Lemma to_of_value : forall v : value F, to_value (of_value v) = v.
Proof. intros [t|i|b|f|]; reflexivity. Qed.
Lemma to_of_coord : forall c : coord (F := F), to_coord (of_coord c) = Ok c.
Proof. intros [i|f]; reflexivity. Qed.
Lemma all_ok : forall {A B} (f : A -> res B) (g : B -> A) l, (forall b, f (g b) = Ok b) -> all f (map g l) = Ok l.
Proof. intros A B f g l H. induction l as [|b l IH]; [reflexivity|]. cbn [map all]. rewrite H. cbn [bindr]. rewrite IH. reflexivity. Qed.
Lemma to_of_thread : forall t, to_thread (F := F) (of_thread t) = Ok t.
Proof.
  intros [c d n e b h w]. unfold to_thread, of_thread, get. cbn [j_color j_description j_catalog j_details j_brand j_chart j_weight].
  set (m := [(text_of "color", _); _; _; _; _; _; _]).
  assert (M1 : member (text_of "color") m = Ok (JStr c)) by reflexivity. assert (M2 : member (text_of "description") m = Ok (of_text d)) by reflexivity.
  assert (M3 : member (text_of "catalog_number") m = Ok (of_text n)) by reflexivity. assert (M4 : member (text_of "details") m = Ok (of_text e)) by reflexivity.
  assert (M5 : member (text_of "brand") m = Ok (of_text b)) by reflexivity. assert (M6 : member (text_of "chart") m = Ok (of_text h)) by reflexivity.
  assert (M7 : member (text_of "weight") m = Ok (of_text w)) by reflexivity.
  rewrite M1, M2, M3, M4, M5, M6, M7. cbn [bindr]. rewrite !to_of_text. reflexivity.
Qed.
Lemma to_of_document : forall d : document (coord (F := F)) F, NoDup (map fst (j_extras d)) -> to_document (of_document d) = Ok d.
Proof.
  intros [th st ex] H. cbn [j_extras] in H. unfold to_document, of_document, get. cbn [j_threads j_stitches j_extras].
  set (m := [(text_of "threadlist", _); _; _]).
  assert (M1 : member (text_of "stitches") m = Ok (JArr (map (fun '(x, y, n) => JArr [of_coord x; of_coord y; JStr n]) st))) by reflexivity.
  assert (M2 : member (text_of "extras") m = Ok (JObj (map (fun e => (fst e, of_value (snd e))) ex))) by reflexivity.
  assert (M3 : member (text_of "threadlist") m = Ok (JArr (map of_thread th))) by reflexivity.
  rewrite M1, M2, M3. cbn [bindr to_list]. rewrite (all_ok to_thread of_thread) by exact to_of_thread. cbn [bindr].
  rewrite (all_ok to_stitch) by (intros [[x y] n]; cbn [to_stitch]; rewrite !to_of_coord; reflexivity). cbn [bindr].
  rewrite dict_same by (rewrite map_map; exact H). rewrite map_map. cbn [fst snd]. f_equal. f_equal. rewrite <- (map_id ex) at 2. apply map_ext. intros [k v]. cbn [fst snd]. rewrite to_of_value. reflexivity.
Qed.

(** ** Soundness of the document of a pattern *)
Lemma sound_arr : forall l, Forall (sound show read) l -> sound show read (JArr l).
Proof. intros l H. cbn [sound]. induction H as [|v l Hv Hl IH]; cbn [fold_right]; [exact I|split; assumption]. Qed.
Lemma sound_obj : forall l, Forall (fun e => sound_text (fst e) /\ sound show read (snd e)) l -> sound show read (JObj l).
Proof. intros l H. cbn [sound]. induction H as [|v l Hv Hl IH]; cbn [fold_right]; [exact I|split; assumption]. Qed.
Lemma const_sound : forall t, forallb printableb t = true -> sound_text t.
Proof. intros t H. apply printable_sound, printable_const, H. Qed.
Lemma option_sound : forall t, sound_option t -> sound show read (of_text t).
Proof. intros [t|] H; exact H. Qed.
Lemma document_sound : forall (stitches : list (stitch coord)) threads extras, (forall f, decimal_text (show f) /\ read (show f) = f) ->
  Forall sound_thread threads -> Forall sound_extra extras -> sound show read (of_document (json_write stitches threads extras)).
Proof.
  intros st th ex HF HT HE. unfold of_document, json_write. cbn [j_threads j_stitches j_extras].
  apply sound_obj. repeat apply Forall_cons; try apply Forall_nil; (split; [apply const_sound; reflexivity|]); cbn [snd].
  - apply sound_arr. rewrite map_map. apply Forall_map. eapply Forall_impl; [|exact HT]. intros t (S1 & S2 & S3 & S4 & S5 & S6). unfold of_thread, json_thread.
    cbn [j_color j_description j_catalog j_details j_brand j_chart j_weight].
    apply sound_obj. repeat apply Forall_cons; try apply Forall_nil; (split; [apply const_sound; reflexivity|]); cbn [snd]; try (apply option_sound; assumption).
    cbn [sound]. apply printable_sound, hex_printable.
  - apply sound_arr. rewrite map_map. apply Forall_map. apply Forall_forall. intros s _. apply sound_arr.
    assert (HC : forall c : coord, sound show read (of_coord c)) by (intros [i|f]; [exact I|exact (HF f)]).
    repeat apply Forall_cons; try apply Forall_nil; try apply HC. cbn [sound]. apply printable_sound, command_printable.
  - apply sound_obj. apply Forall_map. rewrite Forall_forall in *. intros [k v] Hi. apply filter_In in Hi. destruct (HE _ (proj1 Hi)) as [K V]. cbn [fst snd] in *. split; [exact K|].
    destruct v as [t|i|b|f|]; [exact V|exact I|exact I|exact (HF f)|exact I].
Qed.
Lemma filter_nodup : forall (extras : list (text * value F)), NoDup (map fst extras) -> NoDup (map fst (filter kept extras)).
Proof.
  induction extras as [|e l IH]; intros H; [exact H|]. cbn [map filter] in *. apply NoDup_cons_iff in H. destruct H as [H1 H2]. destruct (kept e); [|exact (IH H2)].
  cbn [map]. constructor; [|exact (IH H2)]. intros X. apply H1. apply in_map_iff in X. destruct X as (a & <- & Ha). apply filter_In in Ha. apply in_map, Ha.
Qed.

(** ** The file is ASCII *)
Lemma plain_printable : forall t, Forall printable t -> Forall plain_char t.
Proof. intros t H. eapply Forall_impl; [|exact H]. intros c Hc. right. exact Hc. Qed.
Lemma esc_plain : forall c, Forall printable (esc c).
Proof.
  assert (D : forall d, printable (hex_low (d mod 16))) by (intros d; unfold printable, hex_low; pose proof (Z.mod_pos_bound d 16 ltac:(lia)); destruct (Z.ltb_spec (d mod 16) 10); lia).
  assert (U : forall n, Forall printable (u4 n)) by (intros n; unfold u4; constructor; [unfold printable; lia|]; constructor; [unfold printable; lia|]; repeat (apply Forall_cons; [apply D|]); apply Forall_nil).
  intros c. unfold esc. repeat match goal with |- context [if ?b then _ else _] => destruct b eqn:?; [repeat constructor; unfold printable; lia|] end.
  destruct (c <? 65536).
  - apply U.
  - apply Forall_app. split; apply U.
Qed.
Lemma dump_plain : (forall f, decimal_text (show f)) -> forall v level, Forall plain_char (dump show level v).
Proof.
  intros HF. assert (N : forall k, Forall plain_char (newline k)).
  { intros k. unfold newline. constructor; [left; reflexivity|]. apply Forall_forall. intros c Hc. apply repeat_spec in Hc. subst c. right. unfold printable. lia. }
  assert (St : forall t, Forall plain_char (dump_str t)).
  { intros t. apply plain_printable. unfold dump_str. cbn [app]. constructor; [unfold printable; lia|]. apply Forall_app. split; [|repeat constructor; unfold printable; lia].
    induction t as [|c t IH]; [constructor|]. cbn [flat_map]. apply Forall_app. split; [apply esc_plain|exact IH]. }
  assert (J : forall sep l, Forall plain_char sep -> Forall (Forall plain_char) l -> Forall plain_char (joined sep l)).
  { intros sep l Hs Hl. induction Hl as [|a l Ha Hl IH]; [constructor|]. destruct l as [|b l]; [exact Ha|]. cbn [joined]. apply Forall_app. split; [exact Ha|]. apply Forall_app. split; [exact Hs|exact IH]. }
  assert (One : forall c, printable c -> Forall plain_char [c]) by (intros c Hc; constructor; [right; exact Hc|constructor]).
  assert (Sep : forall k, Forall plain_char (44 :: newline k)) by (intros k; constructor; [right; unfold printable; lia|apply N]).
  apply (json_induction (fun v => forall level, Forall plain_char (dump show level v))).
  - intros level. apply plain_printable, printable_const. reflexivity.
  - intros [|] level; apply plain_printable, printable_const; reflexivity.
  - intros i level. apply plain_printable, int_printable.
  - intros f level. cbn [dump]. apply plain_printable. destruct (HF f) as (m & i & fr & ex & -> & Hm & Hi & Hf & He & _).
    assert (Nu : forall l, Forall numeral l -> Forall printable l) by (intros l H; eapply Forall_impl; [|exact H]; unfold numeral, printable; intros; lia).
    apply Forall_app. split; [destruct Hm as [-> | ->]; repeat constructor; unfold printable; lia|]. apply Forall_app. split.
    { destruct Hi as [-> |(c & r & -> & Hc & Hr)]; [repeat constructor; unfold printable; lia|]. constructor; [unfold printable; lia|exact (Nu _ Hr)]. }
    apply Forall_app. split.
    { destruct Hf as [-> |(d & r & -> & Hr)]; [constructor|]. constructor; [unfold printable; lia|exact (Nu _ Hr)]. }
    destruct He as [-> |(e & g & d & r & -> & He & Hg & Hr)]; [constructor|]. constructor; [unfold printable; lia|]. apply Forall_app. split; [|exact (Nu _ Hr)].
    destruct Hg as [-> |[-> | ->]]; repeat constructor; unfold printable; lia.
  - intros t level. apply St.
  - intros [|v l] H level; [apply plain_printable, printable_const; reflexivity|]. rewrite dump_arr. apply Forall_app. split; [apply One; unfold printable; lia|].
    apply Forall_app. split; [apply N|]. apply Forall_app. split; [|apply Forall_app; split; [apply N|apply One; unfold printable; lia]].
    apply J; [apply Sep|]. apply Forall_map. eapply Forall_impl; [|exact H]. intros w Hw. apply Hw.
  - intros [|v l] H level; [apply plain_printable, printable_const; reflexivity|]. rewrite dump_obj. apply Forall_app. split; [apply One; unfold printable; lia|].
    apply Forall_app. split; [apply N|]. apply Forall_app. split; [|apply Forall_app; split; [apply N|apply One; unfold printable; lia]].
    apply J; [apply Sep|]. apply Forall_map. eapply Forall_impl; [|exact H]. intros w Hw. unfold member_text. apply Forall_app. split; [apply St|]. cbn [app].
    constructor; [right; unfold printable; lia|]. constructor; [right; unfold printable; lia|]. apply Hw.
Qed.
End file.
