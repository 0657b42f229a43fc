(** What can be loaded from a JSON text, and that saving it settles. *)
From Coq Require Import Ascii String ZArith List Bool Lia.
From Verif Require Import PyBase BitLemmas EmbConst FunctionsModel FunctionsProofs ThreadModel ThreadProofs TextModel TextProofs NameModel NameProofs CsvModel CsvAgainModel JsonModel
  JsonTextModel JsonTextSpec JsonTextProofs JsonFileProofs JsonAgainModel PropertiesCsv.
Import ListNotations.
Open Scope Z_scope.

(** ** Strings read from a text without surrogates hold no pairs *)
Lemma four_range : forall a b c d n, four a b c d = Some n -> 0 <= n < 65536.
Proof.
  assert (V : forall c v, hex_value c = Some v -> 0 <= v < 16).
  { intros c v. unfold hex_value. destruct ((48 <=? c) && (c <=? 57)) eqn:E1; [intros X; injection X as <-; lia|].
    destruct ((97 <=? c) && (c <=? 102)) eqn:E2; [intros X; injection X as <-; lia|]. destruct ((65 <=? c) && (c <=? 70)) eqn:E3; [intros X; injection X as <-; lia|discriminate]. }
  intros a b c d n. unfold four. destruct (hex_value a) eqn:Ea; [|discriminate]. destruct (hex_value b) eqn:Eb; [|discriminate].
  destruct (hex_value c) eqn:Ec; [|discriminate]. destruct (hex_value d) eqn:Ed; [|discriminate]. intros X. injection X as <-.
  apply V in Ea, Eb, Ec, Ed. lia.
Qed.
Lemma unescaped_range : forall c n, unescaped c = Some n -> 0 <= n < 0xd800.
Proof. intros c n. unfold unescaped. repeat match goal with |- context [if ?b then _ else _] => destruct b; [intros X; injection X as <-; lia|] end. discriminate. Qed.
(** The first character of a string that begins with a low surrogate was an escape. *)
Definition low_first (t : text) : Prop := match t with c :: _ => low_half c | [] => False end.
Lemma no_pairs_cons : forall c t, no_pairs t -> (high_half c -> ~ low_first t) -> no_pairs (c :: t).
Proof. intros c [|d t] H L; [exact I|]. cbn [no_pairs]. split; [intros [A B]; exact (L A B)|exact H]. Qed.
Lemma scan_sound : forall k s t q, (List.length s <= k)%nat -> Forall valid_char s -> scan_str s = Ok (t, q) ->
  sound_text t /\ Forall valid_char q /\
  (low_first t -> exists a b c d r m, s = 92 :: 117 :: a :: b :: c :: d :: r /\ four a b c d = Some m /\ 0xdc00 <= m <= 0xdfff).
Proof.
  induction k as [|k IH]; intros s t q L V E; [destruct s; [discriminate E|cbn in L; lia]|].
  destruct s as [|c s]; [discriminate E|]. cbn [List.length] in L. apply Forall_cons_iff in V. destruct V as [Vc V]. cbn [scan_str] in E.
  destruct (Z.eqb_spec c 34) as [_|N34]; [injection E as <- <-; split; [split; [constructor|exact I]|split; [exact V|intros []]]|].
  assert (One : forall n s' t', (List.length s' <= k)%nat -> Forall valid_char s' -> cons_text n (scan_str s') = Ok (t', q) -> 0 <= n < 0x110000 ->
    (high_half n -> forall a b c d r m, s' = 92 :: 117 :: a :: b :: c :: d :: r -> four a b c d = Some m -> ~ (0xdc00 <= m <= 0xdfff)) ->
    sound_text t' /\ Forall valid_char q /\ exists t0, t' = n :: t0).
  { intros n s' t' L' V' E' R H. apply cons_text_ok in E'. destruct E' as (t0 & E0 & ->). destruct (IH _ _ _ L' V' E0) as ([S1 S2] & Q & Lo).
    split; [|split; [exact Q|eauto]]. split; [constructor; assumption|]. apply no_pairs_cons; [exact S2|]. intros Hh Hl. destruct (Lo Hl) as (a & b & c0 & d & r & m & Es & Ef & Em).
    exact (H Hh a b c0 d r m Es Ef Em). }
  destruct (Z.eqb_spec c 92) as [->|N92].
  - destruct s as [|e s]; [discriminate E|]. cbn [List.length] in L. apply Forall_cons_iff in V. destruct V as [Ve V]. destruct (Z.eqb_spec e 117) as [->|Ne].
    + destruct s as [|a [|b [|c [|d s]]]]; try discriminate E. cbn [List.length] in L. do 4 (apply Forall_cons_iff in V; destruct V as [? V]).
      destruct (four a b c d) as [n|] eqn:Ef; [|discriminate E]. pose proof (four_range _ _ _ _ _ Ef) as Rn.
      assert (Plain : cons_text n (scan_str s) = Ok (t, q) ->
        (high_half n -> forall a b c d r m, s = 92 :: 117 :: a :: b :: c :: d :: r -> four a b c d = Some m -> ~ (0xdc00 <= m <= 0xdfff)) ->
        sound_text t /\ Forall valid_char q /\
        (low_first t -> exists a0 b0 c0 d0 r m, 92 :: 117 :: a :: b :: c :: d :: s = 92 :: 117 :: a0 :: b0 :: c0 :: d0 :: r /\ four a0 b0 c0 d0 = Some m /\ 0xdc00 <= m <= 0xdfff)).
      { intros E' H'. destruct (One n s t ltac:(lia) V E' ltac:(lia) H') as (S1 & S2 & t0 & ->). split; [exact S1|]. split; [exact S2|]. cbn [low_first]. unfold low_half. intros Hl.
        exists a, b, c, d, s, n. auto. }
      destruct ((55296 <=? n) && (n <=? 56319)) eqn:Eh; [|apply Plain; [exact E|unfold high_half; lia]].
      destruct s as [|bs [|u [|a1 [|b1 [|c1 [|d1 s']]]]]]; try (apply Plain; [exact E|intros _ ? ? ? ? ? ? X; discriminate X]).
      destruct ((bs =? 92) && (u =? 117)) eqn:Eb.
      * destruct (four a1 b1 c1 d1) as [m|] eqn:Em; [|discriminate E]. destruct ((56320 <=? m) && (m <=? 57343)) eqn:El.
        -- cbn [List.length] in L. do 6 (apply Forall_cons_iff in V; destruct V as [? V]).
           destruct (One (65536 + (n - 55296) * 1024 + (m - 56320)) s' t ltac:(lia) V E ltac:(lia)) as (S1 & S2 & t0 & ->); [unfold high_half; lia|].
           split; [exact S1|]. split; [exact S2|]. cbn [low_first]. unfold low_half. lia.
        -- apply Plain; [exact E|]. intros _ ? ? ? ? ? ? X Y. injection X as _ _ <- <- <- <- _. rewrite Em in Y. injection Y as <-. lia.
      * apply Plain; [exact E|]. intros _ ? ? ? ? ? ? X Y. injection X as -> -> _ _ _ _ _. discriminate Eb.
    + destruct (unescaped e) as [n|] eqn:Eu; [|discriminate E]. pose proof (unescaped_range _ _ Eu) as Rn.
      destruct (One n s t ltac:(lia) V E ltac:(lia)) as (S1 & S2 & t0 & ->); [unfold high_half; lia|]. split; [exact S1|]. split; [exact S2|]. cbn [low_first]. unfold low_half. lia.
  - destruct (Z.ltb_spec c 32); [discriminate E|]. unfold valid_char in Vc. destruct (One c s t ltac:(lia) V E ltac:(lia)) as (S1 & S2 & t0 & ->); [unfold high_half; lia|].
    split; [exact S1|]. split; [exact S2|]. cbn [low_first]. unfold low_half. lia.
Qed.

(** ** Values *)
Lemma skip_valid : forall s, Forall valid_char s -> Forall valid_char (skip s).
Proof. intros s H. induction H as [|c s Hc Hs IH]; [constructor|]. cbn [skip]. destruct (is_space c); [exact IH|constructor; assumption]. Qed.
Lemma span_tail : forall s a b, span s = (a, b) -> s = a ++ b.
Proof. induction s as [|c s IH]; intros a b E; cbn [span] in E; [injection E as <- <-; reflexivity|]. destruct (is_digit c); [destruct (span s) as [a' b'] eqn:Es; injection E as <- <-; cbn [app]; rewrite (IH a' b' eq_refl); reflexivity|injection E as <- <-; reflexivity]. Qed.
Lemma literal_valid : forall w s q, literal w s = Some q -> Forall valid_char s -> Forall valid_char q.
Proof.
  induction w as [|a w IH]; intros s q E V; cbn [literal] in E; [injection E as <-; exact V|]. destruct s as [|b s]; [discriminate E|]. destruct (a =? b); [|discriminate E].
  apply Forall_cons_iff in V. exact (IH _ _ E (proj2 V)).
Qed.
Section values.
Context {F : Type}.
Variables (show : F -> text) (read : text -> F).
Hypothesis floats : forall f, decimal_text (show f) /\ read (show f) = f.
Notation scan_value := (scan_value read). Notation scan_items := (scan_items read). Notation scan_members := (scan_members read).
Notation sound := (sound show read).
Lemma number_valid : forall s v q, scan_number read s = Ok (v, q) -> Forall valid_char s -> sound v /\ Forall valid_char q.
Proof.
  intros s v q E V. unfold scan_number in E. destruct (int_part s) as [[i r0]|] eqn:Ei; [|discriminate E]. destruct (frac_part r0) as [f r1] eqn:Ef. destruct (exp_part r1) as [z r2] eqn:Ez.
  assert (T : forall a b, Forall valid_char (a ++ b) -> Forall valid_char b) by (intros a b X; apply Forall_app in X; apply X).
  assert (V0 : Forall valid_char r0).
  { unfold int_part in Ei. destruct (sign_part s) as [m s'] eqn:Em. assert (V' : Forall valid_char s').
    { unfold sign_part in Em. destruct s as [|c s]; [injection Em as _ <-; constructor|]. destruct (c =? 45); injection Em as _ <-; [exact (T [c] _ V)|exact V]. }
    destruct s' as [|c s']; [discriminate Ei|]. destruct (c =? 48); [injection Ei as _ <-; exact (T [c] _ V')|]. destruct (is_digit c); [|discriminate Ei].
    destruct (span (c :: s')) as [a b] eqn:Es. injection Ei as _ <-. rewrite (span_tail _ _ _ Es) in V'. exact (T _ _ V'). }
  assert (V1 : Forall valid_char r1).
  { unfold frac_part in Ef. destruct r0 as [|c r0]; [injection Ef as _ <-; constructor|]. destruct (c =? 46); [|injection Ef as _ <-; exact V0].
    destruct (span r0) as [a b] eqn:Es. pose proof (span_tail _ _ _ Es) as Et. destruct a; injection Ef as _ <-; [exact V0|]. rewrite Et in V0. exact (T (c :: z0 :: a) _ V0). }
  assert (V2 : Forall valid_char r2).
  { unfold exp_part in Ez. destruct r1 as [|c r1]; [injection Ez as _ <-; constructor|]. destruct ((c =? 101) || (c =? 69)); [|injection Ez as _ <-; exact V1].
    set (w := match r1 with d :: r' => if (d =? 45) || (d =? 43) then ([d], r') else ([], r1) | [] => ([], r1) end) in Ez. destruct w as [g r3] eqn:Ew.
    assert (V3 : Forall valid_char r3).
    { pose proof (T [c] _ V1) as V1'. unfold w in Ew. destruct r1 as [|d r1]; [injection Ew as _ <-; constructor|]. destruct ((d =? 45) || (d =? 43)); injection Ew as _ <-; [exact (T [d] _ V1')|exact V1']. }
    destruct (span r3) as [a b] eqn:Es. pose proof (span_tail _ _ _ Es) as Et. destruct a; injection Ez as _ <-; [exact V1|]. rewrite Et in V3. exact (T _ _ V3). }
  destruct (f ++ z); [destruct (int_of_text i); [|discriminate E]; cbn [bindr] in E|]; injection E as <- <-; (split; [|exact V2]); [exact I|apply floats].
Qed.
Lemma scanned_sound : forall n,
  (forall s v r, scan_value n s = Ok (v, r) -> Forall valid_char s -> sound v /\ Forall valid_char r) /\
  (forall s l r, scan_items n s = Ok (l, r) -> Forall valid_char s -> sound (JArr l) /\ Forall valid_char r) /\
  (forall s l r, scan_members n s = Ok (l, r) -> Forall valid_char s -> sound (JObj l) /\ Forall valid_char r).
Proof.
  induction n as [|n (IV & II & IM)]; [split; [|split]; intros s l r E; discriminate E|]. split; [|split].
  - intros s v r E V. destruct s as [|c s]; [discriminate E|]. rewrite value_S in E. pose proof V as V0. apply Forall_cons_iff in V. destruct V as [_ V]. destruct (c =? 34).
    { apply bind_ok in E. destruct E as ([t q] & E & E'). injection E' as <- <-. destruct (scan_sound _ _ _ _ (Nat.le_refl _) V E) as (A & B & _). split; assumption. }
    pose proof (skip_valid s V) as Vs. destruct (c =? 123).
    { destruct (skip s) as [|d q]; [discriminate E|]. destruct (d =? 125); [injection E as <- <-; apply Forall_cons_iff in Vs; split; [exact I|apply Vs]|].
      apply bind_ok in E. destruct E as ([l q'] & E & E'). injection E' as <- <-. exact (IM _ _ _ E Vs). }
    destruct (c =? 91).
    { destruct (skip s) as [|d q]; [discriminate E|]. destruct (d =? 93); [injection E as <- <-; apply Forall_cons_iff in Vs; split; [exact I|apply Vs]|].
      apply bind_ok in E. destruct E as ([l q'] & E & E'). injection E' as <- <-. exact (II _ _ _ E Vs). }
    destruct (c =? 110); [destruct (literal _ _) eqn:El; [|discriminate E]; injection E as <- <-; split; [exact I|exact (literal_valid _ _ _ El V0)]|].
    destruct (c =? 116); [destruct (literal _ _) eqn:El; [|discriminate E]; injection E as <- <-; split; [exact I|exact (literal_valid _ _ _ El V0)]|].
    destruct (c =? 102); [destruct (literal _ _) eqn:El; [|discriminate E]; injection E as <- <-; split; [exact I|exact (literal_valid _ _ _ El V0)]|].
    exact (number_valid _ _ _ E V0).
  - intros s l r E V. rewrite items_S in E. apply bind_ok in E. destruct E as ([v q] & Ev & E). destruct (IV _ _ _ Ev V) as [Sv Vq]. pose proof (skip_valid q Vq) as Vs.
    destruct (skip q) as [|c q']; [discriminate E|]. apply Forall_cons_iff in Vs. destruct Vs as [_ Vs]. destruct (c =? 44).
    + apply bind_ok in E. destruct E as ([l' q2] & El & E). injection E as <- <-. destruct (II _ _ _ El (skip_valid _ Vs)) as [A B]. split; [split; assumption|exact B].
    + destruct (c =? 93); [|discriminate E]. injection E as <- <-. split; [split; [exact Sv|exact I]|exact Vs].
  - intros s l r E V. destruct s as [|c0 s]; [discriminate E|]. rewrite members_S in E. destruct (c0 =? 34); [|discriminate E]. apply Forall_cons_iff in V. destruct V as [_ V].
    apply bind_ok in E. destruct E as ([k r0] & Ek & E). destruct (scan_sound _ _ _ _ (Nat.le_refl _) V Ek) as (Sk & V1 & _). pose proof (skip_valid _ V1) as V2.
    destruct (skip r0) as [|c1 r1]; [discriminate E|]. apply Forall_cons_iff in V2. destruct V2 as [_ V2]. destruct (c1 =? 58); [|discriminate E].
    apply bind_ok in E. destruct E as ([v q] & Ev & E). destruct (IV _ _ _ Ev (skip_valid _ V2)) as [Sv Vq]. pose proof (skip_valid q Vq) as Vs.
    destruct (skip q) as [|c q']; [discriminate E|]. apply Forall_cons_iff in Vs. destruct Vs as [_ Vs]. destruct (c =? 44).
    + apply bind_ok in E. destruct E as ([l' q2] & El & E). injection E as <- <-. destruct (IM _ _ _ El (skip_valid _ Vs)) as [A B]. split; [split; [split|]; assumption|exact B].
    + destruct (c =? 125); [|discriminate E]. injection E as <- <-. split; [split; [split; assumption|exact I]|exact Vs].
Qed.
Lemma loads_sound : forall s v, json_loads read s = Ok v -> Forall valid_char s -> sound v.
Proof.
  intros s v E V. unfold json_loads in E. apply bind_ok in E. destruct E as ([w r] & E & E'). destruct (skip r); [|discriminate E']. injection E' as <-.
  exact (proj1 (proj1 (scanned_sound _) _ _ _ E (skip_valid s V))).
Qed.

(** ** Documents *)
Lemma member_sound : forall k l v, member k l = Ok v -> sound (JObj l) -> sound v.
Proof.
  intros k l. induction l as [|[k' w] l IH]; intros v E H; [discriminate E|]. cbn [member] in E. cbn [JsonTextProofs.sound fold_right fst snd] in H. destruct H as [[_ H1] H2].
  destruct (member k l) as [u|e]; [injection E as <-; exact (IH u eq_refl H2)|]. destruct (text_eqb k k'); [|discriminate E]. injection E as <-. exact H1.
Qed.
Lemma get_sound : forall v k w, get v k = Ok w -> sound v -> sound w.
Proof. intros v k w E H. destruct v; try discriminate E. exact (member_sound _ _ _ E H). Qed.
Lemma to_text_sound : forall v t, to_text (F := F) v = Ok t -> sound v -> sound_option t.
Proof. intros v t E H. destruct v; try discriminate E; injection E as <-; [exact I|exact H]. Qed.
Definition sound_jthread (t : jthread) : Prop :=
  sound_option (j_description t) /\ sound_option (j_catalog t) /\ sound_option (j_details t) /\ sound_option (j_brand t) /\ sound_option (j_chart t) /\ sound_option (j_weight t).
Lemma to_thread_sound : forall v t, to_thread (F := F) v = Ok t -> sound v -> sound_jthread t.
Proof.
  intros v t E H. unfold to_thread in E.
  apply bind_ok in E. destruct E as (c & E0 & E).
  do 6 (apply bind_ok in E; let g := fresh "g" in let Eg := fresh "Eg" in let o := fresh "o" in let Eo := fresh "Eo" in
    destruct E as (g & Eg & E); apply bind_ok in E; destruct E as (o & Eo & E); apply get_sound in Eg; [|exact H]; apply to_text_sound in Eo; [|exact Eg]).
  destruct c; try discriminate E. injection E as <-. unfold sound_jthread. cbn [j_description j_catalog j_details j_brand j_chart j_weight]. tauto.
Qed.
Lemma all_sound : forall {A B} (f : A -> res B) (P : A -> Prop) (R : B -> Prop) l m, all f l = Ok m -> Forall P l -> (forall a b, f a = Ok b -> P a -> R b) -> Forall R m.
Proof.
  intros A B f P R l. induction l as [|a l IH]; intros m E H G; cbn [all] in E; [injection E as <-; constructor|]. apply bind_ok in E. destruct E as (b & Eb & E). apply bind_ok in E. destruct E as (r & Er & E).
  injection E as <-. apply Forall_cons_iff in H. constructor; [exact (G _ _ Eb (proj1 H))|exact (IH _ Er (proj2 H) G)].
Qed.
Lemma arr_sound : forall l, sound (JArr l) -> Forall sound l.
Proof. induction l as [|v l IH]; intros H; [constructor|]. destruct H as [A B]. constructor; [exact A|exact (IH B)]. Qed.
Lemma obj_sound : forall l, sound (JObj l) -> Forall (fun e => sound_text (fst e) /\ sound (snd e)) l.
Proof. induction l as [|v l IH]; intros H; [constructor|]. destruct H as [A B]. constructor; [exact A|exact (IH B)]. Qed.
Lemma keyed_keys : forall {A} k (v : A) l x, In x (map fst (keyed k v l)) <-> x = k \/ In x (map fst l).
Proof.
  intros A k v l x. induction l as [|[k' v'] l IH]; [cbn; intuition congruence|]. cbn [keyed]. unfold text_eqb. destruct (list_eq_dec Z.eq_dec k k') as [->|N]; cbn [map fst In]; [intuition congruence|].
  rewrite IH. tauto.
Qed.
Lemma keyed_nodup : forall {A} k (v : A) l, NoDup (map fst l) -> NoDup (map fst (keyed k v l)).
Proof.
  intros A k v l. induction l as [|[k' v'] l IH]; intros H; [repeat constructor; intros []|]. cbn [keyed]. cbn [map fst] in H. apply NoDup_cons_iff in H. destruct H as [H1 H2]. unfold text_eqb.
  destruct (list_eq_dec Z.eq_dec k k') as [->|N]; cbn [map fst]; constructor; auto. rewrite keyed_keys. intuition congruence.
Qed.
Lemma keyed_all : forall {A} (P : text * A -> Prop) k v l, P (k, v) -> Forall P l -> Forall P (keyed k v l).
Proof.
  intros A P k v l Hk H. induction H as [|[k' v'] l H1 H2 IH]; [repeat constructor; exact Hk|]. cbn [keyed]. destruct (text_eqb k k'); constructor; assumption.
Qed.
Lemma dict_facts : forall {A} (P : text * A -> Prop) l, Forall P l -> NoDup (map fst (dict_of l)) /\ Forall P (dict_of l).
Proof.
  intros A P l H. unfold dict_of. assert (G : forall d, NoDup (map fst d) -> Forall P d -> NoDup (map fst (fold_left (fun d e => keyed (fst e) (snd e) d) l d)) /\ Forall P (fold_left (fun d e => keyed (fst e) (snd e) d) l d)).
  { induction H as [|[k v] l H1 H2 IH]; intros d N D; [split; assumption|]. cbn [fold_left fst snd]. apply IH; [apply keyed_nodup; exact N|apply keyed_all; assumption]. }
  apply G; constructor.
Qed.
Lemma to_document_sound : forall v d, to_document v = Ok d -> sound v -> Forall sound_jthread (j_threads d) /\ Forall (sound_extra (F := F)) (j_extras d) /\ NoDup (map fst (j_extras d)).
Proof.
  intros v d E H. unfold to_document in E. apply bind_ok in E. destruct E as (st & E1 & E). apply bind_ok in E. destruct E as (ex & E2 & E). apply bind_ok in E. destruct E as (th & E3 & E).
  apply bind_ok in E. destruct E as (tl & E4 & E). apply bind_ok in E. destruct E as (ths & E5 & E). apply bind_ok in E. destruct E as (sl & E6 & E). apply bind_ok in E. destruct E as (sts & E7 & E).
  apply get_sound in E2; [|exact H]. apply get_sound in E3; [|exact H]. destruct ex as [| | | | | |l]; try discriminate E. injection E as <-. cbn [j_threads j_extras]. split.
  - destruct th; try discriminate E4. injection E4 as <-. apply (all_sound to_thread sound sound_jthread _ _ E5); [apply arr_sound; exact E3|exact to_thread_sound].
  - destruct (dict_facts (fun e => sound_text (fst e) /\ sound (snd e)) l (obj_sound l E2)) as [N S]. split.
    + apply Forall_map. eapply Forall_impl; [|exact S]. intros [k w] [A B]. cbn [fst snd] in *. split; [exact A|]. cbn [snd]. destruct w; cbn [to_value]; try exact I. exact B.
    + rewrite map_map. exact N.
Qed.
End values.

(** ** Commands and colours *)
Lemma low_byte : forall c v k, 8 <= k -> Z.lor c (Z.shiftl v k) mod 256 = c mod 256.
Proof.
  intros c v k H. change 256 with (2 ^ 8). rewrite <- !Z.land_ones by lia. rewrite Z.land_lor_distr_l. replace (Z.land (Z.shiftl v k) (Z.ones 8)) with 0; [apply Z.lor_0_r|].
  symmetry. apply Z.bits_inj'. intros n Hn. rewrite Z.land_spec, Z.bits_0. destruct (Z.ltb_spec n 8).
  - rewrite Z.shiftl_spec_low by lia. reflexivity.
  - rewrite Z.ones_spec_high by lia. apply andb_false_r.
Qed.
Lemma attributes_low : forall words c d, add_attributes c words = Ok d -> d mod 256 = c mod 256.
Proof.
  induction words as [|[|w digits] words IH]; intros c d E; cbn [add_attributes] in E; [injection E as <-; reflexivity|discriminate E|].
  destruct (w =? 110); [apply bind_ok in E; destruct E as (v & _ & E); rewrite (IH _ _ E); apply low_byte; lia|].
  destruct (w =? 111); [apply bind_ok in E; destruct E as (v & _ & E); rewrite (IH _ _ E); apply low_byte; lia|].
  destruct (w =? 116); [apply bind_ok in E; destruct E as (v & _ & E); rewrite (IH _ _ E); apply low_byte; lia|]. exact (IH _ _ E).
Qed.
Lemma command_has_name : forall n c, decoded_command n = Ok c -> c mod 256 <> 255 -> name_of (c mod 256) common_names <> None.
Proof.
  assert (G : forallb (fun e : text * Z => (snd e mod 256 =? 255) || match name_of (snd e mod 256) common_names with Some _ => true | None => false end) command_dictionary = true) by (vm_compute; reflexivity).
  intros n c E H. unfold decoded_command in E. destruct (split_on 32 n) as [|w ws]; [discriminate E|]. destruct (command_named w command_dictionary) as [k|] eqn:Ek; [|discriminate E].
  rewrite (attributes_low _ _ _ E) in *. revert Ek. generalize dependent command_dictionary. intros l. induction l as [|[m k'] l IH]; cbn [command_named forallb snd]; intros G Ek; [discriminate Ek|].
  apply andb_true_iff in G. destruct G as [G1 G2]. destruct (ThreadModel.text_eqb m w); [|exact (IH G2 Ek)]. injection Ek as <-. destruct (Z.eqb_spec (k' mod 256) 255); [contradiction|].
  destruct (name_of _ _); [discriminate|discriminate G1].
Qed.
Lemma name_mod : forall c, decoded_name (c mod 2 ^ 32) = decoded_name c \/ name_of (c mod 256) common_names = None.
Proof.
  intros c. destruct (name_of (c mod 256) common_names) as [n|] eqn:En; [left|auto].
  unfold decoded_name. unfold decode_embroidery_command. change COMMAND_MASK with 0xFF. rewrite !land_ff.
  change THREAD_MASK with (Z.shiftl 0xFF 8). change NEEDLE_MASK with (Z.shiftl 0xFF 16). change ORDER_MASK with (Z.shiftl 0xFF 24). rewrite !dec_field_of by lia.
  assert (M : (c mod 2 ^ 32) mod 256 = c mod 256) by (change (2 ^ 32) with 4294967296; lia).
  assert (Fi : forall k, k = 8 \/ k = 16 \/ k = 24 -> field_of (c mod 2 ^ 32) k = field_of c k).
  { intros k Hk. unfold field_of. change (2 ^ 32) with 4294967296. destruct Hk as [-> |[-> | ->]]; cbn [Z.pow Z.pow_pos Pos.iter Z.mul Pos.mul]; lia. }
  rewrite M, !Fi by auto. rewrite En. reflexivity.
Qed.
Lemma hex_mod : forall c, hex_color (c mod 2 ^ 24) = hex_color c.
Proof.
  intros c. change (2 ^ 24) with 16777216. unfold hex_color, get_red, get_green, get_blue. change 255 with 0xFF. rewrite !land_ff, !Z.shiftr_div_pow2 by lia.
  change (2 ^ 16) with 65536. change (2 ^ 8) with 256.
  replace (c mod 16777216 / 65536 mod 256) with (c / 65536 mod 256) by lia. replace (c mod 16777216 / 256 mod 256) with (c / 256 mod 256) by lia.
  replace (c mod 16777216 mod 256) with (c mod 256) by lia. reflexivity.
Qed.

Section again.
Context {F : Type}.
Variables (show : F -> text) (read : text -> F) (other : text -> Z).
Hypothesis floats : forall f, decimal_text (show f) /\ read (show f) = f.

Definition reread_thread (t : thread) : loaded := mkL (Some (t_color t mod 2 ^ 24)) (t_description t) (t_catalog t) (t_details t) (t_brand t) (t_chart t) (t_weight t).
Lemma read_written : forall (stitches : list (stitch (coord (F := F)))) threads (extras : list (text * value F)), Forall (fun s => name_of (scmd s mod 256) common_names <> None) stitches ->
  json_read other (json_write stitches threads extras) = Ok (map (fun s => mkS (sx s) (sy s) (scmd s mod 2 ^ 32)) stitches, map reread_thread threads, filter kept extras).
Proof.
  intros st th ex H. pose proof (C67_json_round_trip other ([] : list (stitch (coord (F := F)))) th ex (Forall_nil _)) as T.
  unfold json_read, json_write in *. cbn [j_threads j_stitches j_extras map] in *. destruct (load_threads other (map json_thread th)) as [l|e]; [|discriminate T]. cbn [bindr load_stitches] in *.
  injection T as ->.
  assert (E : load_stitches (map (fun s => (sx s, sy s, decoded_name (scmd s))) st) = Ok (map (fun s => mkS (sx s) (sy s) (scmd s mod 2 ^ 32)) st)).
  { induction H as [|s st Hs Hst IH]; [reflexivity|]. cbn [map load_stitches]. rewrite command_by_name. destruct (name_of (scmd s mod 256) common_names); [|congruence]. cbn [bindr]. rewrite IH. reflexivity. }
  rewrite E. reflexivity.
Qed.
Lemma loaded_named : forall (l : list (coord (F := F) * coord (F := F) * text)) st, load_stitches l = Ok st -> Forall (fun s => scmd s mod 256 <> 255) st -> Forall (fun s => name_of (scmd s mod 256) common_names <> None) st.
Proof.
  induction l as [|[[x y] n] l IH]; intros st E H; cbn [load_stitches] in E; [injection E as <-; constructor|]. apply bind_ok in E. destruct E as (c & Ec & E). apply bind_ok in E. destruct E as (r & Er & E).
  injection E as <-. apply Forall_cons_iff in H. destruct H as [H1 H2]. constructor; [exact (command_has_name _ _ Ec H1)|exact (IH _ Er H2)].
Qed.
Lemma writable_sound : forall l m ths, load_threads other l = Ok m -> writable_threads m = Ok ths -> Forall sound_jthread l -> Forall sound_thread ths.
Proof.
  induction l as [|t l IH]; intros m ths E W H; cbn [load_threads] in E; [injection E as <-; injection W as <-; constructor|].
  apply bind_ok in E. destruct E as (a & Ea & E). apply bind_ok in E. destruct E as (r & Er & E). injection E as <-. cbn [writable_threads] in W.
  apply bind_ok in W. destruct W as (u & Eu & W). apply bind_ok in W. destruct W as (us & Eus & W). injection W as <-. apply Forall_cons_iff in H. destruct H as [H1 H2].
  constructor; [|exact (IH _ _ Er Eus H2)]. unfold load_thread in Ea. apply bind_ok in Ea. destruct Ea as (c & _ & Ea). injection Ea as <-. unfold writable_thread in Eu. cbn [l_color] in Eu.
  destruct c as [c|]; [|discriminate Eu]. injection Eu as <-. exact H1.
Qed.
Lemma writable_reread : forall ths, writable_threads (map reread_thread ths) = Ok (map (fun t => mkT (t_color t mod 2 ^ 24) (t_description t) (t_catalog t) (t_details t) (t_brand t) (t_chart t) (t_weight t)) ths).
Proof. induction ths as [|t ths IH]; [reflexivity|]. cbn [map writable_threads]. rewrite IH. reflexivity. Qed.
Lemma filter_twice : forall (ex : list (text * value F)), filter kept (filter kept ex) = filter kept ex.
Proof. induction ex as [|e ex IH]; [reflexivity|]. cbn [filter]. destruct (kept e) eqn:E; [|exact IH]. cbn [filter]. rewrite E, IH. reflexivity. Qed.
Theorem again_settles : forall file file' st ls ex, Forall valid_char file -> json_open read other file = Ok (st, ls, ex) -> Forall (fun s => scmd s mod 256 <> 255) st ->
  json_again show read other file = Ok file' ->
  json_again show read other file' = Ok file' /\ exists ls', json_open read other file' = Ok (map (fun s => mkS (sx s) (sy s) (scmd s mod 2 ^ 32)) st, ls', filter kept ex).
Proof.
  intros file file' st ls ex V Eo Nc E. unfold json_again in E. rewrite Eo in E. cbn [bindr] in E. apply bind_ok in E. destruct E as (ths & Ew & E). injection E as <-.
  unfold json_open in Eo. apply bind_ok in Eo. destruct Eo as (v & Ev & Eo). apply bind_ok in Eo. destruct Eo as (d & Ed & Eo).
  pose proof (loads_sound show read floats _ _ Ev V) as Sv. destruct (to_document_sound show read _ _ Ed Sv) as (T & X & N).
  unfold json_read in Eo. apply bind_ok in Eo. destruct Eo as (ls' & El & Eo). apply bind_ok in Eo. destruct Eo as (st' & Es & Eo). injection Eo as <- <- <-.
  pose proof (writable_sound _ _ _ El Ew T) as St. pose proof (loaded_named _ _ Es Nc) as Nm.
  unfold json_again, json_open, json_save. rewrite loads_dump; [|apply document_sound; assumption|intros []]. cbn [bindr].
  rewrite (to_of_document show read) by (apply filter_nodup; exact N). cbn [bindr]. rewrite read_written by exact Nm. split; [|eexists; reflexivity]. cbn [bindr]. rewrite writable_reread. cbn [bindr]. f_equal. f_equal. f_equal.
  unfold json_write. rewrite filter_twice, !map_map. f_equal.
  - apply map_ext. intros t. unfold json_thread. cbn [t_color t_description t_catalog t_details t_brand t_chart t_weight]. rewrite hex_mod. reflexivity.
  - apply map_ext_in. intros s Hs. cbn [sx sy scmd]. rewrite Forall_forall in Nm. specialize (Nm s Hs). destruct (name_mod (scmd s)) as [-> |]; [reflexivity|contradiction].
Qed.
End again.
