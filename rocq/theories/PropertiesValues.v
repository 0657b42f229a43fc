(** Properties C127 to C135: colours, threads and stitches given as values of many types, and patterns put
    together of blocks. *)
From Coq Require Import Ascii String ZArith QArith List Bool Lia Permutation.
From Verif Require Import PyBase EmbConst BitLemmas ThreadModel TextModel ValueModel ValueSpec ValueProofs PatternModel PatternSpec BlocksProofs.
Import ListNotations.
Open Scope Z_scope.

(** ** C127: texts as colours *)
(** A text that means a colour, as #rrggbb, as #rgb or as a name in any mixture of capitals, sets that
    colour and nothing else, whether given to a thread, as a colour in a dict, or for comparison. *)
Theorem C127_color_text : forall c s t, color_text c s ->
  set_thread t (VStr s) = (set_color (VInt c) t, None) /\
  set_thread t (VDict [(text_of "color", VStr s)]) = (set_color (VInt c) t, None) /\
  forall u, eq_value u (VStr s) = eq_value u (VInt c).
Proof.
  intros c s t H. apply parse_color in H. split; [cbn [set_thread]; rewrite H; reflexivity|]. split.
  - unfold set_thread, from_key. cbn [lookup text_eqb text_of]. cbn. rewrite H. cbn. destruct t. reflexivity.
  - intros u. cbn [eq_value]. rewrite H. reflexivity.
Qed.
(** The names are exactly those of SVG and CSS 3; every other text without a mark is black. *)
Theorem C127_other_names : forall s, s <> text_of "random" -> (forall r, s <> 35 :: r) ->
  parse_string_color s = Ok (VInt 0) \/
  exists name c, In (name, c) svg_colors /\ lower s = text_of name /\ parse_string_color s = Ok (VInt c).
Proof.
  intros s H1 H2. unfold parse_string_color.
  destruct (text_eqb s (text_of "random")) eqn:E; [apply text_eqb_iff in E; contradiction|].
  destruct (match s with c :: _ => c =? 35 | [] => false end) eqn:E2.
  { destruct s as [|x r]; [discriminate|]. apply Z.eqb_eq in E2. subst. exfalso. exact (H2 r eq_refl). }
  destruct (lookup (lower s) color_dict) as [c|] eqn:L; [|left; reflexivity]. right.
  pose proof names_no_other as T. rewrite forallb_forall in T. apply lookup_some in L. specialize (T _ L). cbn [fst snd] in T.
  destruct (lookup (lower s) (map (fun e => (text_of (fst e), snd e)) svg_colors)) as [c'|] eqn:L'; [|discriminate].
  apply Z.eqb_eq in T. subst c'. apply lookup_some, in_map_iff in L' as ([name c'] & Ee & I). cbn [fst snd] in Ee. inversion Ee; subst.
  exists name, c. auto.
Qed.
Print Assumptions C127_color_text.
Print Assumptions C127_other_names.
Example C127_case : color_text 0xF4A460 (text_of "#F4a460") /\ color_text 0xFFCC00 (text_of "#fC0") /\ color_text 0xF4A460 (text_of "SandyBrown") /\
  parse_string_color (text_of "MediumSpringGreen") = Ok (VInt 0x00FA9A) /\ parse_string_color (text_of "no such name") = Ok (VInt 0).
Proof.
  assert (D : forall n ch, (exists d, digit_value ch = Some d /\ d = n) -> plain_digit ch -> digit_char n ch).
  { intros n ch (d & E & ->) P. unfold plain_digit, digit_value, digit_char in *.
    destruct (Z.leb_spec 48 ch), (Z.leb_spec ch 57), (Z.leb_spec 97 ch), (Z.leb_spec ch 102), (Z.leb_spec 65 ch), (Z.leb_spec ch 70);
      cbn [andb] in E; inversion E; lia. }
  assert (P : forall ch, (48 <=? ch) && (ch <=? 57) || ((97 <=? ch) && (ch <=? 102) || (65 <=? ch) && (ch <=? 70)) = true -> plain_digit ch).
  { intros ch. unfold plain_digit. destruct (Z.leb_spec 48 ch), (Z.leb_spec ch 57), (Z.leb_spec 97 ch), (Z.leb_spec ch 102), (Z.leb_spec 65 ch), (Z.leb_spec ch 70); cbn [andb orb]; intros H'; try discriminate; lia. }
  split; [apply text_six; exists 15, 4, 10, 4, 6, 0; split; [reflexivity|repeat (constructor; [apply D; [eexists; split; reflexivity|apply P; reflexivity]|]); constructor]|].
  split; [apply text_three; exists 15, 12, 0; split; [reflexivity|repeat (constructor; [apply D; [eexists; split; reflexivity|apply P; reflexivity]|]); constructor]|].
  split; [|split; vm_compute; reflexivity].
  apply (text_name _ "sandybrown"); [apply (nth_error_In _ 124%nat); reflexivity|].
  change (text_of "SandyBrown") with [115 - 32; 97; 110; 100; 121; 98 - 32; 114; 111; 119; 110].
  change (text_of "sandybrown") with [115; 97; 110; 100; 121; 98; 114; 111; 119; 110].
  repeat (first [apply spelled_same|apply spelled_capital; [lia|]]). apply spelled_nil.
Qed.

(** ** C128: dicts *)
(** A dict of well-formed colours sets the attributes by the last alias it holds, the colour by hex, else
    color, else rgb, and leaves the rest of the thread as it was. *)
Theorem C128_dict : forall d t, NoDup (map fst d) ->
  (forall v, entry d "color" v -> exists c, color_value c v) ->
  (forall v, entry d "rgb" v -> exists c, color_value c v) ->
  (forall v, entry d "hex" v -> exists c, hex_value c v) ->
  exists t', set_thread t (VDict d) = (t', None) /\
    says d (d_description t) ["name"; "description"; "desc"]%string (d_description t') /\
    says d (d_brand t) ["brand"; "manufacturer"]%string (d_brand t') /\
    says d (d_catalog t) ["id"; "catalog"]%string (d_catalog t') /\
    d_details t' = d_details t /\ d_chart t' = d_chart t /\ d_weight t' = d_weight t /\
    (forall v, entry d "hex" v -> exists c, hex_value c v /\ d_color t' = VInt c) /\
    (forall v, absent d "hex" -> entry d "color" v -> exists c, color_value c v /\ d_color t' = VInt c) /\
    (forall v, absent d "hex" -> absent d "color" -> entry d "rgb" v -> exists c, color_value c v /\ d_color t' = VInt c) /\
    (absent d "hex" -> absent d "color" -> absent d "rgb" -> d_color t' = d_color t).
Proof.
  intros d t N Hc Hr Hh.
  destruct (set_dict d t) as (c & E & K).
  { intros v L. apply Hc. apply lookup_some. exact L. }
  { intros v L. apply Hr. apply lookup_some. exact L. }
  { intros v L. apply Hh. apply lookup_some. exact L. }
  eexists. split; [exact E|]. cbn [d_description d_brand d_catalog d_details d_chart d_weight d_color].
  split; [apply says_pick|]. split; [apply says_pick|]. split; [apply says_pick|]. split; [reflexivity|]. split; [reflexivity|]. split; [reflexivity|].
  split; [|split; [|split]].
  - intros v Hv. rewrite (entry_lookup _ _ _ N Hv) in K. destruct K as (n & -> & K). eauto.
  - intros v A Hv. rewrite (absent_lookup _ _ A), (entry_lookup _ _ _ N Hv) in K. destruct K as (n & -> & K). eauto.
  - intros v A B Hv. rewrite (absent_lookup _ _ A), (absent_lookup _ _ B), (entry_lookup _ _ _ N Hv) in K. destruct K as (n & -> & K). eauto.
  - intros A B C. rewrite (absent_lookup _ _ A), (absent_lookup _ _ B), (absent_lookup _ _ C) in K. exact K.
Qed.
(** Whatever its values are, the order of a dict does not matter. *)
Theorem C128_order : forall d d' t, NoDup (map fst d) -> Permutation d d' -> set_thread t (VDict d) = set_thread t (VDict d').
Proof.
  intros d d' t N P.
  assert (L : forall k, lookup k d = lookup k d').
  { intros k. assert (N' : NoDup (map fst d')) by (eapply Permutation_NoDup; [apply Permutation_map; exact P|exact N]).
    destruct (lookup k d) as [v|] eqn:E.
    - symmetry. apply lookup_in; [exact N'|]. eapply Permutation_in; [exact P|]. apply lookup_some. exact E.
    - symmetry. apply lookup_absent. intros I. apply (lookup_none _ _ _ E). eapply Permutation_in; [apply Permutation_map, Permutation_sym; exact P|exact I]. }
  unfold set_thread, from_key. rewrite !L. reflexivity.
Qed.
Print Assumptions C128_dict.
Print Assumptions C128_order.
Example C128_case : let d := [(text_of "name", VStr (text_of "Gold")); (text_of "color", VSeq [VInt 255; VInt 215; VInt 0]);
      (text_of "manufacturer", VStr (text_of "Isacord")); (text_of "desc", VStr (text_of "Old gold")); (text_of "id", VStr (text_of "0811"))] in
  NoDup (map fst d) /\ set_thread new_thread (VDict d) =
    (mkD (VInt 0xFFD700) (VStr (text_of "Old gold")) (VStr (text_of "0811")) VNone (VStr (text_of "Isacord")) VNone VNone, None).
Proof.
  split; [|vm_compute; reflexivity]. cbn [map fst].
  repeat (constructor; [cbn [In]; intros H; repeat (destruct H as [H|H]; [discriminate H|]); exact H|]). constructor.
Qed.

(** ** C129: any text as a colour *)
(** Refuted: a text given as a colour need not give a colour of 24 bits or be refused. *)
Theorem C129_color_text_refuted :
  set_thread new_thread (VStr (text_of "#12345")) = (set_color VNone new_thread, None) /\
  set_thread new_thread (VStr (text_of "#-00001")) = (set_color (VInt (-1)) new_thread, None) /\
  (forall t, eq_value t (VStr (text_of "#12345")) = Err TypeError).
Proof. split; [vm_compute; reflexivity|]. split; [vm_compute; reflexivity|]. intros t. vm_compute. reflexivity. Qed.
(** What can come of any text: only "random" is random; without the mark, a colour of 24 bits; with it, a number of
    at most 24 bits that is negative only if a minus sign is written, None or ValueError. *)
Theorem C129_any_text_partial : forall s,
  match parse_string_color s with
  | Ok VRandom => s = text_of "random"
  | Ok (VInt c) => 0 <= c < 2 ^ 24 \/ (- 2 ^ 24 < c < 0 /\ In 45 s /\ exists r, s = 35 :: r)
  | Ok VNone => exists r, s = 35 :: r
  | Ok _ => False
  | Err e => e = ValueError /\ exists r, s = 35 :: r
  end.
Proof.
  intros s. unfold parse_string_color. destruct (text_eqb s (text_of "random")) eqn:E; [apply text_eqb_iff; exact E|].
  destruct (match s with c :: _ => c =? 35 | [] => false end) eqn:E2.
  - destruct s as [|x r]; [discriminate|]. apply Z.eqb_eq in E2. subst x. cbn [tl]. pose proof (color_hex_range r) as H.
    destruct (color_hex_any r) as [[| c | | | | | | | |]|e]; try contradiction; eauto.
    destruct H as [A B]. destruct (Z.neg_nonneg_cases c) as [Hn|Hn]; [right|left; lia]. split; [lia|]. split; [right; exact (B Hn)|eauto].
  - destruct (lookup (lower s) color_dict) as [c|] eqn:L; [|left; lia]. left. apply lookup_range in L. exact L.
Qed.
Print Assumptions C129_color_text_refuted.
Print Assumptions C129_any_text_partial.

(** ** C130: stitches *)
(** Each documented form of a list of points appends the stitches it means, in order, with the position
    after them, and nothing else; add_block adds a colour break, and the thread if one is given. *)
Theorem C130_points : forall p b, meant b <> [] ->
  (exists p', iadd p (given b) = (p', Returned) /\ dp_stitches p' = dp_stitches p ++ meant b /\
     dp_threads p' = dp_threads p /\ dp_extras p' = dp_extras p /\
     exists c, last (meant b) (VNone, VNone, VNone) = (dp_x p', dp_y p', c)) /\
  (forall v t, (v = VNone /\ t = []) \/ (v <> VNone /\ exists u, t = [u] /\ (v = VThread u \/ set_thread new_thread v = (u, None))) ->
   exists p', add_block p (given b) v = (p', ReturnedNone) /\
     dp_stitches p' = dp_stitches p ++ meant b ++ [(VInt 0, VInt 0, VInt COLOR_BREAK)] /\
     dp_threads p' = dp_threads p ++ t /\ dp_extras p' = dp_extras p /\
     exists c, last (meant b) (VNone, VNone, VNone) = (dp_x p', dp_y p', c)).
Proof.
  intros p b N. split.
  - pose proof (add_given b p N) as H. destruct (given b) as [| | | | |l| | | |]; try contradiction. destruct H as (E & H1 & H2).
    exists (with_stitches p (meant b)). split.
    + unfold iadd. destruct l as [|v l]; [contradiction H1; reflexivity|]. rewrite E. destruct v; try reflexivity.
      exfalso. exact (H2 t l eq_refl).
    + split; [reflexivity|]. split; [reflexivity|]. split; [reflexivity|]. unfold with_stitches. cbn [dp_x dp_y].
      destruct (exists_last N) as (r & [[x y] c] & ->). rewrite !last_last. exists c. reflexivity.
  - intros v t Hv.
    assert (A : exists p1, (let (p, e) := match v with VNone => (p, None) | _ => append_thread v p end in (p, e)) = (p1, None) /\
      dp_stitches p1 = dp_stitches p /\ dp_threads p1 = dp_threads p ++ t /\ dp_extras p1 = dp_extras p).
    { destruct Hv as [[-> ->]|(Nv & u & -> & Hu)].
      - exists p. rewrite app_nil_r. auto.
      - exists (mkDP (dp_stitches p) (dp_threads p ++ [u]) (dp_extras p) (dp_x p) (dp_y p)). split; [|auto].
        unfold append_thread. destruct Hu as [->|Hu]; [reflexivity|].
        destruct v; try contradiction; try (rewrite Hu; reflexivity). cbn [set_thread] in Hu. inversion Hu; subst. reflexivity. }
    destruct A as (p1 & A1 & A2 & A3 & A4). unfold add_block.
    destruct (match v with VNone => (p, None) | _ => append_thread v p end) as [p0 e0]. inversion A1; subst p0 e0.
    pose proof (add_given b p1 N) as H. destruct (given b) as [| | | | |l| | | |]; try contradiction. destruct H as (E & H1 & _).
    destruct l as [|a l]; [contradiction H1; reflexivity|]. rewrite E. eexists. split; [reflexivity|].
    unfold append_command, with_stitches. cbn [dp_stitches dp_threads dp_extras]. rewrite A2, A3, A4, <- app_assoc.
    split; [reflexivity|]. split; [reflexivity|]. split; [reflexivity|]. cbn [dp_x dp_y].
    destruct (exists_last N) as (r & [[x y] c] & ->). rewrite !last_last. exists c. reflexivity.
Qed.
Print Assumptions C130_points.
Example C130_case :
  let p := mkDP [(VInt 1, VInt 1, VInt STITCH)] [] [] (VInt 1) (VInt 1) in
  given (Points [(NInt 0, NInt 0, None); (NFloat (1 # 2), NInt 3, Some JUMP)]) = VSeq [VSeq [VInt 0; VInt 0]; VSeq [VFloat (1 # 2); VInt 3; VInt JUMP]] /\
  fst (add_block p (VSeq [VInt 0; VInt 5; VFloat (5 # 2); VInt 5]) (VStr (text_of "red"))) =
    mkDP [(VInt 1, VInt 1, VInt STITCH); (VInt 0, VInt 5, VInt STITCH); (VFloat (5 # 2), VInt 5, VInt STITCH); (VInt 0, VInt 0, VInt COLOR_BREAK)]
      [set_color (VInt 0xFF0000) new_thread] [] (VFloat (5 # 2)) (VInt 5).
Proof. vm_compute. auto. Qed.

(** ** C131: += gives the pattern back and does all or nothing *)
(** Refuted: the empty list leaves None in the variable, an odd list of numbers adds all but the last and
    raises IndexError, and a bad command stored before makes adding a thread raise TypeError after the
    thread was added. *)
Theorem C131_iadd_refuted :
  (exists p, iadd p (VSeq []) = (p, ReturnedNone)) /\
  (exists p p', iadd p (VSeq [VInt 1; VInt 2; VInt 3]) = (p', Raised IndexError) /\ dp_stitches p' = dp_stitches p ++ [(VInt 1, VInt 2, VInt STITCH)]) /\
  (exists p p', fst (iadd (mkDP [] [] [] (VInt 0) (VInt 0)) (VSeq [VSeq [VInt 0; VInt 0; VStr (text_of "STITCH")]])) = p /\
     iadd p (VStr (text_of "red")) = (p', Raised TypeError) /\ dp_threads p' = dp_threads p ++ [set_color (VInt 0xFF0000) new_thread]).
Proof.
  split; [exists (mkDP [] [] [] (VInt 0) (VInt 0)); reflexivity|].
  split; [exists (mkDP [] [] [] (VInt 0) (VInt 0)); eexists; split; reflexivity|].
  do 2 eexists. split; [reflexivity|]. split; vm_compute; reflexivity.
Qed.
Lemma prefix_refl : forall A (l : list A), exists m, l = l ++ m.
Proof. intros. exists []. rewrite app_nil_r. reflexivity. Qed.
Definition grows (p p' : dpat) : Prop :=
  (exists s, dp_stitches p' = dp_stitches p ++ s) /\ (exists t, dp_threads p' = dp_threads p ++ t).
Lemma grows_refl : forall p, grows p p.
Proof. intros p. split; apply prefix_refl. Qed.
Lemma grows_trans : forall p q r, grows p q -> grows q r -> grows p r.
Proof.
  intros p q r [[s Hs] [t Ht]] [[s' Hs'] [t' Ht']]. rewrite Hs, <- app_assoc in Hs'. rewrite Ht, <- app_assoc in Ht'. split; eauto.
Qed.
Lemma grows_absolute : forall c x y p, grows p (append_absolute c x y p).
Proof. intros. split; [eexists; reflexivity|apply prefix_refl]. Qed.
Lemma grows_thread : forall v p, grows p (fst (append_thread v p)).
Proof.
  intros v p. unfold append_thread. assert (G : forall t, grows p (mkDP (dp_stitches p) (dp_threads p ++ [t]) (dp_extras p) (dp_x p) (dp_y p))).
  { intros u. split; [apply prefix_refl|eexists; reflexivity]. }
  destruct v; try apply G; destruct (set_thread new_thread _) as [? [e|]]; cbn [fst]; try apply G; apply grows_refl.
Qed.
Lemma grows_sequence : forall l p, grows p (fst (add_sequence l p)).
Proof.
  assert (A : forall l p, grows p (fst (add_points l p))).
  { induction l as [|v l IH]; intros p; cbn [add_points]; [apply grows_refl|]. destruct (triple v) as [[[x y] c]|e]; [|apply grows_refl].
    eapply grows_trans; [apply grows_absolute|apply IH]. }
  assert (B : forall l p, grows p (fst (add_complex l p))).
  { induction l as [|v l IH]; intros p; cbn [add_complex]; [apply grows_refl|]. destruct (parts v) as [[x y]|e]; [|apply grows_refl].
    eapply grows_trans; [apply grows_absolute|apply IH]. }
  assert (C : forall n l p, (List.length l <= n)%nat -> grows p (fst (add_numbers l p))).
  { induction n as [|n IH]; intros [|x [|y l]] p L; cbn [add_numbers]; try apply grows_refl; [cbn [List.length] in L; lia|].
    eapply grows_trans; [apply grows_absolute|]. apply IH. cbn [List.length] in L. lia. }
  intros l p. unfold add_sequence. destruct l as [|v l]; [apply grows_refl|]. destruct v; try apply grows_refl; eauto.
Qed.
(** What is true of every value: stitches and threads are only added at the end. *)
Theorem C131_only_adds_partial : forall p v,
  (exists s, dp_stitches (fst (iadd p v)) = dp_stitches p ++ s) /\ (exists t, dp_threads (fst (iadd p v)) = dp_threads p ++ t) /\
  (forall b, (exists s, dp_stitches (fst (add_block p b v)) = dp_stitches p ++ s) /\ (exists t, dp_threads (fst (add_block p b v)) = dp_threads p ++ t)).
Proof.
  intros p v.
  assert (H : grows p (fst (iadd p v))).
  { unfold iadd.
    assert (T : grows p (fst match append_thread v p with (p, Some e) => (p, Raised e) | (p, None) =>
          match any_sewn (dp_stitches p) with Err e => (p, Raised e) | Ok false => (p, Returned)
          | Ok true => match append_color_change p with Ok p' => (p', Returned) | Err e => (p, Raised e) end end end)).
    { pose proof (grows_thread v p) as G. destruct (append_thread v p) as [p1 [e|]]; [exact G|]. cbn [fst] in G.
      destruct (any_sewn (dp_stitches p1)) as [[|]|e]; try exact G. unfold append_color_change.
      destruct (plus_zero (dp_x p1)) as [x|]; cbn [bindr]; [|exact G]. destruct (plus_zero (dp_y p1)) as [y|]; cbn [bindr]; [|exact G].
      eapply grows_trans; [exact G|apply grows_absolute]. }
    destruct v as [| | | | |l| | | |]; try exact T; try apply grows_refl; try (split; [eexists; reflexivity|apply prefix_refl]).
    destruct l as [|a l]; [apply grows_refl|].
    assert (S : grows p (fst (let (p, e) := add_sequence (a :: l) p in (p, outcome_of e)))).
    { pose proof (grows_sequence (a :: l) p) as G. destruct (add_sequence (a :: l) p) as [p1 e]. exact G. }
    destruct a; try exact S. destruct l; [apply grows_refl|split; apply prefix_refl]. }
  destruct H as [H1 H2]. split; [exact H1|]. split; [exact H2|]. intros b.
  change (grows p (fst (add_block p b v))). unfold add_block.
  assert (G : grows p (fst match v with VNone => (p, None) | _ => append_thread v p end)).
  { pose proof (grows_thread v p). destruct v; try assumption. apply grows_refl. }
  destruct (match v with VNone => (p, None) | _ => append_thread v p end) as [p1 [e|]]; cbn [fst] in G; [exact G|].
  assert (C : forall q, grows q (append_command (VInt COLOR_BREAK) (VInt 0) (VInt 0) q)) by (intros q; split; [eexists; reflexivity|apply prefix_refl]).
  destruct b as [| | | | |l| | | |]; try exact G; try (eapply grows_trans; [exact G|apply C]).
  destruct l as [|a l]; [exact G|]. pose proof (grows_sequence (a :: l) p1) as S. destruct (add_sequence (a :: l) p1) as [p2 [e|]]; cbn [fst] in *.
  - eapply grows_trans; [exact G|exact S].
  - eapply grows_trans; [exact G|]. eapply grows_trans; [exact S|apply C].
Qed.
(** And with a colour text or a thread, a colour change follows at the position if anything is sewn. *)
Theorem C131_add_color : forall p c s, color_text c s -> Forall (fun a => exists k, snd a = VInt k) (dp_stitches p) ->
  (exists n m, dp_x p = VInt n /\ dp_y p = VInt m) ->
  iadd p (VStr s) =
    (mkDP (dp_stitches p ++ if existsb (fun a => match snd a with VInt k => (cmd_of k =? STITCH) || (cmd_of k =? SEW_TO) || (cmd_of k =? NEEDLE_AT) | _ => false end) (dp_stitches p)
                            then [(dp_x p, dp_y p, VInt COLOR_CHANGE)] else [])
       (dp_threads p ++ [set_color (VInt c) new_thread]) (dp_extras p) (dp_x p) (dp_y p), Returned).
Proof.
  intros p c s H F (n & m & Ex & Ey). unfold iadd, append_thread. rewrite (proj1 (C127_color_text c s new_thread H)). cbn [dp_stitches].
  assert (A : any_sewn (dp_stitches p) = Ok (existsb (fun a => match snd a with VInt k => (cmd_of k =? STITCH) || (cmd_of k =? SEW_TO) || (cmd_of k =? NEEDLE_AT) | _ => false end) (dp_stitches p))).
  { induction F as [|[[x y] v] l [k Hk] _ IH]; [reflexivity|]. cbn [snd] in Hk. subst v. cbn [any_sewn existsb snd].
    destruct ((cmd_of k =? STITCH) || (cmd_of k =? SEW_TO) || (cmd_of k =? NEEDLE_AT)); [reflexivity|exact IH]. }
  rewrite A. destruct (existsb _ (dp_stitches p)).
  - unfold append_color_change. cbn [dp_x dp_y]. rewrite Ex, Ey. reflexivity.
  - rewrite app_nil_r. reflexivity.
Qed.
Print Assumptions C131_iadd_refuted.
Print Assumptions C131_only_adds_partial.
Print Assumptions C131_add_color.

(** ** C132: equality of threads *)
(** Between threads, equality is an equivalence, equal threads have the same hash, and equality means the same
    24 bits of colour and the same texts. *)
Lemma otext_eqb_iff : forall a b, otext_eqb a b = true <-> a = b.
Proof.
  intros [a|] [b|]; cbn [otext_eqb]; split; intros H; try discriminate; try reflexivity.
  - apply text_eqb_iff in H. congruence.
  - inversion H. apply text_eqb_iff. reflexivity.
Qed.
Theorem C132_equality : forall a b,
  (thread_eqb a b = true <-> t_color a mod 2 ^ 24 = t_color b mod 2 ^ 24 /\
     (t_description a, t_catalog a, t_details a, t_brand a, t_chart a, t_weight a) =
     (t_description b, t_catalog b, t_details b, t_brand b, t_chart b, t_weight b)) /\
  (thread_eqb a b = true -> thread_hash a = thread_hash b).
Proof.
  intros a b. assert (I : thread_eqb a b = true <-> t_color a mod 2 ^ 24 = t_color b mod 2 ^ 24 /\
     (t_description a, t_catalog a, t_details a, t_brand a, t_chart a, t_weight a) =
     (t_description b, t_catalog b, t_details b, t_brand b, t_chart b, t_weight b)).
  { unfold thread_eqb. rewrite !andb_true_iff, !otext_eqb_iff, Z.eqb_eq, !land_ffffff. split.
    - intros ((((((H1 & ->) & ->) & ->) & ->) & ->) & ->). split; [exact H1|reflexivity].
    - intros [H1 H2]. inversion H2. tauto. }
  split; [exact I|]. intros E. apply I in E as [E _]. unfold thread_hash. rewrite !land_ffffff. exact E.
Qed.
(** With numbers and texts it is not: two different threads equal the same colour, and the hash of a text is not that of the
    thread it equals (any hash of texts would have to map both spellings to one number). *)
Theorem C132_mixed_refuted : exists a b n s s',
  eq_value a (VInt n) = Ok (Some true) /\ eq_value b (VInt n) = Ok (Some true) /\ thread_eqb a b = false /\
  eq_value a (VStr s) = Ok (Some true) /\ eq_value a (VStr s') = Ok (Some true) /\ s <> s'.
Proof.
  exists (mkT 0xFF0000 (Some (text_of "Poppy")) None None None None None), (plain_thread 0xFF0000), 0xFF0000, (text_of "red"), (text_of "RED").
  repeat (split; [vm_compute; reflexivity|]). discriminate.
Qed.
Print Assumptions C132_equality.
Print Assumptions C132_mixed_refuted.

(** ** C133: designs of blocks *)
(** Adding blocks one after another, each with its thread, gives a pattern whose colour blocks are those blocks
    with those threads. *)
Definition stored (s : stitch val) : val * val * val := (sx s, sy s, VInt (scmd s)).
(** A list of points that does not itself change the colour. *)
Definition one_color (b : points) : Prop :=
  meant b <> [] /\ Forall (fun a => forall k, snd a = VInt k -> ~ In (cmd_of k) [COLOR_BREAK; COLOR_CHANGE; NEEDLE_SET]) (meant b).
(** The value stands for the thread. *)
Definition stands_for (v : val) (t : dthread) : Prop := v <> VNone /\ (v = VThread t \/ set_thread new_thread v = (t, None)).
Definition empty_dpat : dpat := mkDP [] [] [] (VInt 0) (VInt 0).
Definition typed (a : val * val * val) : stitch val := mkS (fst (fst a)) (snd (fst a)) (match snd a with VInt k => k | _ => 0 end).

Lemma meant_typed : forall b, map stored (map typed (meant b)) = meant b.
Proof.
  assert (G : forall l, Forall (fun a : val * val * val => exists k, snd a = VInt k) l -> map stored (map typed l) = l).
  { induction 1 as [|[[x y] v] l [k Hk] _ IH]; [reflexivity|]. cbn [snd] in Hk. subst v. cbn [map]. rewrite IH. reflexivity. }
  intros b. apply G. destruct b as [l|l|l]; cbn [meant]; apply Forall_map; apply Forall_forall; intros e _.
  - destruct e as [[x y] [c|]]; eexists; reflexivity.
  - destruct e as [x y]. eexists. reflexivity.
  - destruct e as [x y]. eexists. reflexivity.
Qed.
Theorem C133_blocks : forall (blocks : list (points * val)) threads,
  Forall (fun b => one_color (fst b)) blocks -> Forall2 stands_for (map snd blocks) threads ->
  let p := fold_left (fun p b => fst (add_block p (given (fst b)) (snd b))) blocks empty_dpat in
  dp_threads p = threads /\
  exists l : list (stitch val), dp_stitches p = map stored l /\
    forall filler, get_as_colorblocks (get_thread_or_filler filler threads) l =
      combine (map (fun b => map typed (meant (fst b))) blocks) threads.
Proof.
  intros blocks threads H1 H2.
  assert (G : forall bs ts p, Forall (fun b => one_color (fst b)) bs -> Forall2 stands_for (map snd bs) ts ->
    let q := fold_left (fun p b => fst (add_block p (given (fst b)) (snd b))) bs p in
    dp_threads q = dp_threads p ++ ts /\
    dp_stitches q = dp_stitches p ++ flat_map (fun b => meant (fst b) ++ [(VInt 0, VInt 0, VInt COLOR_BREAK)]) bs).
  { induction bs as [|[b v] bs IH]; intros ts p F1 F2; cbn [map snd fst] in *.
    - inversion F2; subst. cbn [fold_left flat_map]. rewrite !app_nil_r. auto.
    - inversion F2 as [|? t ? ts' [Nv Hv] F2']; subst. inversion F1 as [|? ? [Nb _] F1']; subst. cbn [fst] in Nb.
      destruct (C130_points p b Nb) as [_ A]. destruct (A v [t]) as (p' & E & S1 & S2 & _); [right; split; [exact Nv|exists t; auto]|].
      cbn [fold_left fst snd]. rewrite E. cbn [fst]. destruct (IH ts' p' F1' F2') as [B1 B2]. rewrite B1, B2, S1, S2, <- !app_assoc. split; [reflexivity|].
      cbn [flat_map fst]. rewrite <- app_assoc. reflexivity. }
  intros p. destruct (G blocks threads empty_dpat H1 H2) as [G1 G2]. fold p in G1, G2. cbn [empty_dpat dp_threads dp_stitches app] in G1, G2.
  split; [exact G1|].
  set (brk := mkS (VInt 0) (VInt 0) COLOR_BREAK). set (bs := map (fun b : points * val => map typed (meant (fst b))) blocks).
  exists (flat_map (fun b => b ++ [brk]) bs). split.
  - rewrite G2. subst bs. clear. induction blocks as [|[b v] bs IH]; [reflexivity|]. cbn [flat_map map fst]. rewrite !map_app, IH, meant_typed. reflexivity.
  - intros filler. rewrite colorblocks_cblocks.
    rewrite (cblocks_breaks _ _ (get_thread_or_filler filler threads) (fun _ => brk) bs 0).
    + f_equal. assert (L : List.length bs = List.length threads).
      { assert (L2 : List.length (map snd blocks) = List.length threads) by (clear - H2; induction H2; cbn [List.length]; congruence).
        rewrite map_length in L2. subst bs. rewrite map_length. exact L2. }
      rewrite L. clear. assert (K : forall pre, map (fun i => get_thread_or_filler filler (pre ++ threads) (0 + Z.of_nat (List.length pre + i))) (seq 0 (List.length threads)) = threads).
      { induction threads as [|t ts IH]; intros pre; [reflexivity|]. cbn [List.length seq map]. f_equal.
        - unfold get_thread_or_filler. rewrite Z.add_0_l, Nat2Z.id, Nat.add_0_r, nth_error_app2, Nat.sub_diag by lia. reflexivity.
        - rewrite <- (IH (pre ++ [t])) at 2. rewrite <- seq_shift, map_map. apply map_ext. intros i. rewrite <- app_assoc, app_length. cbn [app List.length].
          f_equal. lia. }
      exact (K []).
    + reflexivity.
    + subst bs. clear - H1. induction H1 as [|[b v] bs [N U] _ IH]; cbn [map fst] in *; constructor; [|exact IH]. split.
      * intros E. apply map_eq_nil in E. contradiction.
      * rewrite Forall_map. assert (K : Forall (fun a => exists k, snd a = VInt k) (meant b)).
        { clear. destruct b as [l|l|l]; cbn [meant]; apply Forall_map; apply Forall_forall; intros e _.
          - destruct e as [[x y] [c|]]; eexists; reflexivity.
          - destruct e as [x y]. eexists. reflexivity.
          - destruct e as [x y]. eexists. reflexivity. }
        rewrite Forall_forall in *. intros a Ia. destruct (K a Ia) as [k Hk]. unfold uncut, typed. cbn [scmd]. rewrite Hk. exact (U a Ia k Hk).
Qed.
Print Assumptions C133_blocks.
Example C133_case :
  let blocks := [(Points [(NInt 0, NInt 0, None); (NInt 0, NInt 100, None); (NInt 9, NInt 9, Some JUMP)], VStr (text_of "red"));
                 (Numbers [(NInt 0, NInt 0); (NFloat (1 # 2), NInt 7)], VInt 0x00FF00)] in
  Forall (fun b => one_color (fst b)) blocks /\
  Forall2 stands_for (map snd blocks) [set_color (VInt 0xFF0000) new_thread; set_color (VInt 0x00FF00) new_thread].
Proof.
  cbv zeta. split.
  - repeat constructor; cbn; try discriminate; intros k E; inversion E; subst; cbn; intros [H|[H|[H|[]]]]; discriminate.
  - repeat (constructor; [split; [discriminate|right; vm_compute; reflexivity]|]). constructor.
Qed.

(** ** C134: stable patterns *)
Section Stable.
Context {T : Type} (same : T -> T -> bool) (Hsame : forall a b, same a b = true <-> a = b).
(** Every stitch with the thread of its block. *)
Definition sewn_with (blocks : list (list (stitch Q) * T)) : list (stitch Q * T) :=
  flat_map (fun b => map (fun s => (s, snd b)) (filter (fun s => cmd_of (scmd s) =? STITCH) (fst b))) blocks.
(** The stable form of a pattern consists of stitches, colour breaks and sequence breaks; its stitches are those
    of the pattern in order, and by its own colour blocks and threads each is sewn with the thread that the
    stitch blocks of the pattern say. *)
Theorem C134_stable : forall get filler (p : PatternModel.pattern T Q),
  let q := get_stable_pattern same get p in
  filter (fun s => cmd_of (scmd s) =? STITCH) (p_stitches q) = filter (fun s => cmd_of (scmd s) =? STITCH) (p_stitches p) /\
  Forall (fun s => cmd_of (scmd s) = STITCH \/ scmd s = COLOR_BREAK \/ scmd s = SEQUENCE_BREAK) (p_stitches q) /\
  sewn_with (get_as_colorblocks (get_thread_or_filler filler (p_threads q)) (p_stitches q)) =
  sewn_with (get_as_stitchblock get (p_stitches p)).
Proof.
  intros get filler p q. destruct (stable_pattern same Hsame get p) as (out & Eo & Et & So). fold q in Eo, Et.
  pose proof (blocks_plain get (p_stitches p)) as P. destruct (stable_kept same None _ _ So P) as [K1 K2].
  rewrite Eo. split.
  - rewrite K1. destruct (PatternProofs.stitchblocks_spec get (p_stitches p) [] 0) as (cut & H1 & H2); [constructor|].
    change (0 + 1) with 1 in H2. unfold get_as_stitchblock. rewrite H2, map_map. cbn [fst]. cbn [app] in H1.
    apply PatternProofs.stitch_cut_concat with 0. exact H1.
  - split; [exact K2|]. rewrite colorblocks_cblocks.
    pose proof (stable_colors same Hsame (get_thread_or_filler filler (p_threads q)) _ None out So P [] 0 eq_refl) as C.
    cbn [app] in C. apply C. intros i. rewrite Et. destruct (nth_error (stable_threads same None (get_as_stitchblock get (p_stitches p))) i) as [t|] eqn:E; [|auto].
    right. unfold get_thread_or_filler. rewrite Z.add_0_l, Nat2Z.id, E. reflexivity.
Qed.
End Stable.
(** The comparison of the theorem can be had: threads of 24-bit colours are told apart by their colour. The pattern
    here has three blocks in two threads. *)
Example C134_case : (forall a b, Z.eqb a b = true <-> a = b) /\
  let p := mkP [mkS 0 0 STITCH; mkS 3 0 STITCH; mkS 3 0 TRIM; mkS 9 0 JUMP; mkS 9 1 STITCH; mkS 0 0 COLOR_CHANGE; mkS 5 0 STITCH]%Q [10; 20] 0%Q 0%Q in
  let q := get_stable_pattern Z.eqb (get_thread_or_filler (fun i => - i) (p_threads p)) p in
  map scmd (p_stitches q) = [COLOR_BREAK; STITCH; STITCH; SEQUENCE_BREAK; STITCH; COLOR_BREAK; STITCH] /\ p_threads q = [10; 20].
Proof. split; [exact Z.eqb_eq|vm_compute; auto]. Qed.
(** ** C135: the stable form is stable *)
(** Refuted: the stable form of a stable pattern has lost the threads after the first. *)
Theorem C135_stable_again_refuted : exists p : PatternModel.pattern Z Q,
  let stable p := get_stable_pattern Z.eqb (get_thread_or_filler (fun i => - i) (p_threads p)) p in
  p_threads (stable p) = [10; 20] /\ p_threads (stable (stable p)) = [10] /\
  map snd (sewn_with (get_as_colorblocks (get_thread_or_filler (fun i => - i) (p_threads (stable p))) (p_stitches (stable p)))) = [10; 20] /\
  map snd (sewn_with (get_as_colorblocks (get_thread_or_filler (fun i => - i) (p_threads (stable (stable p)))) (p_stitches (stable (stable p))))) = [10; 10].
Proof. exists (mkP [mkS 0 0 STITCH; mkS 0 0 COLOR_CHANGE; mkS 5 0 STITCH]%Q [10; 20] 0%Q 0%Q). vm_compute. auto. Qed.
Print Assumptions C134_stable.
Print Assumptions C135_stable_again_refuted.
