(** Properties C30-C32 and C59-C62: which changes to one pattern show in another. *)
From Coq Require Import ZArith QArith List Bool Lia Arith.
From Verif Require Import PyBase EmbConst NumModel NumQ ThreadModel EncoderModel PatternModel HeapModel PatternSpec
  HeapSpec HeapProofs HeapOpsProofs JoinProofs JoinColourProofs PropertiesEncoder.
Import ListNotations.
Open Scope Z_scope.

(** ** C30 *)

Lemma normalized_apart {T C} (zero : C) enc (w w' : @world T C) p q ss ts ex x y :
  sound w -> NoDup (map fst ex) -> shows w p ss ts ex x y ->
  get_normalized_pattern zero enc w p = Ok (w', q) ->
  sound w' /\ (forall r, (r < length (w_pats w))%nat -> seen w' r = seen w r /\ apart w' q r) /\
  exists out ts', enc ss ts = Ok (out, ts') /\ shows w' q out ts' ex zero zero.
Proof.
  intros Hs Hn Hsh H.
  destruct (normalized_spec _ _ _ _ _ _ _ _ _ _ _ Hs Hn Hsh H) as (out & ts' & E & Q & A & B).
  assert (Hold : forall r, (r < length (w_pats w))%nat -> nth_error (w_pats w') r = nth_error (w_pats w) r).
  { intros r Hr. rewrite B. apply nth_error_app1, Hr. }
  assert (Hnew : nth_error (w_pats w') q = Some (mkHP (seq (length (w_cells w)) (length out)) ts' ex zero zero)).
  { rewrite B, Q, nth_error_app2, Nat.sub_diag by lia. reflexivity. }
  split; [|split].
  - intros r h Hr. rewrite A, app_length. destruct (Nat.lt_ge_cases r (length (w_pats w))) as [L|L].
    + rewrite Hold in Hr by exact L. eapply Forall_impl; [|apply (Hs _ _ Hr)]. cbn. intros; lia.
    + assert (r = q). { apply nth_lt in Hr. rewrite B, app_length in Hr. cbn in Hr. lia. }
      subst r. rewrite Hnew in Hr. injection Hr as <-. cbn. apply Forall_forall. intros l Hl.
      apply in_seq in Hl. lia.
  - intros r Hr. split.
    + apply seen_ext; [apply Hold, Hr|]. intros l Hl. rewrite A. apply nth_error_app1.
      eapply sound_objects; eassumption.
    + split; [lia|]. intros l Hl. unfold objects in Hl. rewrite Hnew in Hl. cbn in Hl. apply in_seq in Hl.
      rewrite (objects_ext w w') by (apply Hold, Hr). intros Hin. pose proof (sound_objects _ _ _ Hs Hin). lia.
  - exists out, ts'. split; [exact E|]. unfold shows, seen. rewrite Hnew. cbn. rewrite A, new_cells. reflexivity.
Qed.

(** Whatever objects the patterns of the program share, whatever the settings and whatever
    arithmetic is used: encoding pattern [p] leaves every existing pattern, [p] included, as it
    was; the result is the encoding of [p] with its metadata; and no later sequence of edits of
    the result, in place or not, shows in any pattern that existed before. *)
Theorem C30_encoding_keeps_source : forall (N : Num) (set : settings N) rnd
    (w w' : @world thread (F N)) p q ss ts ex x y,
  sound w -> NoDup (map fst ex) -> shows w p ss ts ex x y ->
  get_normalized_pattern (f0 N) (encoder N set rnd) w p = Ok (w', q) ->
  (forall r, (r < length (w_pats w))%nat -> seen w' r = seen w r)
  /\ (exists out ts', encoder N set rnd ss ts = Ok (out, ts') /\ shows w' q out ts' ex (f0 N) (f0 N))
  /\ forall es w'', apply_edits (f0 N) w' q es = Ok w'' ->
       forall r, (r < length (w_pats w))%nat -> seen w'' r = seen w r.
Proof.
  intros N set rnd w w' p q ss ts ex x y Hs Hn Hsh H.
  pose proof (normalized_spec _ _ _ _ _ _ _ _ _ _ _ Hs Hn Hsh H) as (o1 & o2 & _ & _ & _ & B).
  destruct (normalized_apart _ _ _ _ _ _ _ _ _ _ _ Hs Hn Hsh H) as (S & O & R).
  split; [intros r Hr; apply O, Hr|]. split; [exact R|].
  intros es w'' He r Hr. destruct (O r Hr) as [V A].
  assert (Hr' : (r < length (w_pats w'))%nat) by (rewrite B, app_length; lia).
  destruct (edits_apart _ es _ _ _ _ S A Hr' He) as (_ & _ & V2). congruence.
Qed.

(** The other direction: edits of the source after encoding do not show in the result. *)
Theorem C30_encoded_keeps_result : forall (N : Num) (set : settings N) rnd
    (w w' : @world thread (F N)) p q ss ts ex x y,
  sound w -> NoDup (map fst ex) -> shows w p ss ts ex x y ->
  get_normalized_pattern (f0 N) (encoder N set rnd) w p = Ok (w', q) ->
  forall es w'', apply_edits (f0 N) w' p es = Ok w'' -> seen w'' q = seen w' q.
Proof.
  intros N set rnd w w' p q ss ts ex x y Hs Hn Hsh H es w'' He.
  destruct (normalized_spec _ _ _ _ _ _ _ _ _ _ _ Hs Hn Hsh H) as (o1 & o2 & _ & Q & _ & B).
  destruct (normalized_apart _ _ _ _ _ _ _ _ _ _ _ Hs Hn Hsh H) as (S & O & R).
  destruct (shows_pat _ _ _ _ _ _ _ Hsh) as (_ & _ & _ & Hp).
  destruct (O p Hp) as [_ [A1 A2]].
  assert (A : apart w' p q) by (split; [congruence|]; intros l H1 H2; exact (A2 _ H2 H1)).
  assert (Hq : (q < length (w_pats w'))%nat) by (rewrite B, app_length, Q; cbn; lia).
  destruct (edits_apart _ es _ _ _ _ S A Hq He) as (_ & _ & V). exact V.
Qed.

Definition blue : thread := mkT 255 None None None None None None.
Definition cell (x y c : Z) : stitch Q := mkS (inject_Z x) (inject_Z y) c.
(** One pattern of three stitches and a copy of it: all objects shared. *)
Definition w_two : @world thread Q :=
  mkW [cell 0 0 STITCH; cell 10 0 STITCH; cell 20 0 END]
      [mkHP [0; 1; 2]%nat [blue] [(7, 9)] 20%Q 0%Q; mkHP [0; 1; 2]%nat [blue] [(7, 9)] 20%Q 0%Q].
Example C30_case :
  sound w_two /\ shows w_two 0 (w_cells w_two) [blue] [(7, 9)] 20%Q 0%Q
  /\ exists w' q, get_normalized_pattern 0%Q (encoder ExNum no_settings (fun _ => blue)) w_two 0 = Ok (w', q)
     /\ q = 2%nat /\ length (objects w' q) = 3%nat.
Proof.
  split; [|split].
  - intros [|[|[|p]]] h H; try discriminate; injection H as <-; cbn; repeat constructor.
  - reflexivity.
  - eexists _, _. split; [vm_compute; reflexivity|]. split; reflexivity.
Qed.

(** ** C31 *)

Section Copy.
Context {T C : Type} (zero : C).
Implicit Types w : @world T C.

Lemma copy_spec w w' p q h : copy zero w p = Ok (w', q) -> pat_of w p = Ok h ->
  w_cells w' = w_cells w /\ q = length (w_pats w) /\
  w_pats w' = w_pats w ++ [mkHP (hp_stitches h) (hp_threads h) (dict_update [] (hp_extras h)) (hp_x h) (hp_y h)].
Proof.
  intros H Hp. unfold copy in H. rewrite Hp in H. cbn [bindr new_pattern] in H. injection H as <- <-.
  cbn [set_pat w_cells w_pats]. split; [reflexivity|]. split; [reflexivity|].
  unfold put. rewrite nth_error_app2, Nat.sub_diag by lia. cbn [nth_error].
  rewrite firstn_app, firstn_all, Nat.sub_diag. cbn [firstn]. rewrite app_nil_r. f_equal.
  rewrite skipn_all2 by (rewrite app_length; cbn; lia). reflexivity.
Qed.
Lemma copy_sound w w' p q : sound w -> copy zero w p = Ok (w', q) ->
  sound w' /\ grows w w' /\ (length (w_pats w') = S (length (w_pats w)))%nat /\ q = length (w_pats w) /\
  (forall r, (r < length (w_pats w))%nat -> nth_error (w_pats w') r = nth_error (w_pats w) r).
Proof.
  intros Hs H. destruct (pat_of w p) as [h|] eqn:Hp; [|unfold copy in H; rewrite Hp in H; discriminate].
  destruct (copy_spec _ _ _ _ _ H Hp) as (A & Q & B).
  split; [|split; [split; [rewrite A; auto|intros; rewrite A; auto]|split; [rewrite B, app_length; cbn; lia|split; [exact Q|]]]].
  - intros r k Hr. rewrite A. rewrite B in Hr. destruct (Nat.lt_ge_cases r (length (w_pats w))).
    + rewrite nth_error_app1 in Hr by assumption. apply (Hs _ _ Hr).
    + rewrite nth_error_app2 in Hr by assumption. destruct (r - length (w_pats w))%nat as [|i].
      * cbn in Hr. injection Hr as <-. apply (sound_pat _ _ _ Hs Hp).
      * cbn in Hr. destruct i; discriminate.
  - intros r Hr. rewrite B. apply nth_error_app1, Hr.
Qed.
End Copy.

(** A copy looks like the original, and the original is not changed by copying. *)
Theorem C31_copy_equal : forall T C (zero : C) (w w' : @world T C) p q ss ts ex x y,
  sound w -> NoDup (map fst ex) -> shows w p ss ts ex x y -> copy zero w p = Ok (w', q) ->
  shows w' q ss ts ex x y /\ forall r, (r < length (w_pats w))%nat -> seen w' r = seen w r.
Proof.
  intros T C zero w w' p q ss ts ex x y Hs Hn Hsh H.
  destruct (shows_pat _ _ _ _ _ _ _ Hsh) as (ls & Hp & Hc & Hl).
  destruct (copy_spec _ _ _ _ _ _ H Hp) as (A & Q & B). cbn [hp_stitches hp_threads hp_extras hp_x hp_y] in B.
  destruct (copy_sound _ _ _ _ _ Hs H) as (S & [_ G] & _ & _ & O).
  split.
  - unfold shows, seen. rewrite B, Q, nth_error_app2, Nat.sub_diag by lia. rewrite dict_copy by exact Hn.
    cbn [nth_error hp_stitches hp_threads hp_extras hp_x hp_y]. rewrite A. apply contents_seen in Hc. rewrite Hc. reflexivity.
  - intros r Hr. apply seen_ext; [apply O, Hr|]. intros l Hin. apply G. eapply sound_objects; eassumption.
Qed.

(** Adding, inserting, replacing and removing stitches, threads or metadata of the copy does not
    show in the original, nor the other way round. *)
Theorem C31_copy_independent_partial : forall T C (zero : C) (w w' w'' : @world T C) p q es,
  sound w -> (p < length (w_pats w))%nat -> copy zero w p = Ok (w', q) -> Forall structural es ->
  (apply_edits zero w' q es = Ok w'' -> seen w'' p = seen w p)
  /\ (apply_edits zero w' p es = Ok w'' -> seen w'' q = seen w' q).
Proof.
  intros T C zero w w' w'' p q es Hs Hp H He.
  destruct (copy_sound _ _ _ _ _ Hs H) as (S & [G1 G2] & L & Q & O).
  split; intros E; destruct (structural_edits _ _ _ _ _ S He E) as (S2 & Gr & Ot).
  - transitivity (seen w' p).
    + apply (seen_frame w' w'' q p S Gr Ot); lia.
    + apply seen_ext; [apply O, Hp|]. intros l Hin. apply G2. eapply sound_objects; eassumption.
  - apply (seen_frame w' w'' p q S Gr Ot); lia.
Qed.

(** But the stitches are the same objects: translating the copy moves the original too. *)
Definition w_one : @world Z Z := mkW [mkS 0 0 STITCH; mkS 10 0 STITCH] [mkHP [0; 1]%nat [1] [] 10 0].
Theorem C31_translate_copy_refuted : exists (w w' w'' : @world Z Z) q,
  sound w /\ copy 0 w 0 = Ok (w', q) /\ translate Z.add w' q 5 0 = Ok w'' /\ seen w'' 0 <> seen w 0.
Proof.
  exists w_one. eexists _, _, _. split; [|split; [|split]].
  - intros [|[|p]] h H; try discriminate. injection H as <-. cbn. repeat constructor.
  - vm_compute. reflexivity.
  - vm_compute. reflexivity.
  - vm_compute. discriminate.
Qed.
Example C31_case : exists w' w'', copy 0 w_one 0 = Ok (w', 1%nat)
  /\ apply_edits 0 w' 1 [Insert 1 (mkS 3 3 TRIM); Delete 0 1; Replace 1 (mkS 4 4 JUMP); Threads [5; 6]] = Ok w''
  /\ seen w'' 1 = Some ([Some (mkS 3 3 TRIM); Some (mkS 4 4 JUMP)], [5; 6], [], 10, 0)
  /\ Forall (@structural Z Z) [Insert 1 (mkS 3 3 TRIM); Delete 0 1; Replace 1 (mkS 4 4 JUMP); Threads [5; 6]].
Proof.
  eexists _, _. split; [vm_compute; reflexivity|]. split; [vm_compute; reflexivity|]. split; [reflexivity|].
  repeat constructor.
Qed.

(** ** C32 *)

(** If nothing before the first sewn stitch of the added pattern changes the thread, adding
    leaves the added pattern and every pattern other than the one added to as they were. *)
Theorem C32_add_pattern_partial : forall T C (zero : C) plus (filler : Z -> T) teq (w w' : @world T C) p q
    sb tb eb xb yb dx dy sx sy rotate,
  sound w -> (p < length (w_pats w))%nat -> p <> q -> shows w q sb tb eb xb yb -> ~ leading_change sb ->
  add_pattern zero plus filler teq w p q dx dy sx sy rotate = Ok w' ->
  forall r, r <> p -> (r < length (w_pats w))%nat -> seen w' r = seen w r.
Proof.
  intros T C zero plus filler teq w w' p q sb tb eb xb yb dx dy sx sy rotate Hs Hp Hpq Vb Hn H r Hr Hl.
  destruct (add_pattern_frame _ _ _ _ _ _ _ _ _ _ _ _ _ _ _ _ _ _ Hs Hp Hpq Vb Hn H) as (_ & G & O).
  apply (seen_frame w w' p r Hs G O Hr Hl).
Qed.
(** p + q leaves both unchanged under the same condition. *)
Theorem C32_plus_partial : forall T C (zero : C) plus (filler : Z -> T) teq (w w' : @world T C) p q s
    sb tb eb xb yb,
  sound w -> (p < length (w_pats w))%nat -> shows w q sb tb eb xb yb -> ~ leading_change sb ->
  plus_pattern zero plus filler teq w p q = Ok (w', s) ->
  forall r, (r < length (w_pats w))%nat -> seen w' r = seen w r.
Proof.
  intros T C zero plus filler teq w w' p q s sb tb eb xb yb Hs Hp Vb Hn H r Hr.
  unfold plus_pattern in H. destruct (copy zero w p) as [[w1 k]|] eqn:E; [|discriminate]. cbn [bindr] in H.
  destruct (add_pattern zero plus filler teq w1 k q None None None None None) as [w2|] eqn:E2; [|discriminate].
  cbn [bindr] in H. injection H as <- <-.
  destruct (copy_sound _ _ _ _ _ Hs E) as (S & [G1 G2] & L & Q & O).
  destruct (shows_pat _ _ _ _ _ _ _ Vb) as (ls & Hq & Hc & Hlq).
  assert (V : forall i, (i < length (w_pats w))%nat -> seen w1 i = seen w i).
  { intros i Hi. apply seen_ext; [apply O, Hi|]. intros l Hin. apply G2. eapply sound_objects; eassumption. }
  rewrite <- (V r Hr).
  eapply (C32_add_pattern_partial T C zero plus filler teq w1 w2 k q sb tb eb xb yb); try eassumption; try lia.
  unfold shows. rewrite (V q Hlq). exact Vb.
Qed.
(** Otherwise the leading thread change of the added pattern itself is overwritten. *)
Definition w_add : @world Z Z :=
  mkW [mkS 0 0 STITCH; mkS 1 1 COLOR_CHANGE; mkS 2 2 STITCH]
      [mkHP [0]%nat [1] [] 0 0; mkHP [1; 2]%nat [2] [] 2 2].
Theorem C32_add_pattern_refuted : exists (w w' : @world Z Z),
  sound w /\ add_pattern 0 Z.add (fun _ => 0) Z.eqb w 0 1 None None None None None = Ok w'
  /\ seen w 1 = Some ([Some (mkS 1 1 COLOR_CHANGE); Some (mkS 2 2 STITCH)], [2], [], 2, 2)
  /\ seen w' 1 = Some ([Some (mkS 1 1 NO_COMMAND); Some (mkS 2 2 STITCH)], [2], [], 2, 2).
Proof.
  exists w_add. eexists. split; [|split; [|split]].
  - intros [|[|[|p]]] h H; try discriminate; injection H as <-; cbn; repeat constructor.
  - vm_compute. reflexivity.
  - reflexivity.
  - reflexivity.
Qed.

(** ** C59 *)

(** Joining keeps the colours.  Let pattern [p] (without its final END) have exactly one thread
    for each of its colour sections and end within a section, and pattern [q] have a thread for
    each of its sections; let them share no stitch object.  Then adding [q] to [p] succeeds, and
    the result sews the stitches of [p] with their threads, then those of [q] each with its own
    thread or one that compares equal to it. *)
Theorem C59_joined_colours : forall T C (zero : C) plus (filler : Z -> T) teq (w : @world T C) p q
    sa s ta ea xa ya sb tb eb xb yb outa outb nb ob dx dy sx sy rotate,
  sound w -> apart w p q -> NoDup (objects w q) ->
  shows w p (sa ++ [s]) ta ea xa ya -> shows w q sb tb eb xb yb -> tb <> [] ->
  coloured ta (if scmd s =? END then sa else sa ++ [s]) outa (Z.of_nat (length ta)) true ->
  coloured tb sb outb nb ob ->
  exists w' sj tj ej xj yj outb' nj oj,
    add_pattern zero plus filler teq w p q dx dy sx sy rotate = Ok w'
    /\ shows w' p sj tj ej xj yj
    /\ coloured tj sj (outa ++ outb') nj oj
    /\ Forall2 (fun a b => fst a = fst b /\ (snd a = snd b \/ teq (snd a) (snd b) = true)) outb outb'.
Proof.
  intros T C zero plus filler teq w p q sa s ta ea xa ya sb tb eb xb yb outa outb nb ob dx dy x y rotate
    Hs Hap Hnd Va Vb Htb Ha Hb.
  destruct tb as [|t tsb]; [contradiction|].
  destruct ta as [|u ts] using rev_ind; [pose proof (coloured_some _ _ _ _ Ha); cbn in *; lia|]. clear IHts.
  fold (without_end sa s) in Ha.
  pose proof (coloured_calm _ _ _ _ _ (placement_calm zero dx dy x y rotate) Ha) as Ha'.
  pose proof (coloured_fix filler _ _ _ _ _ Ha' (Z.le_refl _)) as Hfix.
  destruct (add_pattern_ok zero plus filler teq _ _ _ _ _ _ _ _ _ _ _ _ _ _ _ _ _ dx dy x y rotate Hs Hap Hnd Va Vb Hfix)
    as (w' & E & _ & V).
  destruct (colours_joined teq _ _ _ _ _ _ _ _ _ _ _ Ha' eq_refl Hb) as [K1 K2].
  destruct (teq t u) eqn:Et.
  - destruct (K1 eq_refl) as (outb' & n' & o' & K & F). eexists w', _, _, _, _, _, outb', n', o'.
    split; [exact E|]. split; [exact V|]. split; [exact K|exact F].
  - destruct (K2 (plus xa zero) (plus ya zero)) as (n' & o' & K). eexists w', _, _, _, _, _, outb, n', o'.
    split; [exact E|]. split; [exact V|]. split; [exact K|].
    clear. induction outb; constructor; auto.
Qed.
Example C59_case :
  sound w_add /\ apart w_add 0 1 /\ NoDup (objects w_add 1)
  /\ coloured [1] [@mkS Z 0 0 STITCH] [(mkS 0 0 STITCH, 1)] 1 true
  /\ coloured [2] [@mkS Z 1 1 COLOR_CHANGE; mkS 2 2 STITCH] [(mkS 2 2 STITCH, 2)] 1 true
  /\ exists w', add_pattern 0 Z.add (fun _ => 0) Z.eqb w_add 0 1 None None None None None = Ok w'
     /\ seen w' 0 = Some ([Some (mkS 0 0 STITCH); Some (mkS 0 0 COLOR_CHANGE); Some (mkS 1 1 NO_COMMAND);
                           Some (mkS 2 2 STITCH)], [1; 2], [], 0, 0).
Proof.
  assert (Sew : forall x y : Z, is_sewing (mkS x y STITCH)) by (intros; unfold is_sewing; cbn; auto).
  split; [|split; [|split; [|split; [|split]]]].
  - intros [|[|[|p]]] h H; try discriminate; injection H as <-; cbn; repeat constructor.
  - split; [discriminate|]. cbn. intuition congruence.
  - cbn. repeat constructor; cbn; intuition congruence.
  - exists [(mkS 0 0 STITCH, 0)], 0. split; [|split; [reflexivity|repeat constructor]].
    change 0 with (-1 + 1). apply in_first; [apply Sew|]. constructor.
  - exists [(mkS 2 2 STITCH, 0)], 0. split; [|split; [reflexivity|repeat constructor]].
    apply in_change; [unfold is_change; cbn; auto|].
    change 0 with (-1 + 1). apply in_first; [apply Sew|]. constructor.
  - eexists. split; vm_compute; reflexivity.
Qed.
(** With more threads than sections in the first pattern the second is sewn in wrong colours. *)
Definition w_spare : @world Z Z :=
  mkW [mkS 0 0 STITCH; mkS 2 2 STITCH] [mkHP [0]%nat [1; 7] [] 0 0; mkHP [1]%nat [2] [] 2 2].
Theorem C59_spare_thread_refuted : exists (w w' : @world Z Z),
  sound w /\ apart w 0 1
  /\ seen w 1 = Some ([Some (mkS 2 2 STITCH)], [2], [], 2, 2)
  /\ add_pattern 0 Z.add (fun _ => 0) Z.eqb w 0 1 None None None None None = Ok w'
  /\ seen w' 0 = Some ([Some (mkS 0 0 STITCH); Some (mkS 0 0 COLOR_CHANGE); Some (mkS 2 2 STITCH)],
                       [1; 7; 2], [], 0, 0).
Proof.
  exists w_spare. eexists. split; [|split; [|split; [|split]]].
  - intros [|[|[|p]]] h H; try discriminate; injection H as <-; cbn; repeat constructor.
  - split; [discriminate|]. cbn. intuition congruence.
  - reflexivity.
  - vm_compute. reflexivity.
  - reflexivity.
Qed.

(** ** C60 *)

(** Adding to a pattern without stitches fails, and so does adding a pattern that has threads to
    one that has neither threads nor sewing. *)
Theorem C60_add_to_empty_refuted : forall T C (zero : C) plus (filler : Z -> T) teq (w : @world T C) p q ta ea xa ya
    dx dy sx sy rotate,
  shows w p [] ta ea xa ya ->
  add_pattern zero plus filler teq w p q dx dy sx sy rotate = Err IndexError.
Proof.
  intros. unfold add_pattern. rewrite (drop_end_empty _ _ _ _ _ _ H). reflexivity.
Qed.
Example C60_case : shows (@mkW Z Z [] [mkHP [] [] [] 0 0]) 0 [] [] [] 0 0.
Proof. reflexivity. Qed.
Theorem C60_add_to_unsewn_refuted : exists w : @world Z Z,
  sound w /\ seen w 0 = Some ([Some (mkS 5 5 JUMP)], [], [], 5, 5)
  /\ add_pattern 0 Z.add (fun _ => 0) Z.eqb w 0 1 None None None None None = Err IndexError.
Proof.
  exists (mkW [mkS 5 5 JUMP; mkS 0 0 STITCH] [mkHP [0]%nat [] [] 5 5; mkHP [1]%nat [3] [] 0 0]).
  split; [|split; reflexivity].
  intros [|[|[|p]]] h H; try discriminate; injection H as <-; cbn; repeat constructor.
Qed.
(** The commands for a placement: a translation if a shift is given, a scaling if a horizontal scale is given, with the
    same vertical one if that is not given, and a rotation if an angle is given. *)
Definition asked_for {C} (zero : C) (dx dy kx ky rotate : option C) (pl : list (stitch C)) : Prop :=
  exists moves scales turns, pl = moves ++ scales ++ turns
    /\ (dx = None /\ dy = None /\ moves = [] \/
        (dx <> None \/ dy <> None) /\ exists a b, moves = [mkS a b MATRIX_TRANSLATE] /\ (dx = Some a \/ dx = None /\ a = zero) /\ (dy = Some b \/ dy = None /\ b = zero))
    /\ (kx = None /\ scales = [] \/ exists a b, kx = Some a /\ scales = [mkS a b MATRIX_SCALE] /\ (ky = Some b \/ ky = None /\ b = a))
    /\ (rotate = None /\ turns = [] \/ exists a, rotate = Some a /\ turns = [mkS a zero MATRIX_ROTATE]).
Lemma placement_asked : forall C (zero : C) dx dy kx ky rotate, asked_for zero dx dy kx ky rotate (placement zero dx dy kx ky rotate).
Proof.
  intros C zero dx dy kx ky rotate. eexists _, _, _. split; [reflexivity|]. split; [|split].
  - destruct dx as [a|], dy as [b|]; [right|right|right|left; auto]; (split; [first [left; discriminate|right; discriminate]|]);
      eexists _, _; (split; [reflexivity|split; auto]).
  - destruct kx as [a|]; [right|left; auto]. exists a. destruct ky as [b|]; eexists; repeat split; auto.
  - destruct rotate as [a|]; [right; exists a; auto|left; auto].
Qed.
(** The strongest positive statement: the addition succeeds whenever the first pattern has a
    command and, once completed, a thread (which it has if anything in it is sewn or it already
    had one); the stitches added are those of [q], with the leading thread changes blanked, after the
    transformation commands and at most one colour change. *)
Theorem C60_add_pattern_partial : forall T C (zero : C) plus (filler : Z -> T) teq (w : @world T C) p q
    sa s ta ea xa ya sb tb eb xb yb dx dy kx ky rotate,
  sound w -> apart w p q -> NoDup (objects w q) ->
  shows w p (sa ++ [s]) ta ea xa ya -> shows w q sb tb eb xb yb -> ta <> [] -> tb <> [] ->
  exists w' pl cc sb' tj xj yj,
    add_pattern zero plus filler teq w p q dx dy kx ky rotate = Ok w'
    /\ shows w' p ((if scmd s =? END then sa else sa ++ [s]) ++ pl ++ cc ++ sb') tj (dict_update ea eb) xj yj
    /\ asked_for zero dx dy kx ky rotate pl
    /\ (cc = [] \/ exists x y, cc = [mkS x y COLOR_CHANGE])
    /\ Forall2 (fun a b => sx a = sx b /\ sy a = sy b /\ (scmd b = scmd a \/ is_change a /\ scmd b = NO_COMMAND)) sb sb'.
Proof.
  intros T C zero plus filler teq w p q sa s ta ea xa ya sb tb eb xb yb dx dy x y rotate Hs Hap Hnd Va Vb Hta Htb.
  destruct tb as [|t tsb]; [contradiction|].
  set (sa' := without_end sa s ++ placement zero dx dy x y rotate).
  assert (Hf : exists ts u, PatternModel.fix_color_count filler sa' ta = ts ++ [u]).
  { unfold PatternModel.fix_color_count. generalize (Z.to_nat (count_sections 0 true sa' - zlen ta)) as n.
    revert Hta. clear. intros Hta n. revert ta Hta. induction n as [|n IH]; intros ta Hta; cbn [add_fillers].
    - destruct ta as [|u ts] using rev_ind; [contradiction|]. eauto.
    - apply IH. destruct ta; discriminate. }
  destruct Hf as (ts & u & Hf).
  destruct (add_pattern_ok zero plus filler teq _ _ _ _ _ _ _ _ _ _ _ _ _ _ _ _ _ dx dy x y rotate Hs Hap Hnd Va Vb Hf)
    as (w' & E & _ & V).
  pose proof (placement_asked C zero dx dy x y rotate) as Hpl.
  assert (Hsb : Forall2 (fun a b => sx a = sx b /\ sy a = sy b /\ (scmd b = scmd a \/ is_change a /\ scmd b = NO_COMMAND))
                  sb (suppressed sb)).
  { clear. assert (R : forall l : list (stitch C), Forall2 (fun a b => sx a = sx b /\ sy a = sy b /\ (scmd b = scmd a \/ is_change a /\ scmd b = NO_COMMAND)) l l)
      by (induction l; constructor; auto).
    induction sb as [|a r IH]; cbn [suppressed]; [constructor|].
    destruct (sews (scmd a)); [apply R|]. destruct (changes (scmd a)) eqn:Ec.
    - constructor; [|exact IH]. cbn. split; [reflexivity|]. split; [reflexivity|]. right.
      split; [apply EjectProofs.changes_spec, Ec|reflexivity].
    - constructor; auto. }
  destruct (teq t u).
  - exists w', (placement zero dx dy x y rotate), [], (suppressed sb). eexists _, _, _.
    split; [exact E|]. split; [|split; [exact Hpl|split; [left; reflexivity|exact Hsb]]].
    cbn [app]. unfold sa' in V. rewrite <- app_assoc in V. exact V.
  - exists w', (placement zero dx dy x y rotate), [mkS (plus xa zero) (plus ya zero) COLOR_CHANGE], (suppressed sb).
    eexists _, _, _. split; [exact E|]. split; [|split; [exact Hpl|split; [right; eauto|exact Hsb]]].
    unfold sa' in V. rewrite <- !app_assoc in V. exact V.
Qed.

(** ** C61 *)

(** A vertical scale alone is ignored. *)
Theorem C61_vertical_scale_refuted : forall T C (zero : C) plus (filler : Z -> T) teq (w : @world T C) p q sy,
  add_pattern zero plus filler teq w p q None None None (Some sy) None
  = add_pattern zero plus filler teq w p q None None None None None.
Proof. reflexivity. Qed.
(** With a horizontal scale it takes effect: exactly one scaling command, with both scales, stands before the added
    stitches. *)
Theorem C61_vertical_scale_partial : forall T C (zero : C) plus (filler : Z -> T) teq (w : @world T C) p q
    sa s ta ea xa ya sb tb eb xb yb dx dy kx ky rotate,
  sound w -> apart w p q -> NoDup (objects w q) ->
  shows w p (sa ++ [s]) ta ea xa ya -> shows w q sb tb eb xb yb -> ta <> [] -> tb <> [] ->
  exists w' before sb' tj xj yj,
    add_pattern zero plus filler teq w p q dx dy (Some kx) (Some ky) rotate = Ok w'
    /\ shows w' p ((if scmd s =? END then sa else sa ++ [s]) ++ before ++ sb') tj (dict_update ea eb) xj yj
    /\ filter (fun a => scmd a =? MATRIX_SCALE) before = [mkS kx ky MATRIX_SCALE]
    /\ map (fun a => (sx a, sy a)) sb' = map (fun a => (sx a, sy a)) sb.
Proof.
  intros T C zero plus filler teq w p q sa s ta ea xa ya sb tb eb xb yb dx dy kx ky rotate H1 H2 H3 H4 H5 H6 H7.
  destruct (C60_add_pattern_partial T C zero plus filler teq w p q sa s ta ea xa ya sb tb eb xb yb dx dy (Some kx) (Some ky) rotate H1 H2 H3 H4 H5 H6 H7)
    as (w' & pl & cc & sb' & tj & xj & yj & E & V & (mv & sc & tu & -> & A1 & A2 & A3) & Hc & F).
  exists w', ((mv ++ sc ++ tu) ++ cc), sb', tj, xj, yj. split; [exact E|]. split; [rewrite <- app_assoc; exact V|]. split.
  - rewrite !filter_app.
    assert (M : filter (fun a : stitch C => scmd a =? MATRIX_SCALE) mv = []).
    { destruct A1 as [(_ & _ & ->)|(_ & a & b & -> & _)]; reflexivity. }
    assert (Tu : filter (fun a : stitch C => scmd a =? MATRIX_SCALE) tu = []) by (destruct A3 as [(_ & ->)|(a & _ & ->)]; reflexivity).
    assert (Cc : filter (fun a : stitch C => scmd a =? MATRIX_SCALE) cc = []) by (destruct Hc as [->|(a & b & ->)]; reflexivity).
    rewrite M, Tu, Cc. destruct A2 as [(K & _)|(a & b & K & -> & [L|(L & _)])]; try discriminate. injection K as <-. injection L as <-. reflexivity.
  - clear - F. induction F as [|a b l r (X & Y & _) _ IH]; [reflexivity|]. cbn [map]. rewrite IH, X, Y. reflexivity.
Qed.

Definition w_joined : @world Z Z :=
  mkW [mkS 0 0 STITCH; mkS 10 0 END; mkS 3 3 COLOR_CHANGE; mkS 5 5 STITCH] [mkHP [0; 1]%nat [1] [] 10 0; mkHP [2; 3]%nat [2] [] 5 5].
Example C61_case : sound w_joined /\ apart w_joined 0 1 /\ NoDup (objects w_joined 1) /\
  shows w_joined 0 ([mkS 0 0 STITCH] ++ [mkS 10 0 END]) [1] [] 10 0 /\ shows w_joined 1 [mkS 3 3 COLOR_CHANGE; mkS 5 5 STITCH] [2] [] 5 5 /\
  match add_pattern 0 Z.add (fun _ => 0) Z.eqb w_joined 0 1 (Some 7) None (Some 2) (Some 3) None with
  | Ok w' => seen w' 0 = Some (map Some [mkS 0 0 STITCH; mkS 7 0 MATRIX_TRANSLATE; mkS 2 3 MATRIX_SCALE; mkS 10 0 COLOR_CHANGE;
                                 mkS 3 3 NO_COMMAND; mkS 5 5 STITCH], [1; 2], [], 10, 0)
  | Err _ => False
  end.
Proof.
  split; [intros [|[|[|p]]] h H; try discriminate; injection H as <-; cbn; repeat constructor|].
  split; [|split; [|split; [reflexivity|split; [reflexivity|vm_compute; reflexivity]]]].
  - vm_compute. intuition lia.
  - vm_compute. repeat constructor; cbn; intuition lia.
Qed.

(** ** C62 *)

(** Translating a pattern whose stitches are different objects moves each by the same amount... *)
Theorem C62_translate_once_partial : forall T C (plus : C -> C -> C) (w : @world T C) p ss ts ex x y dx dy,
  shows w p ss ts ex x y -> NoDup (objects w p) ->
  exists w', translate plus w p dx dy = Ok w'
    /\ shows w' p (map (fun s => mkS (plus (sx s) dx) (plus (sy s) dy) (scmd s)) ss) ts ex x y.
Proof.
  intros T C plus w p ss ts ex x y dx dy Hsh Hnd.
  destruct (shows_pat _ _ _ _ _ _ _ Hsh) as (ls & Hp & Hc & Hl).
  rewrite (objects_pat _ _ _ Hp) in Hnd. cbn in Hnd.
  unfold translate, each. rewrite Hp. cbn [bindr hp_stitches].
  assert (K : forall ls w ss, NoDup ls -> contents w ls = Ok ss ->
     exists w' : @world T C, each_cell (moved plus dx dy) ls w = Ok w' /\
       contents w' ls = Ok (map (moved plus dx dy) ss)).
  { clear. induction ls as [|l r IH]; intros w ss Hn Hc; cbn [contents each_cell] in *.
    - injection Hc as <-. exists w. auto.
    - inversion Hn as [|? ? Hk Hn']; subst.
      destruct (cell_of w l) as [s|] eqn:E; [|discriminate]. cbn [bindr] in *.
      destruct (contents w r) as [rs|] eqn:Er; [|discriminate]. cbn [bindr] in Hc. injection Hc as <-.
      destruct (IH (set_cell w l (moved plus dx dy s)) rs Hn') as (w' & A & B).
      { rewrite contents_cell_out by exact Hk. exact Er. }
      exists w'. split; [exact A|]. rewrite B.
      destruct (each_cell_reach _ _ _ _ A) as (_ & _ & D). unfold cell_of. rewrite D by exact Hk. cbn.
      apply cell_of_ok in E. rewrite nth_put_same by (eapply nth_lt; exact E). reflexivity. }
  destruct (K ls w ss Hnd Hc) as (w' & A & B). exists w'. split; [exact A|].
  destruct (each_cell_reach _ _ _ _ A) as (P & _ & _).
  apply (pat_shows w' p (mkHP ls ts ex x y)); [|exact B].
  apply pat_of_ok. rewrite P. apply pat_of_ok. exact Hp.
Qed.
Example C62_case : shows w_one 0 [mkS 0 0 STITCH; mkS 10 0 STITCH] [1] [] 10 0 /\ NoDup (objects w_one 0).
Proof. split; [reflexivity|]. cbn. repeat constructor; cbn; intuition congruence. Qed.
(** ... but p + p holds every stitch object of [p] twice, and translating it by 5 moves by 10. *)
Theorem C62_translate_doubled_refuted : exists (w w' w'' : @world Z Z) q,
  sound w /\ plus_pattern 0 Z.add (fun _ => 0) Z.eqb w 0 0 = Ok (w', q)
  /\ translate Z.add w' q 5 0 = Ok w''
  /\ (exists t, seen w' q = Some ([Some (mkS 0 0 STITCH); Some (mkS 10 0 STITCH); Some (mkS 0 0 STITCH); Some (mkS 10 0 STITCH)], t, [], 10, 0))
  /\ (exists t, seen w'' q = Some ([Some (mkS 10 0 STITCH); Some (mkS 20 0 STITCH); Some (mkS 10 0 STITCH); Some (mkS 20 0 STITCH)], t, [], 10, 0)).
Proof.
  exists w_one. eexists _, _, _. split; [|split; [|split; [|split]]].
  - intros [|[|p]] h H; try discriminate. injection H as <-. cbn. repeat constructor.
  - vm_compute. reflexivity.
  - vm_compute. reflexivity.
  - eexists. vm_compute. reflexivity.
  - eexists. vm_compute. reflexivity.
Qed.

(** ** C63 *)

(** With the setting [encode] off the writer gets the user's own pattern: the PNG writer moves
    its stitches, and the writers that complete the thread list add threads to it. *)
Theorem C63_png_moves_source_refuted : exists (w w' : @world Z Z),
  sound w /\ png_prepare Z.add Z.opp (fun ss => (fold_left Z.min (map sx ss) 10, fold_left Z.min (map sy ss) 0)) w 0 = Ok w'
  /\ seen w' 0 <> seen w 0.
Proof.
  exists (mkW [mkS 10 0 STITCH; mkS 20 5 STITCH] [mkHP [0; 1]%nat [1] [] 20 5]). eexists. split; [|split].
  - intros [|[|p]] h H; try discriminate. injection H as <-. cbn. repeat constructor.
  - vm_compute. reflexivity.
  - vm_compute. discriminate.
Qed.
Theorem C63_threads_added_refuted : exists (w w' : @world Z Z),
  sound w /\ HeapModel.fix_color_count (fun _ => 99) w 0 = Ok w' /\ seen w' 0 <> seen w 0.
Proof.
  exists (mkW [mkS 10 0 STITCH] [mkHP [0]%nat [] [] 10 0]). eexists. split; [|split].
  - intros [|[|p]] h H; try discriminate. injection H as <-. cbn. repeat constructor.
  - vm_compute. reflexivity.
  - vm_compute. discriminate.
Qed.
(** The stitches stay as they are when only threads are completed, and a pattern with enough
    threads is not changed at all. *)
Theorem C63_complete_threads_partial : forall T C (filler : Z -> T) (w w' : @world T C) p ss ts ex x y out n o,
  sound w -> shows w p ss ts ex x y -> coloured ts ss out n o -> n <= Z.of_nat (length ts) ->
  HeapModel.fix_color_count filler w p = Ok w' ->
  forall r, (r < length (w_pats w))%nat -> seen w' r = seen w r.
Proof.
  intros T C filler w w' p ss ts ex x y out n o Hs Hsh Hc Hn H r Hr.
  destruct (fix_color_count_ok filler _ _ _ _ _ _ _ Hs Hsh) as (w1 & E & S & V).
  rewrite E in H. injection H as <-. rewrite (coloured_fix filler _ _ _ _ _ Hc Hn) in V.
  destruct (Nat.eq_dec r p) as [->|D]; [unfold shows in *; congruence|].
  destruct S as (_ & G & O & _). apply (seen_frame w w1 p r Hs G O D Hr).
Qed.
Example C63_case : coloured [2] [@mkS Z 2 2 STITCH] [(mkS 2 2 STITCH, 2)] 1 true.
Proof.
  exists [(mkS 2 2 STITCH, 0)], 0. split; [|split; [reflexivity|repeat constructor]].
  change 0 with (-1 + 1). apply in_first; [unfold is_sewing; cbn; auto|]. constructor.
Qed.

Print Assumptions C30_encoding_keeps_source.
Print Assumptions C30_encoded_keeps_result.
Print Assumptions C31_copy_equal.
Print Assumptions C31_copy_independent_partial.
Print Assumptions C31_translate_copy_refuted.
Print Assumptions C32_add_pattern_partial.
Print Assumptions C32_plus_partial.
Print Assumptions C32_add_pattern_refuted.
Print Assumptions C59_joined_colours.
Print Assumptions C59_spare_thread_refuted.
Print Assumptions C60_add_to_empty_refuted.
Print Assumptions C60_add_to_unsewn_refuted.
Print Assumptions C60_add_pattern_partial.
Print Assumptions C61_vertical_scale_refuted.
Print Assumptions C61_vertical_scale_partial.
Print Assumptions C62_translate_once_partial.
Print Assumptions C62_translate_doubled_refuted.
Print Assumptions C63_png_moves_source_refuted.
Print Assumptions C63_threads_added_refuted.
Print Assumptions C63_complete_threads_partial.
