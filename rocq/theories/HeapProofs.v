(** Lemmas about HeapModel.v: which objects each operation can reach. *)
From Coq Require Import ZArith List Bool Lia Arith.
From Verif Require Import PyBase EmbConst EncoderModel PatternModel HeapModel PatternSpec HeapSpec.
Import ListNotations.
Open Scope nat_scope.

Lemma put_length {A} k (a : A) l : length (put k a l) = length l.
Proof.
  unfold put. destruct (nth_error l k) eqn:E; [|reflexivity].
  assert (k < length l) by (apply nth_error_Some; congruence).
  rewrite app_length. cbn [length]. rewrite firstn_length, skipn_length. lia.
Qed.
Lemma nth_put_same {A} k (a : A) l : k < length l -> nth_error (put k a l) k = Some a.
Proof.
  intros H. unfold put. destruct (nth_error l k) eqn:E; [|apply nth_error_None in E; lia].
  rewrite nth_error_app2 by (rewrite firstn_length; lia).
  rewrite firstn_length. replace (k - Nat.min k (length l)) with 0 by lia. reflexivity.
Qed.
Lemma nth_put_other {A} k j (a : A) l : j <> k -> nth_error (put k a l) j = nth_error l j.
Proof.
  intros H. unfold put. destruct (nth_error l k) eqn:E; [|reflexivity].
  assert (k < length l) by (apply nth_error_Some; congruence).
  rewrite <- (firstn_skipn k l) at 3.
  destruct (Nat.lt_ge_cases j k).
  - rewrite !nth_error_app1 by (rewrite firstn_length; lia). reflexivity.
  - rewrite !nth_error_app2 by (rewrite firstn_length; lia).
    rewrite firstn_length. replace (Nat.min k (length l)) with k by lia.
    destruct (j - k) as [|i] eqn:Ej; [lia|].
    assert (Hs : skipn k l = a0 :: skipn (S k) l).
    { clear - E. revert l E. induction k as [|k IH]; intros [|b l] E; try discriminate.
      - cbn in E. injection E as ->. reflexivity.
      - cbn in E. cbn [skipn]. apply IH, E. }
    rewrite Hs. reflexivity.
Qed.

Lemma put_cons {A} k (a b : A) l : put (S k) a (b :: l) = b :: put k a l.
Proof. unfold put. cbn [nth_error]. destruct (nth_error l k); reflexivity. Qed.
Lemma put_put {A} k (a b : A) l : put k a (put k b l) = put k a l.
Proof.
  revert k. induction l as [|c l IH]; intros k; [destruct k; reflexivity|].
  destruct k as [|k]; [reflexivity|]. rewrite !put_cons, IH. reflexivity.
Qed.

Section Heap.
Context {T C : Type}.
Variables (zero : C) (plus : C -> C -> C) (filler : Z -> T) (teq : T -> T -> bool).
Notation world := (@world T C).
Notation hpat := (@hpat T C).

Lemma pat_of_ok (w : world) p h : pat_of w p = Ok h <-> nth_error (w_pats w) p = Some h.
Proof. unfold pat_of. destruct (nth_error _ _); split; congruence. Qed.
Lemma cell_of_ok (w : world) l s : cell_of w l = Ok s <-> nth_error (w_cells w) l = Some s.
Proof. unfold cell_of. destruct (nth_error _ _); split; congruence. Qed.

Lemma nth_lt {A} (l : list A) k a : nth_error l k = Some a -> k < length l.
Proof. intros H. apply nth_error_Some. congruence. Qed.

(** ** Looking at a pattern depends on its record and its cells only *)
Lemma seen_ext (w w' : world) p :
  nth_error (w_pats w') p = nth_error (w_pats w) p ->
  (forall l, In l (objects w p) -> nth_error (w_cells w') l = nth_error (w_cells w) l) ->
  seen w' p = seen w p.
Proof.
  intros Hp Hc. unfold seen, objects in *. rewrite Hp. clear Hp. destruct (nth_error (w_pats w) p) as [h|]; [|reflexivity].
  do 5 f_equal. apply map_ext_in. exact Hc.
Qed.
Lemma objects_ext (w w' : world) p :
  nth_error (w_pats w') p = nth_error (w_pats w) p -> objects w' p = objects w p.
Proof. intros H. unfold objects. rewrite H. reflexivity. Qed.

(** [grows w w']: old objects keep their contents. *)
Definition grows (w w' : world) : Prop :=
  length (w_cells w) <= length (w_cells w') /\
  forall l, l < length (w_cells w) -> nth_error (w_cells w') l = nth_error (w_cells w) l.
Lemma grows_refl w : grows w w. Proof. split; auto. Qed.
Lemma grows_trans a b c : grows a b -> grows b c -> grows a c.
Proof. intros [A1 A2] [B1 B2]. split; [lia|]. intros l Hl. rewrite B2 by lia. apply A2, Hl. Qed.

(** [others p w w']: no other pattern object is touched and none disappears. *)
Definition others (p : nat) (w w' : world) : Prop :=
  length (w_pats w) <= length (w_pats w') /\
  forall q, q <> p -> q < length (w_pats w) -> nth_error (w_pats w') q = nth_error (w_pats w) q.
Lemma others_refl p w : others p w w. Proof. split; auto. Qed.
Lemma others_trans p a b c : others p a b -> others p b c -> others p a c.
Proof. intros [A1 A2] [B1 B2]. split; [lia|]. intros q H Hq. rewrite B2 by lia. apply A2; assumption. Qed.

Lemma sound_objects (w : world) q l : sound w -> In l (objects w q) -> l < length (w_cells w).
Proof.
  intros Hs Hl. unfold objects in Hl. destruct (nth_error (w_pats w) q) eqn:E; [|destruct Hl].
  specialize (Hs _ _ E). rewrite Forall_forall in Hs. apply Hs, Hl.
Qed.
Lemma seen_frame (w w' : world) p q :
  sound w -> grows w w' -> others p w w' -> q <> p -> q < length (w_pats w) ->
  seen w' q = seen w q.
Proof.
  intros Hs [_ Hg] [_ Ho] Hq Hl. apply seen_ext; [apply Ho; assumption|].
  intros l Hin. apply Hg. eapply sound_objects; eassumption.
Qed.

Lemma set_pat_grows (w : world) p h : grows w (set_pat w p h).
Proof. split; cbn; auto. Qed.
Lemma set_pat_others (w : world) p h : others p w (set_pat w p h).
Proof. split; cbn; [rewrite put_length; auto|]. intros. apply nth_put_other; assumption. Qed.
Lemma alloc_grows (w w' : world) s l : alloc w s = (w', l) -> grows w w'.
Proof.
  intros H. injection H as <- <-. split; cbn; [rewrite app_length; lia|].
  intros l Hl. apply nth_error_app1, Hl.
Qed.
Lemma alloc_others (w w' : world) p s l : alloc w s = (w', l) -> others p w w'.
Proof. intros H. injection H as <- <-. split; cbn; auto. Qed.
Lemma alloc_sound (w w' : world) s l : sound w -> alloc w s = (w', l) ->
  sound w' /\ l < length (w_cells w') /\ nth_error (w_cells w') l = Some s /\ l = length (w_cells w).
Proof.
  intros Hs H. injection H as <- <-. split; [|split; [|split]]; cbn; auto.
  - intros p h Hp. cbn in *. specialize (Hs _ _ Hp). eapply Forall_impl; [|exact Hs].
    cbn. intros. rewrite app_length. cbn. lia.
  - rewrite app_length. cbn. lia.
  - rewrite nth_error_app2 by lia. rewrite Nat.sub_diag. reflexivity.
Qed.
Lemma set_pat_sound (w : world) p h : sound w ->
  Forall (fun l => l < length (w_cells w)) (hp_stitches h) -> sound (set_pat w p h).
Proof.
  intros Hs Hh q k Hq. cbn in *. destruct (Nat.eq_dec q p) as [E|E].
  - subst q. destruct (Nat.lt_ge_cases p (length (w_pats w))).
    + rewrite nth_put_same in Hq by assumption. injection Hq as <-. exact Hh.
    + unfold put in Hq. destruct (nth_error (w_pats w) p) eqn:E; [apply nth_lt in E; lia|].
      congruence.
  - rewrite nth_put_other in Hq by assumption. apply (Hs _ _ Hq).
Qed.
Lemma set_cell_sound (w : world) l s : sound w -> sound (set_cell w l s).
Proof. intros Hs p h Hp. cbn in *. rewrite put_length. apply (Hs _ _ Hp). Qed.
Lemma sound_pat (w : world) p h : sound w -> pat_of w p = Ok h ->
  Forall (fun l => l < length (w_cells w)) (hp_stitches h).
Proof. intros Hs Hp. apply pat_of_ok in Hp. apply (Hs _ _ Hp). Qed.
Lemma objects_pat (w : world) p h : pat_of w p = Ok h -> objects w p = hp_stitches h.
Proof. intros Hp. apply pat_of_ok in Hp. unfold objects. rewrite Hp. reflexivity. Qed.
Lemma objects_set_same (w : world) p h : p < length (w_pats w) -> objects (set_pat w p h) p = hp_stitches h.
Proof. intros H. unfold objects. cbn. rewrite nth_put_same by assumption. reflexivity. Qed.
Lemma objects_set_other (w : world) p q h : q <> p -> objects (set_pat w p h) q = objects w q.
Proof. intros H. unfold objects. cbn. rewrite nth_put_other by assumption. reflexivity. Qed.

(** ** Edits reach only the objects of the edited pattern *)
Lemma each_cell_reach f ls : forall (w w' : world), each_cell f ls w = Ok w' ->
  w_pats w' = w_pats w /\ length (w_cells w') = length (w_cells w) /\
  forall l, ~ In l ls -> nth_error (w_cells w') l = nth_error (w_cells w) l.
Proof.
  induction ls as [|k r IH]; intros w w' H; cbn [each_cell] in H.
  - injection H as <-. auto.
  - destruct (cell_of w k) eqn:E; [|discriminate]. cbn [bindr] in H.
    destruct (IH _ _ H) as (A & B & D). cbn in A, B. rewrite put_length in B.
    split; [assumption|split; [assumption|]].
    intros l Hl. rewrite D by (intros Hin; apply Hl; right; exact Hin). cbn.
    apply nth_put_other. intros ->. apply Hl. left. reflexivity.
Qed.

Lemma edit_apart (w w' : world) p q e :
  sound w -> apart w p q -> q < length (w_pats w) -> apply_edit zero w p e = Ok w' ->
  sound w' /\ apart w' p q /\ q < length (w_pats w') /\ seen w' q = seen w q.
Proof.
  intros Hs [Hpq Ha] Hq H. unfold apply_edit in H.
  destruct (pat_of w p) as [h|] eqn:Hp; [|discriminate]. cbn [bindr] in H.
  pose proof (sound_pat _ _ _ Hs Hp) as Hh. rewrite Forall_forall in Hh.
  assert (Hpl : p < length (w_pats w)) by (apply pat_of_ok in Hp; eapply nth_lt; exact Hp).
  assert (Ho : forall l, In l (hp_stitches h) -> ~ In l (objects w q)).
  { intros l Hl. apply Ha. rewrite (objects_pat _ _ _ Hp). exact Hl. }
  (* edits of the record of p over a heap that grew *)
  assert (K : forall w1 k, sound w1 -> grows w w1 -> w_pats w1 = w_pats w ->
     (forall l, In l (hp_stitches k) -> l < length (w_cells w1) /\ ~ In l (objects w q)) ->
     sound (set_pat w1 p k) /\ apart (set_pat w1 p k) p q /\ q < length (w_pats (set_pat w1 p k)) /\
     seen (set_pat w1 p k) q = seen w q).
  { intros w1 k Hs1 [Hg Hg'] Hpp Hk. split; [|split; [|split]].
    - apply set_pat_sound; [exact Hs1|]. rewrite Forall_forall. intros l Hl. apply Hk, Hl.
    - split; [exact Hpq|]. intros l. rewrite objects_set_same by (rewrite Hpp; exact Hpl).
      rewrite objects_set_other by (intros ->; apply Hpq; reflexivity).
      rewrite (objects_ext w w1) by (rewrite Hpp; reflexivity). intros Hl. apply Hk, Hl.
    - cbn. rewrite put_length, Hpp. exact Hq.
    - apply seen_ext.
      + cbn. rewrite nth_put_other, Hpp by (intros ->; apply Hpq; reflexivity). reflexivity.
      + intros l Hl. cbn. apply Hg'. eapply sound_objects; eassumption. }
  assert (K0 : forall k, (forall l, In l (hp_stitches k) -> In l (hp_stitches h)) ->
     sound (set_pat w p k) /\ apart (set_pat w p k) p q /\ q < length (w_pats (set_pat w p k)) /\
     seen (set_pat w p k) q = seen w q).
  { intros k Hk. apply K; [exact Hs|apply grows_refl|reflexivity|].
    intros l Hl. split; [apply Hh, Hk, Hl|apply Ho, Hk, Hl]. }
  assert (K1 : forall s k, (forall l, In l (hp_stitches k) -> In l (hp_stitches h) \/ l = length (w_cells w)) ->
     let w1 := mkW (w_cells w ++ [s]) (w_pats w) in
     sound (set_pat w1 p k) /\ apart (set_pat w1 p k) p q /\ q < length (w_pats (set_pat w1 p k)) /\
     seen (set_pat w1 p k) q = seen w q).
  { intros s k Hk w1. assert (Ea : alloc w s = (w1, length (w_cells w))) by reflexivity.
    destruct (alloc_sound _ _ _ _ Hs Ea) as (S1 & S2 & _ & _).
    apply K; [exact S1|eapply alloc_grows; exact Ea|reflexivity|].
    intros l Hl. destruct (Hk _ Hl) as [Hin| ->].
    - split; [|apply Ho, Hin]. cbn. rewrite app_length. specialize (Hh _ Hin). lia.
    - split; [exact S2|]. intros Hin. pose proof (sound_objects _ _ _ Hs Hin). lia. }
  destruct e as [f|k s|k s|k s|a b|ts|d|x y|].
  - unfold each in H. rewrite Hp in H. cbn [bindr] in H.
    destruct (each_cell_reach _ _ _ _ H) as (A & B & D).
    split; [|split; [|split]].
    + intros r k Hr. rewrite A in Hr. rewrite B. apply (Hs _ _ Hr).
    + split; [exact Hpq|]. intros l. rewrite !(objects_ext w w') by (rewrite A; reflexivity). apply Ha.
    + rewrite A. exact Hq.
    + apply seen_ext; [rewrite A; reflexivity|]. intros l Hl. apply D. intros Hin. exact (Ho _ Hin Hl).
  - destruct (nth_error (hp_stitches h) k) as [l0|] eqn:E; [|discriminate]. injection H as <-.
    apply nth_error_In in E.
    split; [apply set_cell_sound, Hs|split; [|split; [exact Hq|]]].
    + split; [exact Hpq|]. intros l. rewrite !(objects_ext w (set_cell w l0 s)) by reflexivity. apply Ha.
    + apply seen_ext; [reflexivity|]. intros l Hl. cbn. apply nth_put_other. intros ->. exact (Ho _ E Hl).
  - destruct (nth_error (hp_stitches h) k) as [l0|] eqn:E; [|discriminate]. cbn in H. injection H as <-.
    apply K1. intros l Hl. cbn in Hl. unfold put in Hl. rewrite E in Hl.
    apply in_app_or in Hl. destruct Hl as [Hl|[<-|Hl]]; [left|right; reflexivity|left].
    + rewrite <- (firstn_skipn k). apply in_or_app. left. exact Hl.
    + rewrite <- (firstn_skipn (S k)). apply in_or_app. right. exact Hl.
  - cbn in H. injection H as <-. apply K1. intros l Hl. cbn in Hl.
    apply in_app_or in Hl. destruct Hl as [Hl|[<-|Hl]]; [left|right; reflexivity|left].
    + rewrite <- (firstn_skipn k). apply in_or_app. left. exact Hl.
    + rewrite <- (firstn_skipn k). apply in_or_app. right. exact Hl.
  - injection H as <-. apply K0. intros l Hl. cbn in Hl. apply in_app_or in Hl.
    destruct Hl as [Hl|Hl].
    + rewrite <- (firstn_skipn a). apply in_or_app. left. exact Hl.
    + rewrite <- (firstn_skipn (Nat.max a b)). apply in_or_app. right. exact Hl.
  - injection H as <-. apply K0. auto.
  - injection H as <-. apply K0. auto.
  - injection H as <-. apply K0. auto.
  - injection H as <-. apply K0. intros l [].
Qed.

Lemma edits_apart es : forall (w w' : world) p q,
  sound w -> apart w p q -> q < length (w_pats w) -> apply_edits zero w p es = Ok w' ->
  sound w' /\ apart w' p q /\ seen w' q = seen w q.
Proof.
  induction es as [|e r IH]; intros w w' p q Hs Ha Hq H; cbn [apply_edits] in H.
  - injection H as <-. auto.
  - destruct (apply_edit zero w p e) as [w1|] eqn:E; [|discriminate]. cbn [bindr] in H.
    destruct (edit_apart _ _ _ _ _ Hs Ha Hq E) as (S1 & A1 & Q1 & V1).
    destruct (IH _ _ _ _ S1 A1 Q1 H) as (S2 & A2 & V2). split; [exact S2|split; [exact A2|congruence]].
Qed.

(** Structural edits leave every object alone. *)
Lemma structural_edit (w w' : world) p e :
  sound w -> structural e -> apply_edit zero w p e = Ok w' -> sound w' /\ grows w w' /\ others p w w'.
Proof.
  intros Hs He H. unfold apply_edit in H.
  destruct (pat_of w p) as [h|] eqn:Hp; [|discriminate]. cbn [bindr] in H.
  pose proof (sound_pat _ _ _ Hs Hp) as Hh.
  assert (K0 : forall k, (forall l, In l (hp_stitches k) -> In l (hp_stitches h)) ->
     sound (set_pat w p k) /\ grows w (set_pat w p k) /\ others p w (set_pat w p k)).
  { intros k Hk. split; [|split; [apply set_pat_grows|apply set_pat_others]].
    apply set_pat_sound; [exact Hs|]. rewrite Forall_forall in *. auto. }
  assert (K1 : forall s k, (forall l, In l (hp_stitches k) -> In l (hp_stitches h) \/ l = length (w_cells w)) ->
     let w1 := mkW (w_cells w ++ [s]) (w_pats w) in
     sound (set_pat w1 p k) /\ grows w (set_pat w1 p k) /\ others p w (set_pat w1 p k)).
  { intros s k Hk w1. assert (Ea : alloc w s = (w1, length (w_cells w))) by reflexivity.
    destruct (alloc_sound _ _ _ _ Hs Ea) as (S1 & S2 & _ & _).
    split; [|split].
    - apply set_pat_sound; [exact S1|]. rewrite Forall_forall in *. intros l Hl.
      destruct (Hk _ Hl) as [Hin| ->]; [|exact S2]. cbn. rewrite app_length. specialize (Hh _ Hin). lia.
    - eapply grows_trans; [eapply alloc_grows; exact Ea|apply set_pat_grows].
    - eapply others_trans; [eapply alloc_others; exact Ea|apply set_pat_others]. }
  destruct e as [f|k s|k s|k s|a b|ts|d|x y|]; try contradiction.
  - destruct (nth_error (hp_stitches h) k) as [l0|] eqn:E; [|discriminate]. cbn in H. injection H as <-.
    apply K1. intros l Hl. cbn in Hl. unfold put in Hl. rewrite E in Hl.
    apply in_app_or in Hl. destruct Hl as [Hl|[<-|Hl]]; [left|right; reflexivity|left].
    + rewrite <- (firstn_skipn k). apply in_or_app. left. exact Hl.
    + rewrite <- (firstn_skipn (S k)). apply in_or_app. right. exact Hl.
  - cbn in H. injection H as <-. apply K1. intros l Hl. cbn in Hl.
    apply in_app_or in Hl. destruct Hl as [Hl|[<-|Hl]]; [left|right; reflexivity|left].
    + rewrite <- (firstn_skipn k). apply in_or_app. left. exact Hl.
    + rewrite <- (firstn_skipn k). apply in_or_app. right. exact Hl.
  - injection H as <-. apply K0. intros l Hl. cbn in Hl. apply in_app_or in Hl.
    destruct Hl as [Hl|Hl].
    + rewrite <- (firstn_skipn a). apply in_or_app. left. exact Hl.
    + rewrite <- (firstn_skipn (Nat.max a b)). apply in_or_app. right. exact Hl.
  - injection H as <-. apply K0. auto.
  - injection H as <-. apply K0. auto.
  - injection H as <-. apply K0. auto.
  - injection H as <-. apply K0. intros l [].
Qed.
Lemma structural_edits es : forall (w w' : world) p,
  sound w -> Forall structural es -> apply_edits zero w p es = Ok w' ->
  sound w' /\ grows w w' /\ others p w w'.
Proof.
  induction es as [|e r IH]; intros w w' p Hs He H; cbn [apply_edits] in H.
  - injection H as <-. split; [assumption|split; [apply grows_refl|apply others_refl]].
  - inversion He as [|? ? He1 He2]; subst.
    destruct (apply_edit zero w p e) as [w1|] eqn:E; [|discriminate]. cbn [bindr] in H.
    destruct (structural_edit _ _ _ _ Hs He1 E) as (S1 & A1 & Q1).
    destruct (IH _ _ _ S1 He2 H) as (S2 & A2 & V2). split; [assumption|split].
    + eapply grows_trans; eassumption.
    + eapply others_trans; eassumption.
Qed.
End Heap.
