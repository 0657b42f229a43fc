(** C207: equality of patterns, and what becomes of equal patterns. *)
From Coq Require Import ZArith QArith List Bool Lia.
From Verif Require Import PyBase BitLemmas EmbConst ThreadModel PatternModel PatternEqModel DrawModel DrawSpec PropertiesDraw.
Import ListNotations.
Open Scope Z_scope.

(** Two lists are compared item by item. *)
Definition item_by_item {A} (same : A -> A -> Prop) (l m : list A) : Prop :=
  length l = length m /\ forall k a b, nth_error l k = Some a -> nth_error m k = Some b -> same a b.
(** The same numbers and the same command. *)
Definition same_stitch (s t : stitch Q) : Prop := (sx s == sx t)%Q /\ (sy s == sy t)%Q /\ scmd s = scmd t.
Definition same_thread (a b : thread) : Prop := thread_eqb a b = true.

Lemma list_eqb_iff {A} (eqb : A -> A -> bool) (same : A -> A -> Prop) : (forall a b, eqb a b = true <-> same a b) ->
  forall l m, list_eqb eqb l m = true <-> item_by_item same l m.
Proof.
  intros E. induction l as [|a l IH]; intros [|b m]; cbn [list_eqb]; unfold item_by_item in *.
  - split; [|reflexivity]. intros _. split; [reflexivity|]. intros [|k] ? ? H; discriminate.
  - split; [discriminate|]. intros [H _]. discriminate.
  - split; [discriminate|]. intros [H _]. discriminate.
  - rewrite andb_true_iff, E, IH. split.
    + intros (H1 & H2 & H3). split; [cbn; congruence|]. intros [|k] x y Hx Hy; cbn in Hx, Hy; [congruence|]. eapply H3; eassumption.
    + intros [H1 H2]. split; [apply (H2 0%nat); reflexivity|]. split; [cbn in H1; congruence|]. intros k x y Hx Hy. apply (H2 (S k)); assumption.
Qed.
Lemma stitch_eqb_iff s t : stitch_eqb s t = true <-> same_stitch s t.
Proof. unfold stitch_eqb, same_stitch. rewrite !andb_true_iff, !Qeq_bool_iff, Z.eqb_eq. tauto. Qed.
Lemma pattern_eqb_iff p q : pattern_eqb p q = true <->
  item_by_item same_stitch (p_stitches p) (p_stitches q) /\ item_by_item same_thread (p_threads p) (p_threads q).
Proof.
  rewrite <- (list_eqb_iff stitch_eqb same_stitch stitch_eqb_iff), <- (list_eqb_iff thread_eqb same_thread) by (intros; reflexivity).
  unfold pattern_eqb. destruct (list_eqb stitch_eqb _ _), (list_eqb thread_eqb _ _); cbn; intuition congruence.
Qed.

(** Patterns are equal when they have the same stitches and the same threads, in the same order; == and != are
    opposite; equality is reflexive, symmetric and transitive. *)
Theorem C207_equality : forall p q,
  (pattern_eqb p q = true <-> item_by_item same_stitch (p_stitches p) (p_stitches q) /\ item_by_item same_thread (p_threads p) (p_threads q)) /\
  pattern_neb p q = negb (pattern_eqb p q) /\
  pattern_eqb p p = true /\ pattern_eqb q p = pattern_eqb p q /\
  (forall r, pattern_eqb p q = true -> pattern_eqb q r = true -> pattern_eqb p r = true).
Proof.
  assert (R : forall A (same : A -> A -> Prop), (forall a, same a a) -> forall l, item_by_item same l l).
  { intros A same H l. split; [reflexivity|]. intros k a b Ha Hb. assert (a = b) by congruence. subst b. apply H. }
  assert (M : forall A (same : A -> A -> Prop), (forall a b, same a b -> same b a) -> forall l m, item_by_item same l m -> item_by_item same m l).
  { intros A same H l m [H1 H2]. split; [congruence|]. intros k a b Ha Hb. apply H. eapply H2; eassumption. }
  assert (Rs : forall s, same_stitch s s) by (intros s; split; [reflexivity|split; reflexivity]).
  assert (Ms : forall s t, same_stitch s t -> same_stitch t s) by (intros s t (H1 & H2 & H3); split; [symmetry; exact H1|split; [symmetry; exact H2|congruence]]).
  assert (Rt : forall t, same_thread t t) by (intros t; apply teq_refl).
  assert (Mt : forall s t, same_thread s t -> same_thread t s) by (intros s t H; unfold same_thread in *; rewrite teq_sym; exact H).
  assert (Sy : forall p q, pattern_eqb p q = true -> pattern_eqb q p = true).
  { intros p q H. apply pattern_eqb_iff in H. apply pattern_eqb_iff. destruct H; split; apply M; assumption. }
  intros p q. split; [apply pattern_eqb_iff|]. split; [reflexivity|]. split; [apply pattern_eqb_iff; split; apply R; assumption|]. split.
  - destruct (pattern_eqb q p) eqn:E1, (pattern_eqb p q) eqn:E2; auto; [apply Sy in E1|apply Sy in E2]; congruence.
  - intros r H1 H2. apply pattern_eqb_iff in H1, H2. apply pattern_eqb_iff. destruct H1 as [A1 A2], H2 as [B1 B2]. split.
    + destruct A1 as [L1 A], B1 as [L2 B]. split; [congruence|]. intros k a c Ha Hc.
      destruct (nth_error (p_stitches q) k) as [b|] eqn:Hb; [|apply nth_error_None in Hb; assert (k < length (p_stitches p))%nat by (apply nth_error_Some; congruence); lia].
      destruct (A k a b Ha Hb) as (X1 & X2 & X3), (B k b c Hb Hc) as (Y1 & Y2 & Y3). split; [rewrite X1; exact Y1|]. split; [rewrite X2; exact Y2|congruence].
    + destruct A2 as [L1 A], B2 as [L2 B]. split; [congruence|]. intros k a c Ha Hc.
      destruct (nth_error (p_threads q) k) as [b|] eqn:Hb; [|apply nth_error_None in Hb; assert (k < length (p_threads p))%nat by (apply nth_error_Some; congruence); lia].
      unfold same_thread in *. eapply teq_trans; [eapply A; eassumption|eapply B; eassumption].
Qed.
Print Assumptions C207_equality.

(** ** The same calls on equal patterns *)
Lemma item_Forall2 {A} (same : A -> A -> Prop) l m : item_by_item same l m <-> Forall2 same l m.
Proof.
  split.
  - revert m. induction l as [|a l IH]; intros [|b m] [L H]; try discriminate L; constructor.
    + apply (H 0%nat); reflexivity.
    + apply IH. split; [cbn in L; congruence|]. intros k x y. apply (H (S k)).
  - induction 1 as [|a b l m H1 H2 [L IH]]; [split; [reflexivity|intros [|k] ? ? H; discriminate]|]. split; [cbn; congruence|].
    intros [|k] x y Hx Hy; cbn in Hx, Hy; [congruence|eapply IH; eassumption].
Qed.
(** Equal, and drawn on from the same place. *)
Definition alike (p q : pattern thread Q) : Prop :=
  Forall2 same_stitch (p_stitches p) (p_stitches q) /\ Forall2 same_thread (p_threads p) (p_threads q) /\ (p_x p == p_x q)%Q /\ (p_y p == p_y q)%Q.
Lemma F2_insert {A} (same : A -> A -> Prop) k a b l m : same a b -> Forall2 same l m -> Forall2 same (py_insert k a l) (py_insert k b m).
Proof.
  intros H F. unfold py_insert. revert l m F. induction (Z.to_nat k) as [|n IH]; intros l m F; cbn; [constructor; assumption|].
  destruct F as [|x y l m F1 F2]; [constructor; [assumption|constructor]|]. cbn. constructor; [assumption|]. apply IH. exact F2.
Qed.
Lemma F2_length {A B} (P : A -> B -> Prop) l m : Forall2 P l m -> zlen l = zlen m.
Proof. unfold zlen. induction 1; cbn; lia. Qed.
Lemma F2_index {A} (same : A -> A -> Prop) l m k : Forall2 same l m ->
  match py_index k l, py_index k m with Ok a, Ok b => same a b | Err e, Err e' => e = e' | _, _ => False end.
Proof.
  intros F. unfold py_index. destruct (k <? 0); [reflexivity|]. revert l m F. induction (Z.to_nat k) as [|n IH]; intros l m F; destruct F; cbn; auto.
  apply IH. assumption.
Qed.
Lemma same_mk x y x' y' c : (x == x')%Q -> (y == y')%Q -> same_stitch (mkS x y c) (mkS x' y' c).
Proof. split; [assumption|split; [assumption|reflexivity]]. Qed.
Lemma alike_add_abs c x y x' y' p q : (x == x')%Q -> (y == y')%Q -> alike p q -> alike (add_stitch_absolute c x y p) (add_stitch_absolute c x' y' q).
Proof.
  intros Hx Hy (A1 & A2 & A3 & A4). unfold alike, add_stitch_absolute. cbn [p_stitches p_threads p_x p_y]. split; [|split; [assumption|split; assumption]].
  apply Forall2_app; [assumption|]. constructor; [apply same_mk; assumption|constructor].
Qed.
Lemma alike_add_rel c dx dy p q : alike p q -> alike (add_stitch_relative c dx dy p) (add_stitch_relative c dx dy q).
Proof. intros A. unfold add_stitch_relative. apply alike_add_abs; [| |exact A]; destruct A as (_ & _ & A3 & A4); [rewrite A3|rewrite A4]; reflexivity. Qed.
Lemma alike_insert_rel k c dx dy p q : alike p q ->
  match insert_stitch_relative k c dx dy p, insert_stitch_relative k c dx dy q with Ok p', Ok q' => alike p' q' | Err e, Err e' => e = e' | _, _ => False end.
Proof.
  intros A. pose proof A as (A1 & A2 & A3 & A4). unfold insert_stitch_relative. cbv zeta. rewrite <- (F2_length _ _ _ A1).
  set (j := if k <? 0 then k + zlen (p_stitches p) else k).
  destruct (j =? 0); [|destruct (j =? zlen (p_stitches p)); [|destruct ((0 <? j) && (j <? zlen (p_stitches p)))]].
  - split; [|split; [assumption|split; assumption]]. cbn [p_stitches]. apply F2_insert; [apply same_mk; reflexivity|assumption].
  - apply alike_add_rel. exact A.
  - pose proof (F2_index _ _ _ (j - 1) A1) as I. destruct (py_index (j - 1) (p_stitches p)) as [a|], (py_index (j - 1) (p_stitches q)) as [b|]; cbn [bindr]; try contradiction; [|exact I].
    split; [|split; [assumption|split; assumption]]. cbn [p_stitches]. apply F2_insert; [|assumption]. destruct I as (I1 & I2 & _). apply same_mk; [rewrite I1|rewrite I2]; reflexivity.
  - exact A.
Qed.
Lemma alike_list_insert k s l m : Forall2 same_stitch l m -> Forall2 same_stitch (list_insert k s l) (list_insert k s m).
Proof. intros F. unfold list_insert. rewrite <- (F2_length _ _ _ F). apply F2_insert; [split; [reflexivity|split; reflexivity]|exact F]. Qed.
Lemma alike_draw (c : call thread) p q : alike p q ->
  match draw c p, draw c q with Ok p', Ok q' => alike p' q' | Err e, Err e' => e = e' | _, _ => False end.
Proof.
  intros A. pose proof A as (A1 & A2 & A3 & A4).
  destruct c as [m dx dy [k|]|s x y [k|]|c dx dy|c x y|k c x y|c x y|c x y|dx dy|t|]; cbn [draw relative absolute].
  - apply alike_insert_rel. exact A.
  - apply alike_add_rel. exact A.
  - split; [apply alike_list_insert; exact A1|split; [assumption|split; assumption]].
  - apply alike_add_abs; [reflexivity|reflexivity|exact A].
  - apply alike_add_rel. exact A.
  - apply alike_add_abs; [reflexivity|reflexivity|exact A].
  - split; [apply alike_list_insert; exact A1|split; [assumption|split; assumption]].
  - split; [apply alike_list_insert; exact A1|split; [assumption|split; assumption]].
  - split; [|split; [assumption|split; assumption]]. cbn [p_stitches add_command]. apply Forall2_app; [assumption|]. constructor; [apply same_mk; reflexivity|constructor].
  - split; [|split; [assumption|split; assumption]]. cbn [p_stitches]. unfold translate. clear - A1. induction A1 as [|a b l m (H1 & H2 & H3) F IH]; cbn; constructor; [|exact IH].
    split; [cbn [sx]; rewrite H1; reflexivity|]. split; [cbn [sy]; rewrite H2; reflexivity|exact H3].
  - split; [assumption|]. split; [|split; assumption]. cbn [p_threads]. apply Forall2_app; [assumption|]. constructor; [apply teq_refl|constructor].
  - split; [constructor|split; [constructor|split; reflexivity]].
Qed.
Lemma alike_draw_all (cs : list (call thread)) : forall p q, alike p q ->
  match draw_all cs p, draw_all cs q with Ok p', Ok q' => alike p' q' | Err e, Err e' => e = e' | _, _ => False end.
Proof.
  induction cs as [|c cs IH]; intros p q A; cbn [draw_all]; [exact A|]. pose proof (alike_draw c p q A) as D.
  destruct (draw c p), (draw c q); cbn [bindr]; try contradiction; [apply IH; exact D|exact D].
Qed.
Lemma alike_eqb p q : alike p q -> pattern_eqb p q = true.
Proof. intros (A1 & A2 & _). apply pattern_eqb_iff. split; apply item_Forall2; assumption. Qed.
Lemma F2_rev {A} (P : A -> A -> Prop) l m : Forall2 P l m -> Forall2 P (rev l) (rev m).
Proof. induction 1; cbn; [constructor|]. apply Forall2_app; [assumption|]. constructor; [assumption|constructor]. Qed.

(** Two equal patterns, each put together by calls that keep count of the last command (C156): any further calls have
    the same outcome on both, with equal patterns. *)
Theorem C207_same_calls_partial : forall (p q : pattern thread Q) (cs : list (call thread)), history p -> history q -> pattern_eqb p q = true ->
  match draw_all cs p, draw_all cs q with
  | Ok p', Ok q' => pattern_eqb p' q' = true
  | Err e, Err e' => e = e'
  | _, _ => False
  end.
Proof.
  intros p q cs Hp Hq E. assert (A : alike p q).
  { apply pattern_eqb_iff in E. destruct E as [E1 E2]. apply (proj1 (item_Forall2 _ _ _)) in E1, E2. split; [exact E1|]. split; [exact E2|].
    pose proof (history_pen _ _ Hp) as P. pose proof (history_pen _ _ Hq) as P'. pose proof (F2_rev _ _ _ E1) as R. unfold pen in *.
    destruct R as [|s t ? ? (S1 & S2 & _) _]; injection P as <- <-; injection P' as <- <-; split; try reflexivity; assumption. }
  pose proof (alike_draw_all cs p q A) as D. destruct (draw_all cs p), (draw_all cs q); try exact D. apply alike_eqb. exact D.
Qed.
(** Without that it fails: a pattern moved by translate, one filled with raw commands and one with an insertion at its
    start are equal to a pattern of stitches, but the next stitch by (5, 0) is put elsewhere. *)
Theorem C207_same_calls_refuted : forall cs, In cs [[Relative Stitch 5 0 None; Translate 10 0]; [Command STITCH 15 0]; [Relative Stitch 15 0 (Some 0)]] ->
  exists p q p' q', draw_all cs new_pattern = Ok p /\ draw_all [Relative Stitch 15 0 None] new_pattern = Ok q /\ pattern_eqb p q = true /\
    draw (Relative Stitch 5 0 None) p = Ok p' /\ draw (Relative Stitch 5 0 None) q = Ok q' /\ pattern_eqb p' q' = false.
Proof.
  intros cs H. repeat (destruct H as [<-|H]; [do 4 eexists; split; [reflexivity|split; [reflexivity|split; [vm_compute; reflexivity|split; [reflexivity|split; [reflexivity|vm_compute; reflexivity]]]]]|]). destruct H.
Qed.
Print Assumptions C207_same_calls_partial.
Print Assumptions C207_same_calls_refuted.

(** Two ways to the same design, and a third call on both. *)
Definition c207_one : list (call thread) := [Relative Stitch 10 0 None; Relative Stitch 5 5 None; Thread (mkT 0xFF0000 (Some [82]) None None None None None)].
Definition c207_two : list (call thread) := [Thread (mkT 0x1FF0000 (Some [82]) None None None None None); Absolute true 15 5 None; Insert 0 STITCH 10 0].
Example C207_case : exists p q, history p /\ history q /\ draw_all c207_one new_pattern = Ok p /\ draw_all c207_two new_pattern = Ok q /\ pattern_eqb p q = true /\
  p <> q.
Proof.
  eexists. eexists. split; [|split; [|split; [reflexivity|split; [reflexivity|split; [vm_compute; reflexivity|vm_compute; discriminate]]]]].
  - apply (history_calls _ c207_one new_pattern); [apply h_new| |reflexivity]. cbn. repeat split; try lia; auto.
  - apply (history_calls _ c207_two new_pattern); [apply h_new| |reflexivity]. cbn. repeat split; try lia; auto.
Qed.
