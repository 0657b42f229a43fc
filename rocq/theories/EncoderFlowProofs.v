(** From the monitor to the specification of the output. *)
From Coq Require Import ZArith List Bool Lia.
From Verif Require Import PyBase EmbConst FunctionsModel ThreadModel NumModel MatrixModel EncoderModel
  BitLemmas EncoderProofs EncoderPlanProofs EncoderSpec.
Import ListNotations.
Open Scope Z_scope.

(** Case analysis on one monitor step. *)
Ltac msteps H :=
  unfold mstep in H; cbv zeta in H;
  repeat match type of H with
  | (if ?a =? ?b then _ else _) = _ => destruct (Z.eqb_spec a b)
  | (if (?a =? ?b) || (?d =? ?e) then _ else _) = _ => destruct (Z.eqb_spec a b); cbn [orb] in H
  | (if ?b then _ else _) = _ => let E := fresh "Eb" in destruct b eqn:E
  end; try discriminate H.

Section Monitored.
Context {C : Type}.
Variables (kind : Z) (seqs speeds : bool).
Implicit Types l : list (stitch C).
Notation run := (mrun kind seqs speeds).
Notation step := (mstep kind seqs speeds).

Lemma is_cmd_of : forall k (a : stitch C), is_cmd k a = (cmd_of (scmd a) =? k).
Proof. reflexivity. Qed.

(** What the monitor state says about the list read so far. *)
Definition sewn_since l : Prop :=
  exists p1 a p2, l = p1 ++ a :: p2 /\ is_cmd STITCH a = true /\
    Forall (fun b => is_cmd TRIM b = false /\ is_cmd STOP b = false /\ is_cmd COLOR_CHANGE b = false /\
                     is_cmd NEEDLE_SET b = false) p2.

Definition means (m : mon) l : Prop :=
  (m_sewn m = true -> sewn_since l) /\
  m_mode m = Z.odd (count_cmd SEQUIN_MODE l) /\
  (m_any m = true <-> sews l) /\
  (kind = COLOR_CHANGE -> Z.of_nat (length (m_changes m)) = count_cmd COLOR_CHANGE l) /\
  only_core kind (seqs = true) (speeds = true) l /\
  Forall (fun a => is_cmd END a = false) l.

Lemma means_nil : means mon0 [].
Proof.
  unfold means, sews. split; [discriminate|]. split; [reflexivity|]. split.
  - split; [discriminate|]. intros H. apply Exists_nil in H. contradiction.
  - split; [reflexivity|]. split; constructor.
Qed.

Lemma count_app : forall k l a, count_cmd k (l ++ [a]) = count_cmd k l + (if is_cmd k a then 1 else 0).
Proof.
  intros k l a. unfold count_cmd. rewrite filter_app, app_length. cbn [filter].
  destruct (is_cmd k a); cbn [length]; lia.
Qed.

Lemma sews_app : forall l a, sews (l ++ [a]) <-> sews l \/ (is_cmd STITCH a = true \/ is_cmd SEQUIN_EJECT a = true).
Proof.
  intros l a. unfold sews. rewrite Exists_app, Exists_cons, Exists_nil. tauto.
Qed.

Lemma sewn_keep : forall l a, sewn_since l -> is_cmd TRIM a = false -> is_cmd STOP a = false ->
  is_cmd COLOR_CHANGE a = false -> is_cmd NEEDLE_SET a = false -> sewn_since (l ++ [a]).
Proof.
  intros l a (p1 & b & p2 & -> & Hb & Hf) H1 H2 H3 H4. exists p1, b, (p2 ++ [a]).
  split; [rewrite <- app_assoc; reflexivity|]. split; [exact Hb|]. apply Forall_app. split; [exact Hf|].
  constructor; [auto|constructor].
Qed.

Lemma means_step : forall l a m m', means m l -> step m (scmd a) = Some m' -> means m' (l ++ [a]).
Proof.
  intros l a m m' (M1 & M2 & M3 & M4 & M5 & M6) E.
  assert (S : forall k, is_cmd k a = (cmd_of (scmd a) =? k)) by reflexivity.
  unfold means. rewrite sews_app, !count_app, !S. unfold only_core. rewrite !Forall_app.
  (* the last command decides *)
  assert (T : forall k, cmd_of (scmd a) = k ->
    (m_sewn m' = true -> sewn_since (l ++ [a])) /\
    (m_mode m' = Z.odd (count_cmd SEQUIN_MODE l + (if k =? SEQUIN_MODE then 1 else 0))) /\
    (m_any m' = true <-> sews l \/ k =? STITCH = true \/ k =? SEQUIN_EJECT = true) /\
    (kind = COLOR_CHANGE -> Z.of_nat (length (m_changes m')) =
        count_cmd COLOR_CHANGE l + (if k =? COLOR_CHANGE then 1 else 0)) /\
    (k =? STITCH = true \/ k =? JUMP = true \/ k =? TRIM = true \/ k =? STOP = true \/ k =? END = true \/
     (k =? COLOR_CHANGE = true /\ kind = COLOR_CHANGE) \/ (k =? NEEDLE_SET = true /\ kind = NEEDLE_SET) \/
     ((k =? SEQUIN_MODE = true \/ k =? SEQUIN_EJECT = true) /\ seqs = true) \/
     ((k =? SLOW = true \/ k =? FAST = true) /\ speeds = true)) /\
    k =? END = false).
  { intros k Ek. clear S. unfold mstep in E. cbv zeta in E. rewrite Ek in E.
    assert (K : sewn_since l -> k =? TRIM = false -> k =? STOP = false -> k =? COLOR_CHANGE = false ->
     k =? NEEDLE_SET = false -> sewn_since (l ++ [a])).
    { intros. apply sewn_keep; [assumption| | | |]; rewrite is_cmd_of, Ek; assumption. }
    assert (odd0 : Z.odd (count_cmd SEQUIN_MODE l + 0) = Z.odd (count_cmd SEQUIN_MODE l)) by (f_equal; lia).
    destruct (Z.eqb_spec k STITCH) as [Hq|N1].
    { rewrite Hq in *. injection E as <-. cbn. rewrite odd0. split; [|split; [exact M2|split; [tauto|split; [intros Hk; rewrite (M4 Hk); lia|tauto]]]].
      intros _. exists l, a, []. split; [reflexivity|]. split; [rewrite is_cmd_of, Ek; reflexivity|constructor]. }
    destruct (Z.eqb_spec k JUMP) as [Hq|N2].
    { rewrite Hq in *. destruct (m_mode m) eqn:Em; [discriminate|]. injection E as <-. cbn. rewrite odd0, Em.
      split; [|split; [exact M2|split; [rewrite M3; intuition discriminate|split; [intros Hk; rewrite (M4 Hk); lia|tauto]]]].
      intros W. apply K; auto. }
    destruct (Z.eqb_spec k TRIM) as [Hq|N3].
    { rewrite Hq in *. destruct (m_mode m || negb (m_sewn m)) eqn:Em; [discriminate|]. injection E as <-. cbn. rewrite odd0.
      split; [discriminate|split; [exact M2|split; [rewrite M3; intuition discriminate|split; [intros Hk; rewrite (M4 Hk); lia|tauto]]]]. }
    destruct (Z.eqb_spec k STOP) as [Hq|N4].
    { rewrite Hq in *. injection E as <-. cbn. rewrite odd0.
      split; [discriminate|split; [exact M2|split; [rewrite M3; intuition discriminate|split; [intros Hk; rewrite (M4 Hk); lia|tauto]]]]. }
    destruct (Z.eqb_spec k COLOR_CHANGE) as [Hq|N5].
    { rewrite Hq in *. destruct (Z.eqb_spec kind COLOR_CHANGE) as [Hk|Hk]; [|discriminate]. injection E as <-. cbn. rewrite odd0, app_length.
      split; [discriminate|split; [exact M2|split; [rewrite M3; intuition discriminate|split; [intros _; cbn [length]; rewrite <- (M4 Hk); lia|tauto]]]]. }
    destruct (Z.eqb_spec k NEEDLE_SET) as [Hq|N6].
    { rewrite Hq in *. destruct (Z.eqb_spec kind NEEDLE_SET) as [Hk|Hk]; [|discriminate]. injection E as <-. cbn. rewrite odd0, app_length.
      split; [discriminate|split; [exact M2|split; [rewrite M3; intuition discriminate|split; [intros Hk'; rewrite Hk in Hk'; discriminate|tauto]]]]. }
    destruct (Z.eqb_spec k SEQUIN_MODE) as [Hq|N7].
    { rewrite Hq in *. destruct seqs eqn:Es; [|discriminate]. injection E as <-. cbn.
      split; [intros W; apply K; auto|split; [rewrite M2, Z.odd_add; destruct (Z.odd _); reflexivity|split; [rewrite M3; intuition discriminate|split; [intros Hk; rewrite (M4 Hk); lia|tauto]]]]. }
    destruct (Z.eqb_spec k SEQUIN_EJECT) as [Hq|N8].
    { rewrite Hq in *. destruct seqs eqn:Es; [|discriminate]. destruct (m_mode m) eqn:Em; [|discriminate]. injection E as <-. cbn. rewrite odd0.
      split; [intros W; apply K; auto|split; [exact M2|split; [tauto|split; [intros Hk; rewrite (M4 Hk); lia|tauto]]]]. }
    destruct ((k =? SLOW) || (k =? FAST)) eqn:Esp; [|discriminate]. destruct speeds eqn:Ed; [|discriminate].
    injection E as <-. apply orb_prop in Esp. rewrite odd0.
    split; [|split; [exact M2|split; [rewrite M3; intuition discriminate|split; [intros Hk; rewrite (M4 Hk); lia|]]]].
    - intros W. apply K; auto.
    - split; [tauto|]. destruct Esp as [X|X]; apply Z.eqb_eq in X; rewrite X; reflexivity. }
  destruct (T _ eq_refl) as (T1 & T2 & T3 & T4 & T5 & T6).
  split; [exact T1|]. split; [exact T2|]. split; [rewrite T3; tauto|]. split; [exact T4|].
  split; [split; [exact M5|]|split; [exact M6|]]; (constructor; [|constructor]).
  - cbv beta. rewrite !S. exact T5.
  - cbv beta. rewrite !S. exact T6.
Qed.

Lemma run_means : forall post pre m m', means m pre -> run m (map scmd post) = Some m' -> means m' (pre ++ post).
Proof.
  induction post as [|a post IH]; intros pre m m' H E; cbn [map mrun] in E.
  - injection E as <-. rewrite app_nil_r. exact H.
  - destruct (step m (scmd a)) as [m1|] eqn:E1; [|discriminate].
    rewrite (app_assoc pre [a] post : pre ++ a :: post = (pre ++ [a]) ++ post).
    eapply IH; [|exact E]. eapply means_step; eassumption.
Qed.

Lemma run_trims : forall l m, run mon0 (map scmd l) = Some m -> trims_after_sewing l.
Proof.
  intros l m E pre t post -> Ht. rewrite map_app, mrun_app in E.
  destruct (run mon0 (map scmd pre)) as [m1|] eqn:E1; [|discriminate].
  destruct (run_means pre [] mon0 m1 means_nil E1) as (M1 & _). cbn [app] in M1.
  cbn [map mrun] in E. destruct (step m1 (scmd t)) as [m2|] eqn:E2; [|discriminate].
  rewrite is_cmd_of in Ht. apply Z.eqb_eq in Ht. unfold mstep in E2. cbv zeta in E2. rewrite Ht in E2. cbn in E2.
  destruct (m_mode m1 || negb (m_sewn m1)) eqn:Em; [discriminate|]. apply orb_false_iff in Em.
  apply M1. apply negb_false_iff. apply Em.
Qed.

Lemma run_sequins : forall l m, run mon0 (map scmd l) = Some m -> sequin_discipline l.
Proof.
  intros l m E pre t post ->. rewrite map_app, mrun_app in E.
  destruct (run mon0 (map scmd pre)) as [m1|] eqn:E1; [|discriminate].
  destruct (run_means pre [] mon0 m1 means_nil E1) as (_ & M2 & _). cbn [app] in M2.
  cbn [map mrun] in E. destruct (step m1 (scmd t)) as [m2|] eqn:E2; [|discriminate].
  unfold mstep in E2. cbv zeta in E2. rewrite !is_cmd_of. split.
  - intros [Ht|Ht]; apply Z.eqb_eq in Ht; rewrite Ht in E2; cbn in E2;
      (destruct (m_mode m1) eqn:Em; [discriminate|]); rewrite <- Z.negb_odd, <- M2; reflexivity.
  - intros Ht. apply Z.eqb_eq in Ht. rewrite Ht in E2. cbn in E2.
    destruct seqs; [|discriminate]. destruct (m_mode m1); [|discriminate]. congruence.
Qed.
End Monitored.

(** The two disciplines also hold after appending the END. *)
Lemma snoc_split : forall A (body : list A) e pre t post, body ++ [e] = pre ++ t :: post ->
  (exists post', body = pre ++ t :: post') \/ (t = e /\ pre = body).
Proof.
  intros A body e pre t post. revert body. induction pre as [|a pre IH]; intros body E.
  - destruct body as [|b body]; cbn in E.
    + injection E as <- <-. right. auto.
    + injection E as <- E. left. exists body. reflexivity.
  - destruct body as [|b body]; cbn in E.
    + injection E as _ E. destruct pre; discriminate.
    + injection E as <- E. destruct (IH body E) as [[post' ->]|[-> ->]].
      * left. exists post'. reflexivity.
      * right. auto.
Qed.

Lemma trims_snoc : forall C (l : list (stitch C)) e, is_cmd END e = true -> trims_after_sewing l -> trims_after_sewing (l ++ [e]).
Proof.
  intros C l e He H pre t post E Ht. destruct (snoc_split _ _ _ _ _ _ E) as [[post' ->]|[-> ->]].
  - eapply H; [reflexivity|exact Ht].
  - unfold is_cmd in *. apply Z.eqb_eq in He. rewrite He in Ht. discriminate.
Qed.

Lemma sequins_snoc : forall C (l : list (stitch C)) e, is_cmd END e = true -> sequin_discipline l -> sequin_discipline (l ++ [e]).
Proof.
  intros C l e He H pre t post E. destruct (snoc_split _ _ _ _ _ _ E) as [[post' ->]|[-> ->]].
  - eapply H. reflexivity.
  - unfold is_cmd in *. apply Z.eqb_eq in He. rewrite He. cbn. split; [intros [X|X]; discriminate|discriminate].
Qed.

(** ** The whole of transcode *)
Section Whole.
Context (N : Num).
Notation F := (F N).

Definition start (set : settings N) (threads : list thread) : st N :=
  let s := init_state N set in
  if thread_change_command (init_config N set) =? NEEDLE_SET
  then mkSt N (out N s) (map Own threads) (nx N s) (ny N s) (order_index N s) (trimmed N s)
         (sequin_mode N s) (jumping N s) (high_flags N s) (max_stitch N s) (max_jump N s)
         (explicit_trim N s) (tie_on_contingency N s) (tie_off_contingency N s)
         (long_stitch_contingency N s) (sequin_contingency N s) (matrix N s)
  else s.

Definition start_threads (set : settings N) (threads : list thread) : list tref :=
  if thread_change_command (init_config N set) =? NEEDLE_SET then map Own threads else [].

Definition sequins_allowed (set : settings N) (l : list (stitch F)) : bool :=
  (sequin_contingency N (init_state N set) =? CONTINGENCY_SEQUIN_UTILIZE) ||
  existsb (is_cmd CONTINGENCY_SEQUIN_UTILIZE) l.

Definition has_ties (l : list (stitch F)) : bool :=
  existsb (fun a => is_cmd TIE_ON a || is_cmd TIE_OFF a) l.

Lemma start_inv : forall set threads seq seqs ties,
  (sequin_contingency N (init_state N set) =? CONTINGENCY_SEQUIN_UTILIZE = true -> seqs = true) ->
  Inv N (init_config N set) seq (start_threads set threads) seqs ties (start set threads) mon0.
Proof.
  intros set threads seq seqs ties Hs. unfold start, start_threads.
  destruct (Z.eqb_spec (thread_change_command (init_config N set)) NEEDLE_SET) as [En|En].
  all: constructor; cbn [out othreads order_index sequin_mode sequin_contingency high_flags init_state m_mode m_any mon0];
    try reflexivity; try discriminate; try lia.
  1, 3: intros Eu; apply Hs; apply Z.eqb_eq; exact Eu.
  all: exists []; split; [reflexivity|]; split; [intros k ch Hk; destruct k; discriminate|];
    split; [intros Hk; cbn; try (rewrite Hk in En; discriminate); auto|];
    split; [intros Hk; cbn; try contradiction; auto|intros Hk; cbn; try (rewrite Hk in En; discriminate); auto].
Qed.

Lemma start_open : forall set threads, open_ok N (start set threads) mon0.
Proof. intros set threads H. unfold start in H. destruct (_ =? _); discriminate H. Qed.

Lemma source_allowed : forall set l, source_ok N (sequins_allowed set l) (has_ties l) l.
Proof.
  intros set l.
  assert (G : forall l', incl l' l -> source_ok N (sequins_allowed set l) (has_ties l) l').
  { induction l' as [|a l' IH]; intros Hi; constructor.
    - destruct (classify (cmd_of (scmd a))) eqn:Ec; cbn; auto.
      + right. unfold has_ties. apply existsb_exists. exists a. split; [apply Hi; left; reflexivity|].
        apply orb_true_iff. right. unfold is_cmd. apply Z.eqb_eq. change (cmd_of (scmd a) = TIE_OFF).
        revert Ec. unfold classify.
        repeat match goal with |- (if ?x =? ?y then _ else _) = _ -> _ => destruct (Z.eqb_spec x y); [try discriminate; auto|] end.
        discriminate.
      + right. unfold has_ties. apply existsb_exists. exists a. split; [apply Hi; left; reflexivity|].
        apply orb_true_iff. left. unfold is_cmd. apply Z.eqb_eq. change (cmd_of (scmd a) = TIE_ON).
        revert Ec. unfold classify.
        repeat match goal with |- (if ?x =? ?y then _ else _) = _ -> _ => destruct (Z.eqb_spec x y); [try discriminate; auto|] end.
        discriminate.
      + right. intros Ev. unfold sequins_allowed. apply orb_true_iff. right. apply existsb_exists.
        exists a. split; [apply Hi; left; reflexivity|]. unfold is_cmd. apply Z.eqb_eq.
        change (cmd_of (scmd a) = CONTINGENCY_SEQUIN_UTILIZE). subst c. revert Ec. unfold classify.
        repeat match goal with |- (if ?x =? ?y then _ else _) = _ -> _ => destruct (Z.eqb_spec x y); [try discriminate; auto|] end.
        discriminate.
    - apply IH. intros b Hb. apply Hi. right. exact Hb. }
  apply G, incl_refl.
Qed.

Lemma transcode_unfold : forall set p,
  transcode N set p =
  (do seq <- build_thread_change_sequence (thread_change_command (init_config N set)) (needle_count (init_config N set))
              (p_threads N p) (map scmd (p_stitches N p));
   do s <- main_loop N (init_config N set) seq (p_stitches N p) 0 (p_stitches N p) (start set (p_threads N p));
   Ok (out N s, othreads N s)).
Proof. reflexivity. Qed.

Lemma transcode_inv : forall set p o ths, transcode N set p = Ok (o, ths) ->
  exists seq body e s1 m1,
    build_thread_change_sequence (thread_change_command (init_config N set)) (needle_count (init_config N set))
      (p_threads N p) (map scmd (p_stitches N p)) = Ok seq /\
    o = body ++ [e] /\ is_cmd END e = true /\
    Inv N (init_config N set) seq (start_threads set (p_threads N p))
      (sequins_allowed set (p_stitches N p)) (has_ties (p_stitches N p)) s1 m1 /\
    out N s1 = body /\ ths = othreads N s1.
Proof.
  intros set p o ths E. rewrite transcode_unfold in E.
  destruct (build_thread_change_sequence _ _ _ _) as [seq|] eqn:Eb; [|discriminate]. cbn [bindr] in E.
  destruct (main_loop _ _ _ _ _ _ _) as [s|] eqn:Em; [|discriminate]. cbn [bindr] in E. injection E as <- <-.
  assert (Hi : Inv N (init_config N set) seq (start_threads set (p_threads N p))
      (sequins_allowed set (p_stitches N p)) (has_ties (p_stitches N p)) (start set (p_threads N p)) mon0).
  { apply start_inv. unfold sequins_allowed. intros ->. reflexivity. }
  destruct (main_loop_inv _ _ _ _ _ _ _ _ _ _ _ _ Hi (start_open _ _) (source_allowed _ _) Em)
    as (body & e & s1 & m1 & A & B & D & O & T & R).
  exists seq, body, e, s1, m1. rewrite A. rewrite is_cmd_of, (proj2 (Z.eqb_eq _ _) B). auto 8.
Qed.

Lemma transcode_no_key : forall set p, arith_no_key N -> transcode N set p <> Err KeyError.
Proof.
  intros set p AN. rewrite transcode_unfold. apply nk_bind.
  { unfold build_thread_change_sequence. apply finish_plan_no_key. }
  intros seq Es. apply nk_bind; [|discriminate].
  destruct (plan_covers _ _ _ _ _ Es) as [K0 Kc].
  set (s0 := start set (p_threads N p)).
  eapply (main_loop_no_key N AN (init_config N set) seq (start_threads set (p_threads N p)) K0) with (ci := 0) (m := mon0).
  - apply start_inv. auto.
  - apply start_open.
  - exact Kc.
  - unfold s0, start. destruct (_ =? _); cbn; lia.
Qed.
End Whole.
