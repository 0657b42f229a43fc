(** The encoder never fails to find the planned thread of a change. *)
From Coq Require Import ZArith List Bool Lia.
From Verif Require Import PyBase EmbConst FunctionsModel ThreadModel NumModel MatrixModel EncoderModel
  BitLemmas EncoderProofs.
Import ListNotations.
Open Scope Z_scope.

(** ** Keys of the plan *)
Definition has_key {A} (k : Z) (d : dict A) : Prop := dict_get k d <> None.

Lemma has_key_set_same : forall A k (a : A) d, has_key k (dict_set k a d).
Proof.
  intros A k a. unfold has_key. induction d as [|[k' a'] d IH]; cbn [dict_set dict_get].
  - rewrite Z.eqb_refl. discriminate.
  - destruct (Z.eqb_spec k' k) as [->|Hk]; cbn [dict_get].
    + rewrite Z.eqb_refl. discriminate.
    + rewrite (proj2 (Z.eqb_neq _ _) Hk). exact IH.
Qed.

Lemma has_key_set : forall A k k0 (a : A) d, has_key k d -> has_key k (dict_set k0 a d).
Proof.
  intros A k k0 a. unfold has_key. induction d as [|[k' a'] d IH]; cbn [dict_set dict_get]; intros H.
  - congruence.
  - destruct (Z.eqb_spec k' k0) as [->|Hk]; cbn [dict_get].
    + destruct (k0 =? k); [discriminate|exact H].
    + destruct (k' =? k); [discriminate|]. apply IH. exact H.
Qed.

Lemma plan_events_keeps : forall threads evs k la d, has_key k d -> has_key k (plan_events threads la d evs).
Proof.
  intros threads. induction evs as [|e evs IH]; intros k la d H; cbn [plan_events]; [exact H|].
  destruct (match e_index e with None => _ | Some i => _ end) as [key la'].
  apply IH, has_key_set, H.
Qed.

Lemma plan_events_has : forall threads evs la d e i, In e evs -> e_index e = Some i ->
  has_key i (plan_events threads la d evs).
Proof.
  intros threads. induction evs as [|e0 evs IH]; intros la d e i Hin Hi; [contradiction|].
  cbn [plan_events]. destruct Hin as [->|Hin].
  - rewrite Hi. apply plan_events_keeps, has_key_set_same.
  - destruct (match e_index e0 with None => _ | Some i => _ end) as [key la'].
    eapply IH; eassumption.
Qed.

Lemma finish_keys : forall threads tcc lim d t n q k, finish_plan threads tcc lim t n d = Ok q ->
  has_key k d -> has_key k q.
Proof.
  intros threads tcc lim. unfold has_key.
  induction d as [|[k' s] d IH]; intros t n q k E H; cbn [finish_plan] in E; [cbn in H; congruence|].
  destruct (match d_thread s with Some t0 => (t0, t) | None => _ end) as [th t'].
  destruct (match d_needle s with Some n0 => _ | None => _ end) as [[nd n']|]; [|discriminate].
  cbn [bindr] in E. destruct (finish_plan threads tcc lim t' n' d) as [q'|] eqn:E'; [|discriminate].
  cbn [bindr] in E. injection E as <-. cbn [dict_get] in *. destruct (k' =? k); [discriminate|].
  eapply IH; eassumption.
Qed.

Lemma finish_plan_no_key : forall threads tcc lim d t n, finish_plan threads tcc lim t n d <> Err KeyError.
Proof.
  intros threads tcc lim. induction d as [|[k' s] d IH]; intros t n; cbn [finish_plan]; [discriminate|].
  destruct (match d_thread s with Some t0 => (t0, t) | None => _ end) as [th t'].
  destruct (d_needle s) as [n0|]; cbn [bindr].
  - specialize (IH t' n). destruct (finish_plan threads tcc lim t' n d); cbn [bindr]; congruence.
  - destruct (lim <? n); [destruct (lim =? 0); cbn [bindr]; [discriminate|]|cbn [bindr]];
      (specialize (IH t' (n + 1)); destruct (finish_plan threads tcc lim t' (n + 1) d); cbn [bindr]; congruence).
Qed.

Section Plan.
Context (N : Num).
Notation st := (st N).

(** Arithmetic does not raise KeyError. *)
Definition arith_no_key : Prop :=
  (forall a b, fdiv N a b <> Err KeyError) /\ (forall a n, fdivz N a n <> Err KeyError) /\
  (forall a, fceil N a <> Err KeyError) /\ (forall a, fround N a <> Err KeyError).

Hypothesis AN : arith_no_key.

Lemma nk_bind : forall A B (r : res A) (f : A -> res B), r <> Err KeyError ->
  (forall a, r = Ok a -> f a <> Err KeyError) -> bindr r f <> Err KeyError.
Proof. intros A B [a|e] f H K; cbn [bindr]; [apply K; reflexivity|congruence]. Qed.

Lemma nk_interp : forall s x0 y0 x1 y1 l data,
  interpolate_gap_stitches N s x0 y0 x1 y1 l data <> Err KeyError.
Proof.
  intros s x0 y0 x1 y1 [l|] data; unfold interpolate_gap_stitches; cbv zeta; [|discriminate].
  destruct AN as (A1 & A2 & A3 & A4).
  destruct (exceeds _ _ _ || exceeds _ _ _); [|discriminate].
  repeat (apply nk_bind; [auto|intros ? _]). discriminate.
Qed.

Lemma nk_inverse : forall m, inverse N m <> Err KeyError.
Proof.
  intros m. destruct AN as (A1 & _). unfold inverse. cbv zeta. apply nk_bind; [auto|]. discriminate.
Qed.

Lemma nk_placed : forall c s a, placed N c s a <> Err KeyError.
Proof.
  intros c s a. destruct AN as (_ & _ & _ & A4). unfold placed.
  destruct (point_in_matrix_space N (matrix N s) (sx a) (sy a)) as [x y].
  destruct (rounding c); [|discriminate]. repeat (apply nk_bind; [auto|intros ? _]). discriminate.
Qed.

Lemma nk_needle_to : forall s x y, needle_to N s x y <> Err KeyError.
Proof. intros. unfold needle_to. apply nk_bind; [apply nk_interp|discriminate]. Qed.
Lemma nk_sew_to : forall s x y, sew_to N s x y <> Err KeyError.
Proof. intros. unfold sew_to. apply nk_bind; [apply nk_interp|discriminate]. Qed.
Lemma nk_jump_to : forall s x y, jump_to N s x y <> Err KeyError.
Proof. intros. unfold jump_to. apply nk_bind; [apply nk_interp|discriminate]. Qed.
Lemma nk_contingency : forall s x y, stitch_with_contingency N s x y <> Err KeyError.
Proof.
  intros. unfold stitch_with_contingency. destruct (_ =? _); [apply nk_sew_to|].
  destruct (_ =? _); [apply nk_needle_to|discriminate].
Qed.
Lemma nk_within : forall c s x y, jump_to_within_stitchrange N c s x y <> Err KeyError.
Proof.
  intros. unfold jump_to_within_stitchrange. apply nk_bind; [apply nk_interp|]. intros s1 _.
  destruct (full_jump c); [|discriminate]. destruct (_ || _); discriminate.
Qed.
Lemma nk_sequin_at : forall s x y, sequin_at N s x y <> Err KeyError.
Proof.
  intros. unfold sequin_at. cbv zeta. destruct (_ =? _); [discriminate|].
  apply nk_bind; [apply nk_interp|discriminate].
Qed.

Lemma nk_next : forall c seq s, has_key (order_index N s + 1) seq ->
  next_change_sequence N c seq s <> Err KeyError.
Proof.
  intros c seq s H. unfold next_change_sequence.
  change (order_index N (set_order N s (order_index N s + 1))) with (order_index N s + 1).
  destruct (dict_get (order_index N s + 1) seq) eqn:E; [discriminate|]. contradiction.
Qed.

Lemma nk_open : forall c seq src pos x y s, has_key 0 seq -> open_section N c seq src pos x y s <> Err KeyError.
Proof.
  intros c seq src pos x y s H. unfold open_section, declare_not_trimmed.
  apply nk_bind.
  - destruct (Z.eqb_spec (order_index N s) (-1)) as [E|E].
    + apply nk_bind; [|discriminate]. apply nk_next. rewrite E. exact H.
    + cbn [bindr]. discriminate.
  - intros s1 _. apply nk_bind; [apply nk_within|discriminate].
Qed.

Lemma close_order : forall src pos s, order_index N (close_section N src pos s) = order_index N s.
Proof.
  assert (L : forall s b, order_index N (lock_towards N s b) = order_index N s).
  { intros s [b|]; [|reflexivity]. cbn [lock_towards].
    destruct (point_in_matrix_space N (matrix N s) (sx b) (sy b)) as [bx by'].
    destruct (is_anchor (scmd b)); [|reflexivity]. unfold lock_stitch.
    destruct (max_stitch N s); [destruct (fdist_gt N _ _ _ _ _); [destruct (foriented N _ _ _ _ _)|]|]; reflexivity. }
  assert (T : forall s, order_index N (toggle_sequins N s) = order_index N s).
  { intros s. unfold toggle_sequins. destruct (_ =? _); reflexivity. }
  intros src pos s. unfold close_section. destruct (negb (trimmed N s)); [|reflexivity].
  assert (O : order_index N (tie_off N src pos s) = order_index N s).
  { unfold tie_off. destruct (_ =? _); [apply L|reflexivity]. }
  destruct (explicit_trim N (tie_off N src pos s)); [|exact O].
  unfold trim_here. destruct (sequin_mode N (tie_off N src pos s)); cbn -[tie_off]; [rewrite T|]; exact O.
Qed.

Lemma nk_exec : forall c seq src pos rest a x y o s,
  has_key 0 seq ->
  (o = OpThreadChange \/ o = OpColorBreak -> has_key (order_index N s + 1) seq) ->
  exec N c seq src pos rest a x y o s <> Err KeyError.
Proof.
  intros c seq src pos rest a x y o s H0 H1. destruct o; cbn [exec]; try discriminate.
  - destruct (trimmed N s); [apply nk_open; exact H0|]. destruct (jumping N s); [|apply nk_contingency].
    apply nk_bind; [apply nk_needle_to|discriminate].
  - destruct (trimmed N s); [apply nk_open; exact H0|]. destruct (jumping N s); [|apply nk_needle_to].
    apply nk_bind; [apply nk_needle_to|discriminate].
  - destruct (trimmed N s); [apply nk_open; exact H0|]. destruct (jumping N s); [|apply nk_sew_to].
    apply nk_bind; [apply nk_needle_to|discriminate].
  - apply nk_bind; [apply nk_jump_to|discriminate].
  - unfold color_break. destruct (order_index N s <? 0); [discriminate|]. cbv zeta.
    destruct (negb (lookahead_stitch N rest)); [discriminate|].
    apply nk_bind; [|discriminate]. apply nk_next. rewrite close_order. auto.
  - destruct (jumping N s); [discriminate|apply nk_jump_to].
  - apply nk_bind; [destruct (trimmed N s); [apply nk_open; exact H0|discriminate]|].
    intros s1 _. apply nk_sequin_at.
  - unfold tie_off_trim_color_change. apply nk_bind; [|discriminate]. apply nk_next. rewrite close_order. auto.
  - unfold needle_in_source. cbv zeta. apply nk_bind; [apply nk_bind; [apply nk_inverse|intros i _]|].
    + apply nk_bind; [apply nk_inverse|discriminate].
    + intros [s1 q] _. discriminate.
  - unfold needle_in_source. cbv zeta. apply nk_bind; [apply nk_bind; [apply nk_inverse|intros i _]|].
    + apply nk_bind; [apply nk_inverse|discriminate].
    + intros [s1 q] _. discriminate.
Qed.

(** How the index of the planning pass moves over one source command. *)
Definition bump (ci flags : Z) : Z := if (ci =? 0) && is_sewing flags then 1 else ci.

Definition is_change (flags : Z) : bool :=
  (flags =? NEEDLE_SET) || (flags =? COLOR_CHANGE) || (flags =? COLOR_BREAK).

Lemma classify_step : forall flags,
  (classify flags = OpThreadChange \/ classify flags = OpColorBreak <-> is_change flags = true) /\
  ((classify flags = OpStitch \/ classify flags = OpNeedleAt \/ classify flags = OpSewTo \/
    classify flags = OpSequinEject) <-> is_sewing flags = true).
Proof.
  intros flags. unfold classify, is_change, is_sewing.
  repeat match goal with
  | |- context [if ?a =? ?b then _ else _] => destruct (Z.eqb_spec a b) as [->|]
  end;
  rewrite ?orb_true_iff, ?Z.eqb_eq;
  (split; split; intros H;
   repeat match goal with H : _ \/ _ |- _ => destruct H | H : _ \/ _ \/ _ |- _ => destruct H end;
   try discriminate; try contradiction; try (exfalso; congruence); auto 6).
Qed.

Lemma events_cons : forall ci c r,
  thread_change_events ci (c :: r) =
  let flags := cmd_of c in
  let ci := bump ci flags in
  let '(_, thread, needle, order) := decode_embroidery_command c in
  if flags =? SET_CHANGE_SEQUENCE then mkE flags thread needle order None :: thread_change_events ci r
  else if is_change flags then mkE flags thread needle order (Some ci) :: thread_change_events (ci + 1) r
  else thread_change_events ci r.
Proof. reflexivity. Qed.

Section Loop.
Variables (c : config) (seq : dict change) (base : list tref).
Hypothesis K0 : has_key 0 seq.

Definition Inv' := Inv N c seq base true true.

Definition covered (ci : Z) (cs : list Z) : Prop :=
  0 <= ci /\ (forall k, 0 <= k < ci -> has_key k seq) /\
  (forall e i, In e (thread_change_events ci cs) -> e_index e = Some i -> has_key i seq).

Lemma covered_step : forall ci a r, covered ci (a :: r) ->
  let b := bump ci (cmd_of a) in
  0 <= ci <= b /\ (is_sewing (cmd_of a) = true -> 1 <= b) /\
  (forall k, 0 <= k < b -> has_key k seq) /\
  (is_change (cmd_of a) = true -> has_key b seq) /\
  covered (if is_change (cmd_of a) then b + 1 else b) r.
Proof.
  intros ci a r (C0 & C1 & C2). cbv zeta. set (b := bump ci (cmd_of a)).
  assert (B : ci <= b /\ (is_sewing (cmd_of a) = true -> 1 <= b) /\ b <= Z.max ci 1).
  { unfold b, bump. destruct (Z.eqb_spec ci 0); cbn [andb]; [|lia]. destruct (is_sewing (cmd_of a)); split; try lia. }
  assert (KB : forall k, 0 <= k < b -> has_key k seq).
  { intros k Hk. destruct (Z.ltb_spec k ci); [apply C1; lia|]. replace k with 0 by lia. exact K0. }
  rewrite events_cons in C2. cbv zeta in C2. fold b in C2.
  destruct (decode_embroidery_command a) as [[[f t] n] o].
  assert (E : cmd_of a =? SET_CHANGE_SEQUENCE = true -> is_change (cmd_of a) = false).
  { intros E. apply Z.eqb_eq in E. rewrite E. reflexivity. }
  destruct B as (B1 & B2 & B3).
  destruct (cmd_of a =? SET_CHANGE_SEQUENCE); [rewrite (E eq_refl)|destruct (is_change (cmd_of a))].
  - split; [lia|]. split; [exact B2|]. split; [exact KB|]. split; [discriminate|].
    split; [lia|]. split; [exact KB|]. intros e i He Hi. eapply C2; [right; exact He|exact Hi].
  - assert (Kb : has_key b seq) by (eapply C2; [left; reflexivity|reflexivity]).
    split; [lia|]. split; [exact B2|]. split; [exact KB|]. split; [intros _; exact Kb|].
    split; [lia|]. split.
    + intros k Hk. destruct (Z.eq_dec k b) as [->|]; [exact Kb|apply KB; lia].
    + intros e i He Hi. eapply C2; [right; exact He|exact Hi].
  - split; [lia|]. split; [exact B2|]. split; [exact KB|]. split; [discriminate|].
    split; [lia|]. split; [exact KB|]. exact C2.
Qed.

Lemma main_loop_no_key : forall src rest pos s m ci, Inv' s m -> open_ok N s m ->
  covered ci (map scmd rest) -> order_index N s + 1 <= ci ->
  main_loop N c seq src pos rest s <> Err KeyError.
Proof.
  intros src. induction rest as [|a rest IH]; intros pos s m ci H Ho Hc Hi; cbn [main_loop]; [discriminate|].
  apply nk_bind; [apply nk_placed|]. intros [x y] _.
  pose proof (inv_high _ _ _ _ _ _ s m (scmd a) H) as H1.
  set (s0 := set_high N s (Z.land (scmd a) FLAGS_MASK)) in *.
  assert (Ho1 : open_ok N s0 m) by exact Ho.
  cbn [map] in Hc. destruct (covered_step _ _ _ Hc) as (D1 & D2 & D3 & D4 & D5). cbv zeta in *.
  destruct (classify_step (cmd_of (scmd a))) as [G1 G2].
  pose proof (i_order _ _ _ _ _ _ _ _ H1) as Hord.
  change (order_index N s0) with (order_index N s) in *.
  apply nk_bind.
  - apply nk_exec; [exact K0|]. intros Hop. apply G1 in Hop.
    change (order_index N s0) with (order_index N s).
    specialize (D4 Hop). destruct (Z.eq_dec (order_index N s + 1) (bump ci (cmd_of (scmd a)))) as [->|Hn]; [exact D4|].
    apply D3. lia.
  - intros s1 E1. destruct (Z.eqb_spec (cmd_of (scmd a)) END) as [Ee|Ee]; [discriminate|].
    assert (Hop : op_ok true true (classify (cmd_of (scmd a)))).
    { destruct (classify (cmd_of (scmd a))) eqn:Ec; cbn; auto. apply classify_end in Ec. contradiction. }
    destruct (exec_inv N c seq base true true _ _ _ _ _ _ _ _ _ _ H1 Ho1 Hop E1) as (m1 & H2 & O2 & St).
    change (order_index N s0) with (order_index N s) in *.
    eapply IH; [exact H2|exact O2|exact D5|].
    destruct (classify (cmd_of (scmd a))) eqn:Ec; cbn [order_step] in St;
      try (rewrite St; destruct (is_change (cmd_of (scmd a))); lia).
    + specialize (D2 (proj1 G2 (or_introl eq_refl))). destruct (is_change (cmd_of (scmd a))); lia.
    + specialize (D2 (proj1 G2 (or_intror (or_introl eq_refl)))). destruct (is_change (cmd_of (scmd a))); lia.
    + specialize (D2 (proj1 G2 (or_intror (or_intror (or_introl eq_refl))))). destruct (is_change (cmd_of (scmd a))); lia.
    + rewrite (proj1 G1 (or_intror eq_refl)) in *. lia.
    + specialize (D2 (proj1 G2 (or_intror (or_intror (or_intror eq_refl))))). destruct (is_change (cmd_of (scmd a))); lia.
    + rewrite (proj1 G1 (or_introl eq_refl)) in *. lia.
Qed.
End Loop.

(** The plan has an entry for every event. *)
Lemma plan_covers : forall tcc nc threads cs seq, build_thread_change_sequence tcc nc threads cs = Ok seq ->
  has_key 0 seq /\ covered seq 0 cs.
Proof.
  intros tcc nc threads cs seq E. unfold build_thread_change_sequence in E.
  split; [|split; [lia|split; [intros; lia|]]].
  - eapply finish_keys; [exact E|]. apply plan_events_keeps. discriminate.
  - intros e i He Hi. eapply finish_keys; [exact E|]. eapply plan_events_has; eassumption.
Qed.
End Plan.
