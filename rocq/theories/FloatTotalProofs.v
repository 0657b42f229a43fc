(** On floats the encoder raises nothing, for positive lengths and without transformation commands. *)
From Coq Require Import ZArith Reals List Bool Lia Lra.
From Flocq Require Import Core.
From Verif Require Import PyBase EmbConst FunctionsModel ThreadModel NumModel MatrixModel EncoderModel
  EncoderProofs EncoderPlanProofs EncoderFlowProofs EncoderSpec FloatModel FloatProofs FloatMetricProofs.
Import ListNotations.
Open Scope Z_scope.

Section Total.
Variables (fcos fsin : R -> R) (forient : R -> R -> R -> R -> R -> R * R).
Notation N := (FNum fcos fsin forient).

(** ** Nothing but KeyError, which the plan excludes *)
Notation st := (st N).
Definition limit_pos (l : limit N) : Prop := match l with Fin _ l => (0 < l)%R | Inf _ => True end.
Definition frame (s s' : st) : Prop :=
  max_stitch N s' = max_stitch N s /\ max_jump N s' = max_jump N s /\ matrix N s' = matrix N s.
Definition fine (s : st) (r : res st) : Prop :=
  match r with Ok s' => frame s s' | Err e => e = KeyError end.
Definition ready (s : st) : Prop := limit_pos (max_stitch N s) /\ limit_pos (max_jump N s).

Lemma frame_refl : forall s, frame s s. Proof. intros s. unfold frame. auto. Qed.
Lemma frame_trans : forall a b c, frame a b -> frame b c -> frame a c.
Proof. intros a b c (A1 & A2 & A3) (B1 & B2 & B3). unfold frame. repeat split; congruence. Qed.
Lemma frame_ready : forall a b, frame a b -> ready a -> ready b.
Proof. intros a b (A1 & A2 & A3) H. unfold ready in *. rewrite A1, A2. exact H. Qed.

Lemma fine_bind : forall s r k, fine s r -> (forall s', frame s s' -> fine s' (k s')) -> fine s (bindr r k).
Proof.
  intros s [s'|e] k H K; cbn [bindr fine] in *; [|exact H]. specialize (K s' H).
  destruct (k s') as [t|e]; cbn [fine] in *; [|exact K]. exact (frame_trans _ _ _ H K).
Qed.
Lemma fine_ok : forall s s', frame s s' -> fine s (Ok s'). Proof. auto. Qed.
Lemma fine_from : forall s s' r, frame s s' -> fine s' r -> fine s r.
Proof. intros s s' [t|e] H K; cbn [fine] in *; [exact (frame_trans _ _ _ H K)|exact K]. Qed.

Lemma frame_add_at : forall s k x y, frame s (add_at N s k x y).
Proof. intros. unfold frame. auto. Qed.
Lemma frame_toggle : forall s, frame s (toggle_sequins N s).
Proof. intros s. unfold toggle_sequins. destruct (_ =? _); unfold frame; auto. Qed.
Lemma frame_leave : forall (b : bool) s, frame s (if b then toggle_sequins N s else s).
Proof. intros [] s; [apply frame_toggle|apply frame_refl]. Qed.
Lemma frame_stitch : forall s x y, frame s (stitch_at N s x y).
Proof. intros. unfold frame. auto. Qed.
Lemma frame_jump : forall s x y, frame s (jump_at N s x y).
Proof.
  intros s x y. unfold jump_at. apply (frame_trans _ _ _ (frame_leave (sequin_mode N s) s)). unfold frame. auto.
Qed.
Lemma frame_gap : forall n qx qy ax ay cmd s, frame s (gap_loop N n qx qy ax ay cmd s).
Proof.
  induction n as [|n IH]; intros qx qy ax ay cmd s; [apply frame_refl|]. cbn [gap_loop].
  eapply frame_trans; [|apply IH]. unfold frame. auto.
Qed.
Lemma fine_gap : forall s x0 y0 x1 y1 l data, limit_pos l -> fine s (interpolate_gap_stitches N s x0 y0 x1 y1 l data).
Proof.
  intros s x0 y0 x1 y1 [l|] data H; [|apply frame_refl]. cbn [limit_pos] in H.
  unfold interpolate_gap_stitches, exceeds. cbv zeta. cbn [fsub fabs fgtb fdiv fdivz fceil FNum F].
  set (dx := rnd (x1 - x0)). set (dy := rnd (y1 - y0)).
  destruct (Rlt_bool l (Rabs dx) || Rlt_bool l (Rabs dy)) eqn:G; [|apply frame_refl].
  rewrite !Req_bool_false by lra. cbn [bindr].
  assert (K : forall d, Rlt_bool l (Rabs d) = true -> (1 <= Zceil (Rabs (rnd (d / l))))%Z).
  { intros d. case Rlt_bool_spec; [intros Hd _|discriminate]. rewrite <- (Zceil_IZR 1). apply Zceil_le.
    assert (Q : (rnd 1 <= rnd (Rabs d / l))%R).
    { apply rnd_le. apply Rmult_le_reg_r with l; [lra|]. unfold Rdiv. rewrite Rmult_assoc, Rinv_l by lra. lra. }
    rewrite (rnd_Z 1) in Q by lia. eapply Rle_trans; [exact Q|].
    unfold Rabs at 1. destruct (Rcase_abs d).
    - replace (- d / l)%R with (- (d / l))%R by (unfold Rdiv; ring). rewrite rnd_opp. rewrite <- Rabs_Ropp. apply Rle_abs.
    - apply Rle_abs. }
  set (a := Zceil (Rabs (rnd (dx / l)))) in *. set (b := Zceil (Rabs (rnd (dy / l)))) in *.
  assert (Hn : (1 <= (if b <? a then a else b))%Z).
  { apply orb_true_iff in G. destruct G as [G|G]; apply K in G; fold a in G || fold b in G; destruct (Z.ltb_spec b a); lia. }
  set (n := if b <? a then a else b) in *. destruct (Z.eqb_spec n 0) as [E|_]; [lia|]. cbn [bindr fine].
  eapply frame_trans; [apply frame_leave|]. apply frame_gap.
Qed.
Lemma fine_jump_within : forall c s x y, ready s -> fine s (jump_to_within_stitchrange N c s x y).
Proof.
  intros c s x y (H1 & H2). unfold jump_to_within_stitchrange. apply fine_bind; [apply fine_gap; exact H2|].
  intros s' _. destruct (full_jump c); [|apply frame_refl].
  destruct (_ || _); [apply frame_jump|apply frame_refl].
Qed.
Lemma fine_jump_to : forall s x y, ready s -> fine s (jump_to N s x y).
Proof.
  intros s x y (H1 & H2). unfold jump_to. apply fine_bind; [apply fine_gap; exact H2|].
  intros s' _. apply frame_jump.
Qed.
Lemma fine_needle_to : forall s x y, ready s -> fine s (needle_to N s x y).
Proof.
  intros s x y (H1 & H2). unfold needle_to. apply fine_bind; [apply fine_gap; exact H1|].
  intros s' _. apply frame_stitch.
Qed.
Lemma fine_sew_to : forall s x y, ready s -> fine s (sew_to N s x y).
Proof.
  intros s x y (H1 & H2). unfold sew_to. apply fine_bind; [apply fine_gap; exact H1|].
  intros s' _. apply frame_stitch.
Qed.
Lemma fine_contingency : forall s x y, ready s -> fine s (stitch_with_contingency N s x y).
Proof.
  intros s x y H. unfold stitch_with_contingency. destruct (_ =? _); [apply fine_sew_to; exact H|].
  destruct (_ =? _); [apply fine_needle_to; exact H|apply frame_stitch].
Qed.
Lemma fine_sequin : forall s x y, ready s -> fine s (sequin_at N s x y).
Proof.
  intros s x y (H1 & H2). unfold sequin_at. destruct (_ =? _); [apply frame_refl|].
  apply fine_bind; [apply fine_gap; exact H1|]. intros s' _. cbn zeta. cbn [fine].
  destruct (_ =? _); [unfold frame; auto|]. destruct (_ =? _); [unfold frame; auto|].
  destruct (_ =? _); unfold frame; auto.
Qed.
Lemma frame_lock : forall s b, frame s (lock_towards N s b).
Proof.
  intros s [b|]; [|apply frame_refl]. unfold lock_towards.
  destruct (point_in_matrix_space _ _ _ _) as [bx by']. destruct (is_anchor _); [|apply frame_refl].
  unfold lock_stitch. destruct (max_stitch N s) as [l|] eqn:E; [destruct (fdist_gt _ _ _ _ _ _)|];
    try destruct (foriented _ _ _ _ _ _) as [ax ay]; unfold frame; cbn [append max_stitch max_jump matrix]; auto.
Qed.
Lemma frame_tie_off : forall src pos s, frame s (tie_off N src pos s).
Proof. intros. unfold tie_off. destruct (_ =? _); [apply frame_lock|apply frame_refl]. Qed.
Lemma frame_tie_on : forall src pos s, frame s (tie_on N src pos s).
Proof. intros. unfold tie_on. destruct (_ =? _); [apply frame_lock|apply frame_refl]. Qed.
Lemma frame_trim_here : forall s, frame s (trim_here N s).
Proof.
  intros s. unfold trim_here. apply (frame_trans _ _ _ (frame_leave (sequin_mode N s) s)). unfold frame. auto.
Qed.
Lemma frame_close : forall src pos s, frame s (close_section N src pos s).
Proof.
  intros. unfold close_section. destruct (negb _); [|apply frame_refl]. cbn zeta.
  destruct (explicit_trim _ _); [|apply frame_tie_off].
  eapply frame_trans; [apply frame_tie_off|apply frame_trim_here].
Qed.
Lemma frame_trim_needed : forall src pos s, frame s (tie_off_and_trim_if_needed N src pos s).
Proof.
  intros. unfold tie_off_and_trim_if_needed. destruct (negb _); [|apply frame_refl].
  eapply frame_trans; [apply frame_tie_off|apply frame_trim_here].
Qed.
Lemma fine_next_change : forall c seq s, fine s (next_change_sequence N c seq s).
Proof.
  intros c seq s. unfold next_change_sequence. cbn zeta.
  destruct (dict_get _ _) as [ch|]; [|reflexivity]. cbn [fine].
  destruct (_ =? _).
  - destruct (negb _); unfold frame; auto.
  - destruct (_ =? _); [unfold frame; auto|]. destruct (_ =? _); unfold frame; auto.
Qed.
Lemma fine_declare : forall c seq s, fine s (declare_not_trimmed N c seq s).
Proof.
  intros c seq s. unfold declare_not_trimmed. apply fine_bind.
  - destruct (_ =? _); [apply fine_next_change|apply frame_refl].
  - intros s' _. unfold fine, frame. auto.
Qed.
Lemma fine_open : forall c seq src pos x y s, ready s -> fine s (open_section N c seq src pos x y s).
Proof.
  intros c seq src pos x y s H. unfold open_section. apply fine_bind; [apply fine_declare|].
  intros s1 F1. apply fine_bind; [apply fine_jump_within; exact (frame_ready _ _ F1 H)|].
  intros s2 _. cbn [fine]. eapply frame_trans; [apply frame_stitch|apply frame_tie_on].
Qed.
Lemma fine_color_break : forall c seq src pos rest s, fine s (color_break N c seq src pos rest s).
Proof.
  intros. unfold color_break. destruct (_ <? _); [apply frame_refl|]. cbn zeta.
  destruct (negb _); [apply frame_close|].
  eapply fine_from; [apply frame_close|]. apply fine_bind; [apply fine_next_change|].
  intros s' _. unfold fine, frame. auto.
Qed.
Lemma fine_change : forall c seq src pos s, fine s (tie_off_trim_color_change N c seq src pos s).
Proof.
  intros. unfold tie_off_trim_color_change. eapply fine_from; [apply frame_close|].
  apply fine_bind; [apply fine_next_change|]. intros s' _. unfold fine, frame. auto.
Qed.

(** What a source command may ask for: positive lengths, no transformations. *)
Definition op_safe (a : stitch R) (o : op) : Prop :=
  match o with
  | OpMaxJump | OpMaxStitch => (0 < sx a)%R
  | OpTranslate | OpScaleOrigin | OpRotateOrigin | OpScale | OpRotate => False
  | _ => True
  end.
(** The state stays ready, or KeyError. *)
Definition safe (r : res st) : Prop := match r with Ok s' => ready s' | Err e => e = KeyError end.
Lemma fine_safe : forall s r, ready s -> fine s r -> safe r.
Proof. intros s [s'|e] H F; [exact (frame_ready _ _ F H)|exact F]. Qed.

Lemma exec_safe : forall c seq src pos rest a x y o s, ready s -> op_safe a o ->
  safe (exec N c seq src pos rest a x y o s).
Proof.
  intros c seq src pos rest a x y o s H Ho.
  assert (S : forall f : st -> res st, (forall s, ready s -> fine s (f s)) ->
     fine s (if trimmed N s then open_section N c seq src pos x y s
             else if jumping N s then do s <- needle_to N s x y; Ok (set_jumping N s false) else f s)).
  { intros f Hf. destruct (trimmed N s); [apply fine_open; exact H|].
    destruct (jumping N s); [|apply Hf; exact H]. apply fine_bind; [apply fine_needle_to; exact H|].
    intros s' _. unfold fine, frame. auto. }
  destruct o; cbn [exec op_safe] in *; try contradiction.
  1-21: apply (fine_safe s); [exact H|].
  24-26: apply (fine_safe s); [exact H|].
  - apply frame_refl.
  - apply (S (fun s => stitch_with_contingency N s x y)). intros. apply fine_contingency. assumption.
  - apply (S (fun s => needle_to N s x y)). intros. apply fine_needle_to. assumption.
  - apply (S (fun s => sew_to N s x y)). intros. apply fine_sew_to. assumption.
  - unfold fine, frame. auto.
  - eapply fine_from; [apply (frame_trim_needed src pos)|].
    apply fine_bind; [apply fine_jump_to; exact (frame_ready _ _ (frame_trim_needed src pos s) H)|].
    intros s' _. unfold fine, frame. auto.
  - apply frame_trim_needed.
  - apply fine_color_break.
  - apply frame_tie_off.
  - apply frame_tie_on.
  - apply frame_trim_needed.
  - destruct (jumping N s); [apply frame_refl|apply fine_jump_to; exact H].
  - apply frame_toggle.
  - apply fine_bind; [destruct (trimmed N s); [apply fine_open; exact H|apply frame_refl]|].
    intros s' F'. cbn zeta. destruct (sequin_mode N s').
    + apply fine_sequin. exact (frame_ready _ _ F' H).
    + eapply fine_from; [apply frame_toggle|]. apply fine_sequin.
      apply (frame_ready _ _ (frame_toggle s')). exact (frame_ready _ _ F' H).
  - apply fine_change.
  - unfold fine, frame. auto.
  - destruct (writes_speeds c); unfold fine, frame; auto.
  - destruct (writes_speeds c); unfold fine, frame; auto.
  - unfold fine, frame. auto.
  - unfold fine, frame. auto.
  - unfold fine, frame. auto.
  - destruct H as (H1 & H2). cbn [safe]. unfold ready. cbn [set_limits max_stitch max_jump matrix limit_pos]. auto.
  - destruct H as (H1 & H2). cbn [safe]. unfold ready. cbn [set_limits max_stitch max_jump matrix limit_pos]. auto.
  - unfold fine, frame. auto.
  - unfold fine, frame. auto.
  - cbn zeta. cbn [fine]. eapply frame_trans; [apply (frame_leave (negb (c0 =? CONTINGENCY_SEQUIN_UTILIZE) && sequin_mode N s))|].
    unfold frame. auto.
  - cbn [safe]. destruct H as (H1 & H2). unfold ready. cbn [set_matrix max_stitch max_jump]. auto.
Qed.

Lemma placed_ok : forall c s a, exists x y, placed N c s a = Ok (x, y).
Proof.
  intros c s a. unfold placed. destruct (point_in_matrix_space _ _ _ _) as [x y].
  destruct (rounding c); cbn [fround FNum bindr]; eauto.
Qed.

Lemma main_loop_safe : forall c seq src rest pos s, ready s ->
  Forall (fun a => op_safe a (classify (cmd_of (scmd a)))) (until_end rest) -> safe (main_loop N c seq src pos rest s).
Proof.
  intros c seq src. induction rest as [|a rest IH]; intros pos s H Hr.
  - cbn [main_loop safe]. exact (frame_ready s _ (conj eq_refl (conj eq_refl eq_refl)) H).
  - cbn [until_end] in Hr. change (is_cmd END a) with (cmd_of (scmd a) =? END) in Hr. cbn [main_loop].
    destruct (placed_ok c s a) as (x & y & ->). cbn [bindr].
    change (F N) with R in *. remember (set_high N s (Z.land (scmd a) FLAGS_MASK)) as s0 eqn:Es0.
    assert (H0 : ready s0) by (subst s0; exact (frame_ready s _ (conj eq_refl (conj eq_refl eq_refl)) H)).
    assert (Ha : op_safe a (classify (cmd_of (scmd a))) /\
       ((cmd_of (scmd a) =? END) = false -> Forall (fun a => op_safe a (classify (cmd_of (scmd a)))) (until_end rest))).
    { destruct (Z.eqb_spec (cmd_of (scmd a)) END) as [E|E]; [rewrite E; split; [exact I|discriminate]|].
      inversion Hr; subst. auto. }
    pose proof (exec_safe c seq src pos (a :: rest) a x y (classify (cmd_of (scmd a))) s0 H0 (proj1 Ha)) as E.
    change (F N) with R in *.
    destruct (exec N c seq src pos (a :: rest) a x y (classify (cmd_of (scmd a))) s0) as [s1|e]; cbn [safe bindr] in *; [|exact E].
    destruct (_ =? END); [exact E|]. apply IH; [exact E|apply Ha; reflexivity].
Qed.

Lemma finish_plan_fok : forall threads tcc nl d ti ni, nl <> 0 ->
  exists q, finish_plan threads tcc nl ti ni d = Ok q.
Proof.
  intros threads tcc nl d ti ni Hn. revert ti ni. induction d as [|[k dr] d IH]; intros ti ni; [eexists; reflexivity|].
  cbn [finish_plan]. destruct (match d_thread dr with Some t => (t, ti) | None => (ti, ti + 1) end) as [th ti'].
  assert (X : exists v, match d_needle dr with
        | Some n => Ok (n, ni)
        | None => if nl <? ni then if nl =? 0 then Err ZeroDivisionError else Ok ((ni - 1) mod nl + 1, ni + 1)
                  else Ok (ni, ni + 1)
        end = Ok v).
  { destruct (d_needle dr); [eauto|]. destruct (nl <? ni); [|eauto]. destruct (Z.eqb_spec nl 0); [contradiction|eauto]. }
  destruct X as ([nd ni'] & ->). cbn [bindr]. destruct (IH ti' ni') as (q & ->). cbn [bindr]. eauto.
Qed.

Theorem transcode_ftotal : forall set p, ready (init_state N set) ->
  needle_count (init_config N set) <> 0 ->
  Forall (fun a => op_safe a (classify (cmd_of (scmd a)))) (until_end (p_stitches N p)) ->
  exists o ths, transcode N set p = Ok (o, ths).
Proof.
  intros set p H Hn Hs.
  assert (AN : arith_no_key N).
  { unfold arith_no_key. cbn [fdiv fdivz fceil fround FNum].
    split; [intros a b; destruct (Req_bool _ _); discriminate|].
    split; [intros a b; destruct (_ =? _); discriminate|]. split; discriminate. }
  pose proof (transcode_no_key N set p AN) as K. rewrite transcode_unfold in K |- *.
  unfold build_thread_change_sequence in *.
  destruct (finish_plan_fok (p_threads N p) (thread_change_command (init_config N set)) (needle_count (init_config N set))
    (plan_events (p_threads N p) 0 [(0, no_draft)] (thread_change_events 0 (map scmd (p_stitches N p)))) 0 1 Hn) as (seq & E).
  change (F N) with R in *. rewrite E in K |- *. cbn [bindr] in *.
  assert (H0 : ready (start N set (p_threads N p))).
  { apply (frame_ready (init_state N set)); [|exact H]. unfold start. destruct (_ =? _); unfold frame; auto. }
  pose proof (main_loop_safe (init_config N set) seq (p_stitches N p) (p_stitches N p) 0 _ H0 Hs) as S.
  destruct (main_loop _ _ _ _ _ _ _) as [s|e]; cbn [bindr safe] in *; [eauto|]. subst e. congruence.
Qed.
End Total.
