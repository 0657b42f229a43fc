(** What matrix commands do to the encoder, and where its needle is. *)
From Coq Require Import ZArith List Bool Lia.
From Verif Require Import PyBase EmbConst FunctionsModel ThreadModel NumModel MatrixModel EncoderModel
  BitLemmas EncoderProofs EncoderSpec EncoderSewProofs.
Import ListNotations.
Open Scope Z_scope.

Section Matrix.
Context (N : Num).
Notation F := (F N).
Notation st := (st N).
Implicit Types s : st.

(** ** Needle *)
Definition stay s s' : Prop := nx N s' = nx N s /\ ny N s' = ny N s /\ jumping N s' = jumping N s.
Definition come s s' (x y : F) : Prop := nx N s' = x /\ ny N s' = y /\ jumping N s' = jumping N s.

Lemma stay_refl : forall s, stay s s.
Proof. unfold stay. auto. Qed.
Lemma stay_trans : forall a b c, stay a b -> stay b c -> stay a c.
Proof. unfold stay. intros a b c (A1 & A2 & A3) (B1 & B2 & B3). rewrite B1, B2, B3. auto. Qed.
Lemma stay_come : forall a b c x y, stay a b -> come b c x y -> come a c x y.
Proof. unfold stay, come. intros a b c x y (A1 & A2 & A3) (B1 & B2 & B3). rewrite B1, B2, B3. auto. Qed.
Lemma come_stay : forall a b c x y, come a b x y -> stay b c -> come a c x y.
Proof. unfold stay, come. intros a b c x y (A1 & A2 & A3) (B1 & B2 & B3). rewrite B1, B2, B3. auto. Qed.
Lemma come_jumping : forall a b c x y, jumping N b = jumping N a -> come b c x y -> come a c x y.
Proof. unfold come. intros a b c x y J (B1 & B2 & B3). rewrite B3. auto. Qed.

Lemma stay_toggle : forall s, stay s (toggle_sequins N s).
Proof. intros s. unfold toggle_sequins, stay. destruct (_ =? _); attrs; auto. Qed.

Lemma gap_jumping : forall n qx qy ax ay cmd s, jumping N (gap_loop N n qx qy ax ay cmd s) = jumping N s.
Proof. induction n; intros; cbn [gap_loop]; [reflexivity|]. rewrite IHn. attrs. reflexivity. Qed.

Lemma interp_jumping : forall s s' x0 y0 x1 y1 lim data,
  interpolate_gap_stitches N s x0 y0 x1 y1 lim data = Ok s' -> jumping N s' = jumping N s.
Proof.
  intros s s' x0 y0 x1 y1 lim data E. unfold interpolate_gap_stitches in E. cbv zeta in E.
  destruct lim as [lim|]; [|injection E as <-; reflexivity].
  destruct (exceeds _ _ _ || exceeds _ _ _); [|injection E as <-; reflexivity].
  set (s0 := if (data =? JUMP) && sequin_mode N s then toggle_sequins N s else s) in *.
  assert (G0 : jumping N s0 = jumping N s).
  { unfold s0. destruct (_ && _); [apply stay_toggle|reflexivity]. }
  destruct (fdiv N _ lim) as [rx|]; [|discriminate]. cbn [bindr] in E.
  destruct (fceil N _) as [nx'|]; [|discriminate]. cbn [bindr] in E.
  destruct (fdiv N _ lim) as [ry|]; [|discriminate]. cbn [bindr] in E.
  destruct (fceil N _) as [ny'|]; [|discriminate]. cbn [bindr] in E.
  destruct (fdivz N _ _) as [ax|]; [|discriminate]. cbn [bindr] in E.
  destruct (fdivz N _ _) as [ay|]; [|discriminate]. cbn [bindr] in E. injection E as <-.
  rewrite gap_jumping. exact G0.
Qed.

Lemma come_stitch_at : forall s x y, come s (stitch_at N s x y) x y.
Proof. intros. unfold come, stitch_at. attrs. auto. Qed.
Lemma come_jump_at : forall s x y, come s (jump_at N s x y) x y.
Proof.
  intros. unfold come, jump_at. attrs. split; [reflexivity|]. split; [reflexivity|].
  destruct (sequin_mode N s); [apply stay_toggle|reflexivity].
Qed.

Ltac open_interp E :=
  match type of E with bindr (interpolate_gap_stitches ?n ?s ?a ?b ?c ?d ?l ?k) _ = Ok _ =>
    let s1 := fresh "s1" in let E1 := fresh "E1" in
    destruct (interpolate_gap_stitches n s a b c d l k) as [s1|] eqn:E1; [|discriminate];
    cbn [bindr] in E; apply interp_jumping in E1 end.

Lemma come_needle_to : forall s s' x y, needle_to N s x y = Ok s' -> come s s' x y.
Proof.
  intros s s' x y E. unfold needle_to in E. open_interp E. injection E as <-.
  eapply come_jumping; [exact E1|apply come_stitch_at].
Qed.
Lemma come_sew_to : forall s s' x y, sew_to N s x y = Ok s' -> come s s' x y.
Proof.
  intros s s' x y E. unfold sew_to in E. open_interp E. injection E as <-.
  eapply come_jumping; [exact E1|apply come_stitch_at].
Qed.
Lemma come_jump_to : forall s s' x y, jump_to N s x y = Ok s' -> come s s' x y.
Proof.
  intros s s' x y E. unfold jump_to in E. open_interp E. injection E as <-.
  eapply come_jumping; [exact E1|apply come_jump_at].
Qed.
Lemma come_contingency : forall s s' x y, stitch_with_contingency N s x y = Ok s' -> come s s' x y.
Proof.
  intros s s' x y E. unfold stitch_with_contingency in E.
  destruct (_ =? CONTINGENCY_LONG_STITCH_SEW_TO); [apply come_sew_to; exact E|].
  destruct (_ =? CONTINGENCY_LONG_STITCH_JUMP_NEEDLE); [apply come_needle_to; exact E|].
  injection E as <-. apply come_stitch_at.
Qed.

Lemma within_jumping : forall c s s' x y, jump_to_within_stitchrange N c s x y = Ok s' -> jumping N s' = jumping N s.
Proof.
  intros c s s' x y E. unfold jump_to_within_stitchrange in E. open_interp E.
  destruct (full_jump c); [|injection E as <-; exact E1].
  destruct (_ || _); injection E as <-; [|exact E1]. destruct (come_jump_at s1 x y) as (_ & _ & ->). exact E1.
Qed.

Lemma stay_lock : forall s b, stay s (lock_towards N s b).
Proof.
  intros s [b|]; [|apply stay_refl]. cbn [lock_towards].
  destruct (point_in_matrix_space N (matrix N s) (sx b) (sy b)) as [bx by'].
  destruct (is_anchor (scmd b)); [|apply stay_refl]. unfold lock_stitch.
  match goal with |- context [let '(ax, ay) := ?e in _] => destruct e as [ax ay] end.
  cbv zeta. unfold stay. attrs. auto.
Qed.
Lemma stay_tie_off : forall src pos s, stay s (tie_off N src pos s).
Proof. intros. unfold tie_off. destruct (_ =? _); [apply stay_lock|apply stay_refl]. Qed.
Lemma stay_tie_on : forall src pos s, stay s (tie_on N src pos s).
Proof. intros. unfold tie_on. destruct (_ =? _); [apply stay_lock|apply stay_refl]. Qed.
Lemma stay_trim_here : forall s, stay s (trim_here N s).
Proof.
  intros s. unfold trim_here. destruct (sequin_mode N s).
  - eapply stay_trans; [apply stay_toggle|]. unfold stay. attrs. auto.
  - unfold stay. attrs. auto.
Qed.
Lemma stay_if_needed : forall src pos s, stay s (tie_off_and_trim_if_needed N src pos s).
Proof.
  intros. unfold tie_off_and_trim_if_needed. destruct (negb _); [|apply stay_refl].
  eapply stay_trans; [apply stay_tie_off|apply stay_trim_here].
Qed.
Lemma stay_close : forall src pos s, stay s (close_section N src pos s).
Proof.
  intros. unfold close_section. destruct (negb _); [|apply stay_refl]. cbv zeta.
  destruct (explicit_trim N _); [|apply stay_tie_off].
  eapply stay_trans; [apply stay_tie_off|apply stay_trim_here].
Qed.
Lemma stay_next : forall c seq s s', next_change_sequence N c seq s = Ok s' -> stay s s'.
Proof.
  intros c seq s s' E. unfold next_change_sequence in E.
  destruct (dict_get (order_index N (set_order N s (order_index N s + 1))) seq) as [ch|]; [|discriminate].
  injection E as <-. unfold stay.
  destruct (_ =? COLOR_CHANGE); [destruct (negb _); attrs; auto|].
  destruct (_ =? NEEDLE_SET); [attrs; auto|]. destruct (_ =? STOP); attrs; auto.
Qed.

Lemma come_open : forall c seq src pos x y s s', open_section N c seq src pos x y s = Ok s' -> come s s' x y.
Proof.
  intros c seq src pos x y s s' E. unfold open_section, declare_not_trimmed in E.
  destruct (if order_index N s =? -1 then _ else _) as [s1|] eqn:E1; [|discriminate]. cbn [bindr] in E.
  assert (G1 : jumping N s1 = jumping N s).
  { destruct (order_index N s =? -1); [eapply stay_next; exact E1|injection E1 as <-; reflexivity]. }
  destruct (jump_to_within_stitchrange N c _ x y) as [s3|] eqn:E3; [|discriminate]. cbn [bindr] in E.
  injection E as <-. apply within_jumping in E3. revert E3. attrs. intros E3.
  eapply come_jumping; [etransitivity; [exact E3|exact G1]|].
  eapply come_stay; [apply come_stitch_at|apply stay_tie_on].
Qed.

(** The commands that take the needle to their own place. *)
Definition going_op (o : op) : bool :=
  match o with OpStitch | OpNeedleAt | OpSewTo | OpJump | OpFrameEject => true | _ => false end.
(** The commands that make the needle's place depend on more than the last of those. *)
Definition vague_op (o : op) : bool := match o with OpStitchBreak | OpSequinEject => true | _ => false end.

Lemma exec_needle : forall c seq src pos rest a x y o s s', jumping N s = false -> vague_op o = false ->
  exec N c seq src pos rest a x y o s = Ok s' ->
  jumping N s' = false /\ (nx N s', ny N s') = if going_op o then (x, y) else (nx N s, ny N s).
Proof.
  intros c seq src pos rest a x y o s s' J V E.
  assert (St : stay s s' -> going_op o = false ->
    jumping N s' = false /\ (nx N s', ny N s') = if going_op o then (x, y) else (nx N s, ny N s)).
  { intros (A & B & D) ->. rewrite A, B, D. auto. }
  assert (Co : come s s' x y -> going_op o = true ->
    jumping N s' = false /\ (nx N s', ny N s') = if going_op o then (x, y) else (nx N s, ny N s)).
  { intros (A & B & D) ->. rewrite A, B, D. auto. }
  destruct o; cbn [exec] in E; try discriminate V; rewrite ?J in E.
  - injection E as <-. apply St; [apply stay_refl|reflexivity].
  - apply Co; [|reflexivity]. destruct (trimmed N s); [eapply come_open; exact E|]. apply come_contingency. exact E.
  - apply Co; [|reflexivity]. destruct (trimmed N s); [eapply come_open; exact E|]. apply come_needle_to. exact E.
  - apply Co; [|reflexivity]. destruct (trimmed N s); [eapply come_open; exact E|]. apply come_sew_to. exact E.
  - apply Co; [|reflexivity].
    destruct (jump_to N _ x y) as [s2|] eqn:E2; [|discriminate]. cbn [bindr] in E. injection E as <-.
    eapply stay_come; [apply (stay_if_needed src pos)|]. apply come_jump_to in E2.
    eapply come_stay; [exact E2|]. unfold stay, stop_here. attrs. auto.
  - injection E as <-. apply St; [apply stay_if_needed|reflexivity].
  - apply St; [|reflexivity]. unfold color_break in E.
    destruct (order_index N s <? 0); [injection E as <-; apply stay_refl|]. cbv zeta in E.
    destruct (negb (lookahead_stitch N rest)); [injection E as <-; apply stay_close|].
    destruct (next_change_sequence N c seq _) as [s2|] eqn:E2; [|discriminate]. cbn [bindr] in E. injection E as <-.
    eapply stay_trans; [apply (stay_close src pos)|]. eapply stay_trans; [eapply stay_next; exact E2|].
    unfold stay. attrs. auto.
  - injection E as <-. apply St; [apply stay_tie_off|reflexivity].
  - injection E as <-. apply St; [apply stay_tie_on|reflexivity].
  - injection E as <-. apply St; [apply stay_if_needed|reflexivity].
  - apply Co; [apply come_jump_to; exact E|reflexivity].
  - injection E as <-. apply St; [apply stay_toggle|reflexivity].
  - apply St; [|reflexivity]. unfold tie_off_trim_color_change in E.
    destruct (next_change_sequence N c seq _) as [s2|] eqn:E2; [|discriminate]. cbn [bindr] in E. injection E as <-.
    eapply stay_trans; [apply (stay_close src pos)|]. eapply stay_trans; [eapply stay_next; exact E2|].
    unfold stay. attrs. auto.
  - injection E as <-. apply St; [unfold stay, stop_here; attrs; auto|reflexivity].
  - injection E as <-. apply St; [|reflexivity]. destruct (writes_speeds c); [unfold stay; attrs; auto|apply stay_refl].
  - injection E as <-. apply St; [|reflexivity]. destruct (writes_speeds c); [unfold stay; attrs; auto|apply stay_refl].
  - injection E as <-. apply St; [unfold stay, end_here; attrs; auto|reflexivity].
  - injection E as <-. apply St; [unfold stay; attrs; auto|reflexivity].
  - injection E as <-. apply St; [unfold stay; attrs; auto|reflexivity].
  - injection E as <-. apply St; [unfold stay; attrs; auto|reflexivity].
  - injection E as <-. apply St; [unfold stay; attrs; auto|reflexivity].
  - injection E as <-. apply St; [unfold stay; attrs; auto|reflexivity].
  - injection E as <-. apply St; [unfold stay; attrs; auto|reflexivity].
  - injection E as <-. apply St; [|reflexivity]. cbv zeta.
    destruct (_ && _); [eapply stay_trans; [apply stay_toggle|]|]; unfold stay; attrs; auto.
  - injection E as <-. apply St; [unfold stay; attrs; auto|reflexivity].
  - injection E as <-. apply St; [unfold stay; attrs; auto|reflexivity].
  - injection E as <-. apply St; [unfold stay; attrs; auto|reflexivity].
  - destruct (needle_in_source N s) as [[s1 q]|] eqn:E1; [|discriminate]. cbn [bindr] in E. injection E as <-.
    apply St; [|reflexivity]. unfold needle_in_source in E1.
    destruct (inverse N (matrix N s)) as [inv|]; [|discriminate]. cbn [bindr] in E1.
    destruct (inverse N inv) as [back|]; [|discriminate]. cbn [bindr] in E1. injection E1 as <- _.
    unfold stay. attrs. auto.
  - destruct (needle_in_source N s) as [[s1 q]|] eqn:E1; [|discriminate]. cbn [bindr] in E. injection E as <-.
    apply St; [|reflexivity]. unfold needle_in_source in E1.
    destruct (inverse N (matrix N s)) as [inv|]; [|discriminate]. cbn [bindr] in E1.
    destruct (inverse N inv) as [back|]; [|discriminate]. cbn [bindr] in E1. injection E1 as <- _.
    unfold stay. attrs. auto.
  - injection E as <-. apply St; [unfold stay; attrs; auto|reflexivity].
Qed.

(** ** Matrix commands change the matrix only *)
Lemma exec_matrix : forall c seq src pos rest a x y o s s', matrix_op o = true ->
  exec N c seq src pos rest a x y o s = Ok s' ->
  exists m, s' = set_matrix N s m.
Proof.
  intros c seq src pos rest a x y o s s' Hm E.
  destruct o; try discriminate Hm; cbn [exec] in E; try (injection E as <-; eauto);
  (destruct (needle_in_source N s) as [[s1 q]|] eqn:E1; [|discriminate]; cbn [bindr] in E; injection E as <-;
   unfold needle_in_source in E1;
   destruct (inverse N (matrix N s)) as [inv|]; [|discriminate]; cbn [bindr] in E1;
   destruct (inverse N inv) as [back|]; [|discriminate]; cbn [bindr] in E1; injection E1 as <- _;
   eexists; unfold set_matrix; attrs; reflexivity).
Qed.
End Matrix.
