(** Encoding what the encoder made: the first time (where commands without a movement stand, which numbers the
    colour changes carry) and the second time. *)
From Coq Require Import ZArith List Bool Lia ZifyBool.
From Verif Require Import PyBase EmbConst BitLemmas FunctionsModel FunctionsProofs ThreadModel NumModel MatrixModel EncoderModel
  EncoderProofs EncoderSpec EncoderFlowProofs.
Import ListNotations.
Open Scope Z_scope.

(** ** Where commands stand *)
Definition moving (c : Z) : Prop := cmd_of c = STITCH \/ cmd_of c = JUMP \/ cmd_of c = SEQUIN_EJECT.
(** A command the encoder would emit again as it is. *)
Definition whole_cmd (c : Z) : Prop := Z.lor (cmd_of c) (Z.land c FLAGS_MASK) = c.

Section Trail.
Context {C : Type}.
Fixpoint endpos (x y : C) (l : list (stitch C)) : C * C :=
  match l with [] => (x, y) | a :: r => endpos (sx a) (sy a) r end.
Fixpoint trail (x y : C) (l : list (stitch C)) : Prop :=
  match l with
  | [] => True
  | a :: r => ((sx a = x /\ sy a = y) \/ moving (scmd a)) /\ (whole_cmd (scmd a) \/ cmd_of (scmd a) = COLOR_CHANGE) /\
              trail (sx a) (sy a) r
  end.
Lemma endpos_snoc l a : forall x y, endpos x y (l ++ [a]) = (sx a, sy a).
Proof. induction l as [|b l IH]; intros x y; cbn [app endpos]; [reflexivity|apply IH]. Qed.
Lemma trail_snoc l a : forall x y, trail x y l ->
  ((sx a, sy a) = endpos x y l \/ moving (scmd a)) -> (whole_cmd (scmd a) \/ cmd_of (scmd a) = COLOR_CHANGE) ->
  trail x y (l ++ [a]).
Proof.
  induction l as [|b l IH]; intros x y H P W; cbn [app trail endpos] in *.
  - split; [|split; [exact W|exact I]]. destruct P as [P|P]; [left; injection P as -> ->; auto|right; exact P].
  - destruct H as (H1 & H2 & H3). split; [exact H1|]. split; [exact H2|]. apply IH; assumption.
Qed.
Lemma trail_app l1 l2 : forall x y, trail x y (l1 ++ l2) -> trail x y l1 /\ trail (fst (endpos x y l1)) (snd (endpos x y l1)) l2.
Proof.
  induction l1 as [|b l IH]; intros x y H; cbn [app trail endpos fst snd] in *; [auto|].
  destruct H as (H1 & H2 & H3). destruct (IH _ _ H3) as [A B]. auto.
Qed.
End Trail.

Lemma whole_lor k h : 0 <= k < 256 -> Z.land h FLAGS_MASK = h -> whole_cmd (Z.lor k h).
Proof.
  intros Hk Hh. unfold whole_cmd. rewrite cmd_lor_high by assumption. f_equal.
  rewrite Z.land_lor_distr_l, Hh. replace (Z.land k FLAGS_MASK) with 0; [reflexivity|].
  symmetry. replace k with (Z.land k 255) by (rewrite land_ff; apply Z.mod_small; exact Hk).
  rewrite <- Z.land_assoc. change (Z.land 255 FLAGS_MASK) with 0. apply Z.land_0_r.
Qed.

Section First.
Context (N : Num).
Notation F := (F N).
Notation st := (st N).
Variable c : config.
Variable seq : dict change.
Hypothesis Hcc : thread_change_command c = COLOR_CHANGE.
(** Numbers the arithmetic gives exactly: for Python's floats, the doubles. *)
Variable good : F -> Prop.
Hypothesis Hgood0 : good (f0 N).
Hypothesis Hadd : forall a b, good (fadd N a b).
Hypothesis Hrnd : forall a b, good a -> fround N a = Ok b -> good b.
Hypothesis Hlock : forall a b, good a -> towards N a b (f0 N) = a.
Definition gs (a : stitch F) : Prop := good (sx a) /\ good (sy a).

Definition sequin_known (v : Z) : Prop :=
  v = CONTINGENCY_SEQUIN_UTILIZE \/ v = CONTINGENCY_SEQUIN_JUMP \/ v = CONTINGENCY_SEQUIN_STITCH \/ v = CONTINGENCY_SEQUIN_REMOVE.
Record Tr (s : st) : Prop := mkTr {
  t_trail : trail (f0 N) (f0 N) (out N s);
  t_end : endpos (f0 N) (f0 N) (out N s) = (nx N s, ny N s);
  t_high : Z.land (high_flags N s) FLAGS_MASK = high_flags N s;
  t_known : sequin_known (sequin_contingency N s);
  t_good : Forall gs (out N s);
  t_here : good (nx N s) /\ good (ny N s) }.

Ltac simple_tr := intros []; constructor; assumption.
Lemma tr_trimmed s b : Tr s -> Tr (set_trimmed N s b). Proof. simple_tr. Qed.
Lemma tr_jumping s b : Tr s -> Tr (set_jumping N s b). Proof. simple_tr. Qed.
Lemma tr_mode s b : Tr s -> Tr (set_sequin_mode N s b). Proof. simple_tr. Qed.
Lemma tr_order s b : Tr s -> Tr (set_order N s b). Proof. simple_tr. Qed.
Lemma tr_thread s b : Tr s -> Tr (add_thread N s b). Proof. simple_tr. Qed.
Lemma tr_limits s a b : Tr s -> Tr (set_limits N s a b). Proof. simple_tr. Qed.
Lemma tr_matrix s m : Tr s -> Tr (set_matrix N s m). Proof. simple_tr. Qed.

Lemma tr_here s k : 0 <= k < 256 -> Tr s -> Tr (add N s k).
Proof.
  intros Hk [T E Hh K Go He]. constructor; attrs; try assumption.
  - apply trail_snoc; [exact T|left; cbn [sx sy]; congruence|left; cbn [scmd]; apply whole_lor; assumption].
  - rewrite endpos_snoc. reflexivity.
  - apply Forall_app. split; [exact Go|]. constructor; [exact He|constructor].
Qed.
Lemma tr_move s k x y : k = STITCH \/ k = JUMP \/ k = SEQUIN_EJECT -> good x -> good y -> Tr s -> Tr (update_needle_position N (add_at N s k x y) x y).
Proof.
  intros Hk Gx Gy [T E Hh K Go He]. constructor; attrs; try assumption; [|rewrite endpos_snoc; reflexivity| |auto].
  2: { apply Forall_app. split; [exact Go|]. constructor; [split; assumption|constructor]. }
  assert (B : 0 <= k < 256) by (destruct Hk as [-> | [-> | ->]]; vm_compute; split; congruence).
  apply trail_snoc; [exact T| |left; cbn [scmd]; apply whole_lor; assumption].
  right. unfold moving. cbn [scmd]. rewrite cmd_lor_high by assumption. exact Hk.
Qed.
Lemma tr_toggle s : Tr s -> Tr (toggle_sequins N s).
Proof.
  intros T. unfold toggle_sequins. destruct (_ =? _); [|exact T]. apply tr_mode, tr_here; [vm_compute; split; congruence|exact T].
Qed.
Lemma tr_toggle_if (b : bool) s : Tr s -> Tr (if b then toggle_sequins N s else s).
Proof. destruct b; [apply tr_toggle|auto]. Qed.
Lemma high_toggle (b : bool) s : high_flags N (if b then toggle_sequins N s else s) = high_flags N s.
Proof. destruct b; [|reflexivity]. unfold toggle_sequins. destruct (_ =? _); reflexivity. Qed.
Lemma tr_gap : forall n qx qy dx dy k h s, k = STITCH \/ k = JUMP -> high_flags N s = h -> Tr s ->
  Tr (gap_loop N n qx qy dx dy (Z.lor k h) s).
Proof.
  induction n as [|n IH]; intros qx qy dx dy k h s Hk Hh T; cbn [gap_loop]; [exact T|].
  apply IH; [exact Hk|exact Hh|]. rewrite <- Hh. apply (tr_move s k); [tauto|apply Hadd|apply Hadd|exact T].
Qed.
Lemma tr_interp s x0 y0 x1 y1 l k s' : k = STITCH \/ k = JUMP -> Tr s ->
  interpolate_gap_stitches N s x0 y0 x1 y1 l k = Ok s' -> Tr s'.
Proof.
  intros Hk T E. unfold interpolate_gap_stitches in E. destruct l as [l|]; [|injection E as <-; exact T].
  destruct (_ || _); [|injection E as <-; exact T].
  set (s1 := if (k =? JUMP) && sequin_mode N s then toggle_sequins N s else s) in *.
  repeat match type of E with bindr ?a _ = _ => destruct a; [cbn [bindr] in E|discriminate] end.
  injection E as <-. apply tr_gap; [exact Hk|reflexivity|]. apply tr_toggle_if, T.
Qed.
Lemma tr_jump_at s x y : good x -> good y -> Tr s -> Tr (jump_at N s x y).
Proof. intros Gx Gy T. unfold jump_at. apply tr_move; [tauto|exact Gx|exact Gy|]. apply tr_toggle_if, T. Qed.
Lemma tr_stitch_at s x y : good x -> good y -> Tr s -> Tr (stitch_at N s x y).
Proof. intros Gx Gy T. unfold stitch_at. apply tr_move; [tauto|exact Gx|exact Gy|exact T]. Qed.
Ltac step_in E T :=
  match type of E with bindr ?a _ = _ => let Ei := fresh "Ei" in let v := fresh "v" in destruct a as [v|] eqn:Ei; [cbn [bindr] in E|discriminate] end.
Lemma tr_within s x y s' : good x -> good y -> Tr s -> jump_to_within_stitchrange N c s x y = Ok s' -> Tr s'.
Proof.
  intros Gx Gy T E. unfold jump_to_within_stitchrange in E. step_in E T. apply tr_interp in Ei; [|tauto|exact T].
  destruct (full_jump c); [|injection E as <-; exact Ei]. destruct (_ || _); injection E as <-; [apply tr_jump_at; [exact Gx|exact Gy|exact Ei]|exact Ei].
Qed.
Lemma tr_jump_to s x y s' : good x -> good y -> Tr s -> jump_to N s x y = Ok s' -> Tr s'.
Proof.
  intros Gx Gy T E. unfold jump_to in E. step_in E T. apply tr_interp in Ei; [|tauto|exact T]. injection E as <-. apply tr_jump_at; [exact Gx|exact Gy|exact Ei].
Qed.
Lemma tr_sew_to s x y s' : good x -> good y -> Tr s -> sew_to N s x y = Ok s' -> Tr s'.
Proof.
  intros Gx Gy T E. unfold sew_to in E. step_in E T. apply tr_interp in Ei; [|tauto|exact T]. injection E as <-. apply tr_stitch_at; [exact Gx|exact Gy|exact Ei].
Qed.
Lemma tr_needle_to s x y s' : good x -> good y -> Tr s -> needle_to N s x y = Ok s' -> Tr s'.
Proof.
  intros Gx Gy T E. unfold needle_to in E. step_in E T. apply tr_interp in Ei; [|tauto|exact T]. injection E as <-. apply tr_stitch_at; [exact Gx|exact Gy|exact Ei].
Qed.
Lemma tr_contingency s x y s' : good x -> good y -> Tr s -> stitch_with_contingency N s x y = Ok s' -> Tr s'.
Proof.
  intros Gx Gy T E. unfold stitch_with_contingency in E. destruct (_ =? _); [eapply tr_sew_to; [exact Gx|exact Gy|eassumption..]|].
  destruct (_ =? _); [eapply tr_needle_to; [exact Gx|exact Gy|eassumption..]|]. injection E as <-. apply tr_stitch_at; [exact Gx|exact Gy|exact T].
Qed.
Lemma tr_sequin_at s x y s' : good x -> good y -> Tr s -> sequin_at N s x y = Ok s' -> Tr s'.
Proof.
  intros Gx Gy T E. unfold sequin_at in E. pose proof (t_known _ T) as K. destruct (_ =? _) eqn:E1; [injection E as <-; exact T|].
  step_in E T. apply tr_interp in Ei; [|tauto|exact T]. injection E as <-.
  destruct (Z.eqb_spec (sequin_contingency N s) CONTINGENCY_SEQUIN_UTILIZE); [apply tr_move; [tauto|exact Gx|exact Gy|exact Ei]|].
  destruct (Z.eqb_spec (sequin_contingency N s) CONTINGENCY_SEQUIN_JUMP); [apply tr_move; [tauto|exact Gx|exact Gy|exact Ei]|].
  destruct (Z.eqb_spec (sequin_contingency N s) CONTINGENCY_SEQUIN_STITCH); [apply tr_move; [tauto|exact Gx|exact Gy|exact Ei]|].
  apply Z.eqb_neq in E1. unfold sequin_known in K. tauto.
Qed.
Lemma trail_stitch l x y (a b : F) : trail x y l -> trail x y (l ++ [mkS a b STITCH]).
Proof. intros H. apply trail_snoc; [exact H|right; left; reflexivity|left; reflexivity]. Qed.
Lemma tr_lock s ax ay l : Tr s -> Tr (lock_stitch N s (nx N s) (ny N s) ax ay l).
Proof.
  intros [T E Hh K Go He]. unfold lock_stitch.
  destruct (match l with Fin _ l => _ | Inf _ => _ end) as [bx by']. cbv beta zeta.
  constructor; attrs; try assumption.
  - repeat apply trail_stitch. exact T.
  - rewrite endpos_snoc. cbn [sx sy]. rewrite !Hlock by apply He. reflexivity.
  - rewrite !Forall_app. repeat split; try exact Go; (constructor; [split; apply Hadd|constructor]).
Qed.
Lemma tr_towards s b : Tr s -> Tr (lock_towards N s b).
Proof.
  intros T. unfold lock_towards. destruct b as [b|]; [|exact T]. destruct (point_in_matrix_space _ _ _ _) as [bx by'].
  destruct (is_anchor _); [apply tr_lock, T|exact T].
Qed.
Lemma tr_tie_off src pos s : Tr s -> Tr (tie_off N src pos s).
Proof. intros T. unfold tie_off. destruct (_ =? _); [apply tr_towards, T|exact T]. Qed.
Lemma tr_tie_on src pos s : Tr s -> Tr (tie_on N src pos s).
Proof. intros T. unfold tie_on. destruct (_ =? _); [apply tr_towards, T|exact T]. Qed.
Ltac byte := vm_compute; split; congruence.
Lemma tr_trim s : Tr s -> Tr (trim_here N s).
Proof. intros T. unfold trim_here. apply tr_trimmed, tr_here; [byte|]. apply tr_toggle_if, T. Qed.
Lemma tr_next s s' : Tr s -> next_change_sequence N c seq s = Ok s' -> Tr s'.
Proof.
  intros T E. unfold next_change_sequence in E. cbv zeta in E. destruct (dict_get _ _) as [ch|]; [|discriminate].
  rewrite Hcc, Z.eqb_refl in E. injection E as <-. apply tr_trimmed. destruct (negb _); [|apply tr_thread, tr_order, T].
  pose proof (tr_thread _ (c_obj ch) (tr_order _ (order_index N s + 1) T)) as [T1 E1 H1 K1 G1 He1].
  unfold add_thread_change. constructor; attrs; try assumption; [|rewrite endpos_snoc; reflexivity|apply Forall_app; split; [exact G1|constructor; [exact He1|constructor]]].
  apply trail_snoc; [exact T1|left; cbn [sx sy]; symmetry; exact E1|].
  right. cbn [scmd]. apply cmd_thread_change. byte.
Qed.
Lemma tr_declare s s' : Tr s -> declare_not_trimmed N c seq s = Ok s' -> Tr s'.
Proof.
  intros T E. unfold declare_not_trimmed in E. step_in E T. injection E as <-. apply tr_trimmed.
  destruct (_ =? _); [eapply tr_next; eassumption|injection Ei as <-; exact T].
Qed.
Lemma tr_close src pos s : Tr s -> Tr (close_section N src pos s).
Proof.
  intros T. unfold close_section. destruct (negb _); [|exact T]. pose proof (tr_tie_off src pos s T).
  destruct (explicit_trim N _); [apply tr_trim|]; assumption.
Qed.
Lemma tr_trim_if src pos s : Tr s -> Tr (tie_off_and_trim_if_needed N src pos s).
Proof. intros T. unfold tie_off_and_trim_if_needed. destruct (negb _); [apply tr_trim, tr_tie_off, T|exact T]. Qed.
Lemma tr_stop s : Tr s -> Tr (stop_here N s).
Proof. intros T. unfold stop_here. apply tr_trimmed, tr_here; [byte|exact T]. Qed.
Lemma tr_end_here s : Tr s -> Tr (end_here N s).
Proof. intros T. unfold end_here. apply tr_trimmed, tr_here; [byte|exact T]. Qed.
Lemma tr_open src pos x y s s' : good x -> good y -> Tr s -> open_section N c seq src pos x y s = Ok s' -> Tr s'.
Proof.
  intros Gx Gy T E. unfold open_section in E. step_in E T. apply tr_declare in Ei; [|exact T]. step_in E T.
  apply tr_within in Ei0; [|exact Gx|exact Gy|exact Ei]. injection E as <-. apply tr_tie_on, tr_stitch_at; [exact Gx|exact Gy|exact Ei0].
Qed.
Lemma tr_contingencies s et a b l v : Tr s -> sequin_known v -> Tr (set_contingencies N s et a b l v).
Proof. intros [] K. constructor; assumption. Qed.
Lemma known_classify f v : classify f = OpSequinContingency v -> sequin_known v.
Proof.
  unfold classify, sequin_known. intros H.
  repeat (destruct (_ =? _) in H; [try discriminate H; injection H as <-; tauto|]). discriminate H.
Qed.
Lemma tr_exec src pos rest a x y o s s' : good x -> good y -> Tr s -> (forall v, o = OpSequinContingency v -> sequin_known v) ->
  exec N c seq src pos rest a x y o s = Ok s' -> Tr s'.
Proof.
  intros Gx Gy T Ko E. pose proof (t_known _ T) as K. destruct o; cbn [exec] in E;
    try (injection E as <-; first [exact T | apply tr_jumping, T | apply tr_trim_if, T | apply tr_tie_off, T | apply tr_tie_on, T
      | apply tr_toggle, T | apply tr_stop, T | apply tr_end_here, T | apply tr_limits, T | apply tr_matrix, T
      | apply tr_contingencies; [exact T|exact K]]; fail).
  - destruct (trimmed N s); [eapply tr_open; [exact Gx|exact Gy|eassumption..]|]. destruct (jumping N s); [|eapply tr_contingency; [exact Gx|exact Gy|eassumption..]].
    step_in E T. injection E as <-. apply tr_jumping. eapply tr_needle_to; [exact Gx|exact Gy|eassumption..].
  - destruct (trimmed N s); [eapply tr_open; [exact Gx|exact Gy|eassumption..]|]. destruct (jumping N s); [|eapply tr_needle_to; [exact Gx|exact Gy|eassumption..]].
    step_in E T. injection E as <-. apply tr_jumping. eapply tr_needle_to; [exact Gx|exact Gy|eassumption..].
  - destruct (trimmed N s); [eapply tr_open; [exact Gx|exact Gy|eassumption..]|]. destruct (jumping N s); [|eapply tr_sew_to; [exact Gx|exact Gy|eassumption..]].
    step_in E T. injection E as <-. apply tr_jumping. eapply tr_needle_to; [exact Gx|exact Gy|eassumption..].
  - step_in E T. injection E as <-. apply tr_stop. eapply tr_jump_to; [exact Gx|exact Gy| |exact Ei]. apply tr_trim_if, T.
  - unfold color_break in E. destruct (_ <? _); [injection E as <-; exact T|].
    pose proof (tr_close src pos s T). destruct (negb _); [injection E as <-; assumption|].
    step_in E T. injection E as <-. apply tr_trimmed. eapply tr_next; eassumption.
  - destruct (jumping N s); [injection E as <-; exact T|eapply tr_jump_to; [exact Gx|exact Gy|eassumption..]].
  - step_in E T. eapply tr_sequin_at; [exact Gx|exact Gy| |exact E].
    assert (T1 : Tr v) by (destruct (trimmed N s); [eapply tr_open; [exact Gx|exact Gy|eassumption..]|injection Ei as <-; exact T]).
    destruct (sequin_mode N v); [exact T1|apply tr_toggle, T1].
  - unfold tie_off_trim_color_change in E. step_in E T. injection E as <-. apply tr_trimmed.
    eapply tr_next; [apply tr_close, T|exact Ei].
  - injection E as <-. destruct (writes_speeds c); [apply tr_here; [byte|exact T]|exact T].
  - injection E as <-. destruct (writes_speeds c); [apply tr_here; [byte|exact T]|exact T].
  - injection E as <-. apply tr_contingencies; [apply tr_toggle_if, T|apply Ko; reflexivity].
  - destruct (needle_in_source N s) as [[s1 q]|] eqn:En; [cbn [bindr] in E|discriminate]. injection E as <-.
    unfold needle_in_source in En. step_in En T. step_in En T. injection En as <- _. apply tr_matrix, tr_matrix, T.
  - destruct (needle_in_source N s) as [[s1 q]|] eqn:En; [cbn [bindr] in E|discriminate]. injection E as <-.
    unfold needle_in_source in En. step_in En T. step_in En T. injection En as <- _. apply tr_matrix, tr_matrix, T.
Qed.
Lemma tr_high s h : Tr s -> Tr (set_high N s (Z.land h FLAGS_MASK)).
Proof. intros []. constructor; attrs; try assumption. apply high_flags_mask. Qed.
Lemma placed_good s a x y : placed N c s a = Ok (x, y) -> good x /\ good y.
Proof.
  unfold placed, point_in_matrix_space. intros E. destruct (rounding c); [|injection E as <- <-; split; apply Hadd].
  step_in E I. step_in E I. injection E as <- <-. split; [eapply Hrnd; [apply Hadd|exact Ei]|eapply Hrnd; [apply Hadd|exact Ei0]].
Qed.
Lemma tr_loop src : forall rest pos s s', Tr s -> main_loop N c seq src pos rest s = Ok s' -> Tr s'.
Proof.
  induction rest as [|a rest IH]; intros pos s s' T E; cbn [main_loop] in E; [injection E as <-; apply tr_end_here, T|].
  destruct (placed N c s a) as [[x y]|] eqn:Ep; [cbn [bindr] in E|discriminate]. apply placed_good in Ep. destruct Ep as [Gx Gy]. step_in E T.
  assert (T1 : Tr v) by (eapply tr_exec; [exact Gx|exact Gy|apply tr_high, T|apply known_classify|exact Ei]).
  destruct (_ =? _); [injection E as <-; exact T1|]. eapply IH; eassumption.
Qed.
End First.

Lemma encoded_trail (N : Num) (good : F N -> Prop) (set : settings N) p o ths : good (f0 N) -> (forall a b, good (fadd N a b)) ->
  (forall a b, good a -> fround N a = Ok b -> good b) -> (forall a b, good a -> towards N a b (f0 N) = a) ->
  thread_change_command (init_config N set) = COLOR_CHANGE ->
  sequin_known (sequin_contingency N (init_state N set)) ->
  transcode N set p = Ok (o, ths) -> trail (f0 N) (f0 N) o /\ Forall (gs N good) o.
Proof.
  intros G0 Ga Gr Hl Hk Hq E. unfold transcode in E. destruct (build_thread_change_sequence _ _ _ _) as [seq|]; [cbn [bindr] in E|discriminate].
  rewrite Hk in E. change (COLOR_CHANGE =? NEEDLE_SET) with false in E. cbv iota in E.
  destruct (main_loop _ _ _ _ _ _ _) as [s|] eqn:Em; [cbn [bindr] in E|discriminate]. injection E as <- _.
  apply (tr_loop N (init_config N set) seq Hk good Ga Gr Hl) in Em; [split; apply Em|].
  constructor; [exact I|reflexivity|reflexivity|exact Hq|constructor|split; exact G0].
Qed.
