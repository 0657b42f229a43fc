(** Without sequins in the source there are none in the encoded pattern. *)
From Coq Require Import ZArith List Bool Lia.
From Verif Require Import PyBase EmbConst FunctionsModel ThreadModel NumModel MatrixModel EncoderModel
  BitLemmas EncoderProofs EncoderPlanProofs EncoderSpec EncoderFlowProofs EncoderSewProofs.
Import ListNotations.
Open Scope Z_scope.

Definition no_sequin {C} (a : stitch C) : Prop := cmd_of (scmd a) <> SEQUIN_MODE /\ cmd_of (scmd a) <> SEQUIN_EJECT.

Section Sequin.
Context (N : Num).
Notation F := (F N).
Notation st := (st N).
Implicit Types s : st.

(** ** Outside of sequin mode, without sequin commands, the mode stays off and nothing of it is written *)
Definition ext s s' : Prop := sequin_mode N s = false -> high_flags N s' = high_flags N s /\ sequin_mode N s' = false /\
  exists d, out N s' = out N s ++ d /\ (hi N s -> Forall no_sequin d).
Lemma ext_same s s' : high_flags N s' = high_flags N s -> sequin_mode N s' = sequin_mode N s -> out N s' = out N s -> ext s s'.
Proof. intros H M E Hs. split; [exact H|]. split; [congruence|]. exists []. rewrite app_nil_r. split; [exact E|]. intros _. constructor. Qed.
Lemma ext_refl s : ext s s. Proof. apply ext_same; reflexivity. Qed.
Lemma ext_trans a b c : ext a b -> ext b c -> ext a c.
Proof.
  intros X Y Hs. destruct (X Hs) as (H & M & d & E & D). destruct (Y M) as (H' & M' & d' & E' & D'). split; [congruence|]. split; [exact M'|].
  exists (d ++ d'). rewrite E', E, app_assoc. split; [reflexivity|].
  intros Hi. apply Forall_app. split; [apply D; assumption|]. apply D'. unfold hi in *. rewrite H. exact Hi.
Qed.
Lemma ext_one s s' a : high_flags N s' = high_flags N s -> sequin_mode N s' = sequin_mode N s -> out N s' = out N s ++ [a] ->
  (hi N s -> no_sequin a) -> ext s s'.
Proof. intros H M E X Hs. split; [exact H|]. split; [congruence|]. exists [a]. split; [exact E|]. intros Hi. constructor; [auto|constructor]. Qed.
Lemma ext_add s s' k x y : high_flags N s' = high_flags N s -> sequin_mode N s' = sequin_mode N s -> out N s' = out N s ++ [mkS x y (Z.lor k (high_flags N s))] ->
  0 <= k < 256 -> k <> SEQUIN_MODE /\ k <> SEQUIN_EJECT -> ext s s'.
Proof.
  intros H M E X Y. eapply ext_one; [exact H|exact M|exact E|]. intros Hi. unfold no_sequin. cbn [scmd]. rewrite cmd_lor_high by assumption. exact Y.
Qed.
Lemma ext_needle s u x y : ext s u -> ext s (update_needle_position N u x y). Proof. intros H. exact H. Qed.
Lemma ext_trimmed s u v : ext s u -> ext s (set_trimmed N u v). Proof. intros H. exact H. Qed.
Lemma ext_jumping s u v : ext s u -> ext s (set_jumping N u v). Proof. intros H. exact H. Qed.
Lemma ext_cont s u a b c d e : ext s u -> ext s (set_contingencies N u a b c d e). Proof. intros H. exact H. Qed.
Ltac adds := first [eapply ext_add; [reflexivity|reflexivity|reflexivity|vm_compute; split; [discriminate|reflexivity]|split; discriminate]].
Lemma ext_leave s : ext s (if sequin_mode N s then toggle_sequins N s else s).
Proof. destruct (sequin_mode N s) eqn:E; [intros X; congruence|apply ext_refl]. Qed.
Lemma ext_leave_if s b : ext s (if b && sequin_mode N s then toggle_sequins N s else s).
Proof. destruct b; [apply ext_leave|apply ext_refl]. Qed.
Lemma ext_gap : forall n qx qy ax ay cmd s, (hi N s -> cmd_of cmd <> SEQUIN_MODE /\ cmd_of cmd <> SEQUIN_EJECT) -> ext s (gap_loop N n qx qy ax ay cmd s).
Proof.
  induction n as [|n IH]; intros qx qy ax ay cmd s Hc; cbn [gap_loop]; [apply ext_refl|]. eapply ext_trans; [|apply IH; exact Hc].
  eapply ext_one; [reflexivity|reflexivity|reflexivity|exact Hc].
Qed.
Lemma ext_interp s s' x0 y0 x1 y1 lim data : 0 <= data < 256 -> data <> SEQUIN_MODE /\ data <> SEQUIN_EJECT ->
  interpolate_gap_stitches N s x0 y0 x1 y1 lim data = Ok s' -> ext s s'.
Proof.
  intros D1 D2 E. unfold interpolate_gap_stitches in E. cbv zeta in E.
  destruct lim as [lim|]; [|injection E as <-; apply ext_refl].
  destruct (exceeds _ _ _ || exceeds _ _ _); [|injection E as <-; apply ext_refl].
  repeat match type of E with bindr ?r _ = Ok _ => destruct r; [|discriminate]; cbn [bindr] in E end.
  injection E as <-. eapply ext_trans; [|apply ext_gap].
  - apply ext_leave_if.
  - intros Hi. rewrite cmd_lor_high by assumption. exact D2.
Qed.
Lemma ext_stitch_at s x y : ext s (stitch_at N s x y). Proof. adds. Qed.
Ltac code := first [assumption | split; discriminate | vm_compute; split; [discriminate|reflexivity] | eassumption].
Lemma ext_jump_at s x y : ext s (jump_at N s x y).
Proof. unfold jump_at. eapply ext_trans; [apply ext_leave|]. adds. Qed.
Ltac step E := match type of E with bindr ?r _ = Ok _ => let E1 := fresh "E1" in destruct r eqn:E1; [|discriminate]; cbn [bindr] in E end.
Lemma ext_needle_to s s' x y : needle_to N s x y = Ok s' -> ext s s'.
Proof. intros E. unfold needle_to in E. step E. injection E as <-. eapply ext_trans; [(eapply ext_interp; [| |eassumption]; code)|apply ext_stitch_at]. Qed.
Lemma ext_sew_to s s' x y : sew_to N s x y = Ok s' -> ext s s'.
Proof. intros E. unfold sew_to in E. step E. injection E as <-. eapply ext_trans; [(eapply ext_interp; [| |eassumption]; code)|apply ext_stitch_at]. Qed.
Lemma ext_contingency s s' x y : stitch_with_contingency N s x y = Ok s' -> ext s s'.
Proof.
  intros E. unfold stitch_with_contingency in E. destruct (_ =? _); [eapply ext_sew_to; eassumption|].
  destruct (_ =? _); [eapply ext_needle_to; eassumption|]. injection E as <-. apply ext_stitch_at.
Qed.
Lemma ext_within c s s' x y : jump_to_within_stitchrange N c s x y = Ok s' -> ext s s'.
Proof.
  intros E. unfold jump_to_within_stitchrange in E. step E. apply ext_interp in E1; [|code|code].
  destruct (full_jump c); [|injection E as <-; exact E1]. destruct (_ || _); injection E as <-; [|exact E1].
  eapply ext_trans; [exact E1|apply ext_jump_at].
Qed.
Lemma ext_jump_to s s' x y : jump_to N s x y = Ok s' -> ext s s'.
Proof. intros E. unfold jump_to in E. step E. injection E as <-. eapply ext_trans; [(eapply ext_interp; [| |eassumption]; code)|apply ext_jump_at]. Qed.
Lemma ext_lock s b : ext s (lock_towards N s b).
Proof.
  destruct b as [b|]; [|apply ext_refl]. cbn [lock_towards]. destruct (point_in_matrix_space N (matrix N s) (sx b) (sy b)) as [bx by'].
  destruct (is_anchor (scmd b)); [|apply ext_refl]. unfold lock_stitch.
  match goal with |- context [let '(ax, ay) := ?e in _] => destruct e as [ax ay] end. cbv zeta.
  intros Hs. split; [reflexivity|]. split; [exact Hs|]. eexists. split; [cbn [append out]; rewrite <- !app_assoc; reflexivity|].
  intros _. repeat (constructor; [split; discriminate|]). constructor.
Qed.
Lemma ext_tie_off src pos s : ext s (tie_off N src pos s).
Proof. unfold tie_off. destruct (_ =? _); [apply ext_lock|apply ext_refl]. Qed.
Lemma ext_tie_on src pos s : ext s (tie_on N src pos s).
Proof. unfold tie_on. destruct (_ =? _); [apply ext_lock|apply ext_refl]. Qed.
Lemma ext_trim_here s : ext s (trim_here N s).
Proof. unfold trim_here. eapply ext_trans; [apply ext_leave|]. adds. Qed.
Lemma ext_if_needed src pos s : ext s (tie_off_and_trim_if_needed N src pos s).
Proof. unfold tie_off_and_trim_if_needed. destruct (negb _); [|apply ext_refl]. eapply ext_trans; [apply ext_tie_off|apply ext_trim_here]. Qed.
Lemma ext_close src pos s : ext s (close_section N src pos s).
Proof.
  unfold close_section. destruct (negb _); [|apply ext_refl]. cbv zeta. destruct (explicit_trim N _); [|apply ext_tie_off].
  eapply ext_trans; [apply ext_tie_off|apply ext_trim_here].
Qed.
Lemma ext_next c seq s s' : next_change_sequence N c seq s = Ok s' -> ext s s'.
Proof.
  intros E. unfold next_change_sequence in E. destruct (dict_get _ seq); [|discriminate]. injection E as <-.
  destruct (_ =? COLOR_CHANGE).
  - destruct (negb _); [|apply ext_same; reflexivity]. eapply ext_one; [reflexivity|reflexivity|reflexivity|]. intros _. unfold no_sequin. cbn [scmd].
    rewrite cmd_thread_change by (vm_compute; split; [discriminate|reflexivity]). split; discriminate.
  - destruct (_ =? NEEDLE_SET); [eapply ext_one; [reflexivity|reflexivity|reflexivity|]; intros _; unfold no_sequin; cbn [scmd];
      rewrite cmd_thread_change by (vm_compute; split; [discriminate|reflexivity]); split; discriminate|].
    destruct (_ =? STOP); [|apply ext_same; reflexivity].
    eapply ext_one; [reflexivity|reflexivity|reflexivity|]. intros _. unfold no_sequin; cbn [scmd];
      rewrite cmd_thread_change by (vm_compute; split; [discriminate|reflexivity]); split; discriminate.
Qed.
Lemma ext_open c seq src pos x y s s' : open_section N c seq src pos x y s = Ok s' -> ext s s'.
Proof.
  intros E. unfold open_section, declare_not_trimmed in E.
  destruct (if order_index N s =? -1 then _ else _) as [s1|] eqn:E1; [|discriminate]. cbn [bindr] in E.
  step E. injection E as <-. eapply ext_trans; [|eapply ext_trans; [apply ext_stitch_at|apply ext_tie_on]].
  eapply ext_trans; [|eapply ext_within; eassumption]. apply ext_trimmed.
  destruct (order_index N s =? -1); [eapply ext_next; exact E1|injection E1 as <-; apply ext_refl].
Qed.
Lemma ext_exec c seq src pos rest a x y o s s' : o <> OpSequinMode -> o <> OpSequinEject ->
  exec N c seq src pos rest a x y o s = Ok s' -> ext s s'.
Proof.
  intros Ho1 Ho2 E.
  assert (Sew : forall f : st -> res st, (forall s', f s = Ok s' -> ext s s') ->
    (if trimmed N s then open_section N c seq src pos x y s
     else if jumping N s then do s <- needle_to N s x y; Ok (set_jumping N s false) else f s) = Ok s' -> ext s s').
  { intros f Hf E0. destruct (trimmed N s); [eapply ext_open; eassumption|]. destruct (jumping N s); [|apply Hf; exact E0].
    step E0. injection E0 as <-. apply ext_jumping. eapply ext_needle_to; eassumption. }
  destruct o; try congruence; cbn [exec] in E.
  1: injection E as <-; apply ext_refl.
  1: apply (Sew (fun s => stitch_with_contingency N s x y)); [intros s1; apply ext_contingency|exact E].
  1: apply (Sew (fun s => needle_to N s x y)); [intros s1; apply ext_needle_to|exact E].
  1: apply (Sew (fun s => sew_to N s x y)); [intros s1; apply ext_sew_to|exact E].
  all: try (injection E as <-; first [apply ext_same; reflexivity | adds | apply ext_if_needed | apply ext_tie_off | apply ext_tie_on
     | destruct (writes_speeds c); [adds|apply ext_refl]]).
  - step E. injection E as <-. eapply ext_trans; [apply ext_if_needed|]. eapply ext_trans; [eapply ext_jump_to; eassumption|]. adds.
  - unfold color_break in E. destruct (_ <? 0); [injection E as <-; apply ext_refl|]. cbv zeta in E.
    destruct (negb _); [injection E as <-; apply ext_close|]. step E. injection E as <-. apply ext_trimmed.
    eapply ext_trans; [apply ext_close|eapply ext_next; eassumption].
  - destruct (jumping N s); [injection E as <-; apply ext_refl|eapply ext_jump_to; eassumption].
  - unfold tie_off_trim_color_change in E. step E. injection E as <-. apply ext_trimmed.
    eapply ext_trans; [apply ext_close|eapply ext_next; eassumption].
  - injection E as <-. apply ext_cont. apply ext_leave_if.
  - unfold needle_in_source in E. destruct (inverse N (matrix N s)) as [m1|]; [|discriminate]. cbn [bindr] in E.
    destruct (inverse N m1) as [m2|]; [|discriminate]. cbn [bindr] in E. injection E as <-. apply ext_same; reflexivity.
  - unfold needle_in_source in E. destruct (inverse N (matrix N s)) as [m1|]; [|discriminate]. cbn [bindr] in E.
    destruct (inverse N m1) as [m2|]; [|discriminate]. cbn [bindr] in E. injection E as <-. apply ext_same; reflexivity.
Qed.

Lemma classify_sequin : forall k, k <> SEQUIN_MODE -> k <> SEQUIN_EJECT -> classify k <> OpSequinMode /\ classify k <> OpSequinEject.
Proof.
  intros k H1 H2. unfold classify. apply Z.eqb_neq in H1, H2. rewrite H1, H2.
  repeat match goal with |- context [if ?p =? ?q then _ else _] => destruct (p =? q); [split; discriminate|] end. split; discriminate.
Qed.
Lemma main_loop_sequins : forall c seq src rest pos s s', hi N s -> sequin_mode N s = false ->
  Forall no_sequin (out N s) -> Forall no_sequin rest ->
  main_loop N c seq src pos rest s = Ok s' -> Forall no_sequin (out N s').
Proof.
  intros c seq src rest pos s s'. revert pos s s'. induction rest as [|a rest IH]; intros pos s s' Hi Hm Ho Hr E; cbn [main_loop] in E.
  - injection E as <-. unfold end_here, add, add_at. cbn [set_trimmed append out]. apply Forall_app. split; [exact Ho|].
    constructor; [|constructor]. unfold no_sequin. cbn [scmd]. rewrite cmd_lor_high by (try exact Hi; unfold END; lia). split; discriminate.
  - destruct (placed N c s a) as [[x y]|]; [|discriminate]. cbn [bindr] in E.
    apply Forall_cons_iff in Hr. destruct Hr as [[R1 R2] Hr].
    set (s0 := set_high N s (Z.land (scmd a) FLAGS_MASK)) in *.
    assert (Hi0 : hi N s0).
    { unfold hi, s0. cbn [set_high high_flags]. rewrite <- Z.land_assoc, Z.land_diag. reflexivity. }
    destruct (exec N c seq src pos (a :: rest) a x y _ s0) as [s1|] eqn:E1; [|discriminate]. cbn [bindr] in E.
    destruct (classify_sequin _ R1 R2) as [C1 C2].
    destruct (ext_exec _ _ _ _ _ _ _ _ _ _ _ C1 C2 E1 Hm) as (Hh & M1 & d & Ed & D).
    assert (O1 : Forall no_sequin (out N s1)).
    { rewrite Ed. apply Forall_app. split; [exact Ho|]. apply D. exact Hi0. }
    destruct (cmd_of (scmd a) =? END); [injection E as <-; exact O1|]. eapply IH; [|exact M1|exact O1|exact Hr|exact E].
    unfold hi in *. rewrite Hh. exact Hi0.
Qed.
Lemma transcode_sequins : forall set p o ths, transcode N set p = Ok (o, ths) ->
  Forall no_sequin (p_stitches N p) -> Forall no_sequin o.
Proof.
  intros set p o ths E Hq. rewrite transcode_unfold in E.
  destruct (build_thread_change_sequence _ _ _ _) as [seq|]; [|discriminate]. cbn [bindr] in E.
  destruct (main_loop _ _ _ _ _ _ _) as [s|] eqn:Em; [|discriminate]. cbn [bindr] in E. injection E as <- <-.
  eapply main_loop_sequins; [| | |exact Hq|exact Em]; unfold start; destruct (_ =? _); first [reflexivity|constructor].
Qed.
End Sequin.
