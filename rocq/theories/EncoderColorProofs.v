(** Which thread sews each stitch. *)
From Coq Require Import ZArith List Bool Lia.
From Verif Require Import PyBase EmbConst FunctionsModel ThreadModel NumModel MatrixModel EncoderModel
  BitLemmas EncoderProofs EncoderPlanProofs EncoderSpec EncoderColorSpec EncoderFlowProofs EncoderSewProofs EncoderThreadProofs.
Import ListNotations.
Open Scope Z_scope.

(** ** Coloured points *)
Lemma coloured_app : forall C (l1 l2 : list (stitch C)) n,
  coloured n (l1 ++ l2) = coloured n l1 ++ coloured (n + List.length (filter (is_cmd COLOR_CHANGE) l1))%nat l2.
Proof.
  induction l1 as [|a l1 IH]; intros l2 n; cbn [app coloured filter].
  - f_equal. cbn. lia.
  - destruct (is_cmd COLOR_CHANGE a) eqn:Ec; cbn [List.length].
    + rewrite IH. do 2 f_equal. lia.
    + destruct (is_cmd STITCH a); rewrite IH; reflexivity.
Qed.
Lemma coloured_one : forall C (l : list (stitch C)) n, filter (is_cmd COLOR_CHANGE) l = [] ->
  coloured n l = map (fun q => (n, q)) (needle_points l).
Proof.
  induction l as [|a l IH]; intros n H; [reflexivity|]. cbn [filter] in H. cbn [coloured].
  destruct (is_cmd COLOR_CHANGE a); [discriminate|]. unfold needle_points. cbn [filter].
  destruct (is_cmd STITCH a); cbn [map]; rewrite (IH n H); reflexivity.
Qed.
Lemma coloured_none : forall C (l : list (stitch C)) n, needle_points l = [] -> coloured n l = [].
Proof.
  induction l as [|a l IH]; intros n H; [reflexivity|]. unfold needle_points in H. cbn [filter] in H. cbn [coloured].
  destruct (is_cmd STITCH a) eqn:Es; [discriminate|]. destruct (is_cmd COLOR_CHANGE a); apply IH; exact H.
Qed.

Section Color.
Context (N : Num).
Notation F := (F N).
Notation st := (st N).
Implicit Types s : st.

(** ** The output only grows; without STOP and FRAME_EJECT ([quiet]) it gets no STOP *)
Section Grows.
Variable quiet : bool.
Definition fresh s (d : list (stitch F)) : Prop := quiet = true -> hi N s -> Forall (fun a => cmd_of (scmd a) <> STOP) d.
Definition ext s s' : Prop := high_flags N s' = high_flags N s /\ exists d, out N s' = out N s ++ d /\ fresh s d.
Lemma ext_same s s' : high_flags N s' = high_flags N s -> out N s' = out N s -> ext s s'.
Proof. intros H E. split; [exact H|]. exists []. rewrite app_nil_r. split; [exact E|]. intros _ _. constructor. Qed.
Lemma ext_refl s : ext s s. Proof. apply ext_same; reflexivity. Qed.
Lemma ext_trans a b c : ext a b -> ext b c -> ext a c.
Proof.
  intros [H [d [E D]]] [H' [d' [E' D']]]. split; [congruence|]. exists (d ++ d'). rewrite E', E, app_assoc. split; [reflexivity|].
  intros B Hi. apply Forall_app. split; [apply D; assumption|]. apply D'; [exact B|]. unfold hi in *. rewrite H. exact Hi.
Qed.
Lemma ext_one s s' a : high_flags N s' = high_flags N s -> out N s' = out N s ++ [a] ->
  (quiet = true -> hi N s -> cmd_of (scmd a) <> STOP) -> ext s s'.
Proof. intros H E X. split; [exact H|]. exists [a]. split; [exact E|]. intros B Hi. constructor; [auto|constructor]. Qed.
Lemma ext_add s s' k x y : high_flags N s' = high_flags N s -> out N s' = out N s ++ [mkS x y (Z.lor k (high_flags N s))] ->
  0 <= k < 256 -> (quiet = true -> k <> STOP) -> ext s s'.
Proof.
  intros H E X Y. eapply ext_one; [exact H|exact E|]. intros B Hi. cbn [scmd]. rewrite cmd_lor_high by assumption. apply Y, B.
Qed.
Lemma ext_needle s u x y : ext s u -> ext s (update_needle_position N u x y). Proof. intros H. exact H. Qed.
Lemma ext_trimmed s u v : ext s u -> ext s (set_trimmed N u v). Proof. intros H. exact H. Qed.
Lemma ext_jumping s u v : ext s u -> ext s (set_jumping N u v). Proof. intros H. exact H. Qed.
Lemma ext_cont s u a b c d e : ext s u -> ext s (set_contingencies N u a b c d e). Proof. intros H. exact H. Qed.
Ltac adds := first [eapply ext_add; [reflexivity|reflexivity|vm_compute; split; [discriminate|reflexivity]|intros _; discriminate]].
Lemma ext_toggle s : ext s (toggle_sequins N s).
Proof. unfold toggle_sequins. destruct (_ =? _); [|apply ext_refl]. adds. Qed.
Lemma ext_leave s : ext s (if sequin_mode N s then toggle_sequins N s else s).
Proof. destruct (sequin_mode N s); [apply ext_toggle|apply ext_refl]. Qed.
Lemma ext_gap : forall n qx qy ax ay cmd s, (quiet = true -> hi N s -> cmd_of cmd <> STOP) -> ext s (gap_loop N n qx qy ax ay cmd s).
Proof.
  induction n as [|n IH]; intros qx qy ax ay cmd s Hc; cbn [gap_loop]; [apply ext_refl|]. eapply ext_trans; [|apply IH; exact Hc].
  eapply ext_one; [reflexivity|reflexivity|exact Hc].
Qed.
Lemma ext_interp s s' x0 y0 x1 y1 lim data : 0 <= data < 256 -> data <> STOP ->
  interpolate_gap_stitches N s x0 y0 x1 y1 lim data = Ok s' -> ext s s'.
Proof.
  intros D1 D2 E. unfold interpolate_gap_stitches in E. cbv zeta in E.
  destruct lim as [lim|]; [|injection E as <-; apply ext_refl].
  destruct (exceeds _ _ _ || exceeds _ _ _); [|injection E as <-; apply ext_refl].
  repeat match type of E with bindr ?r _ = Ok _ => destruct r; [|discriminate]; cbn [bindr] in E end.
  injection E as <-. eapply ext_trans; [|apply ext_gap].
  - destruct (_ && _); [apply ext_toggle|apply ext_refl].
  - intros _ Hi. rewrite cmd_lor_high by assumption. exact D2.
Qed.
Lemma ext_stitch_at s x y : ext s (stitch_at N s x y). Proof. adds. Qed.
Ltac code := first [assumption | discriminate | vm_compute; split; [discriminate|reflexivity] | eassumption].
Lemma ext_jump_at s x y : ext s (jump_at N s x y).
Proof. unfold jump_at. eapply ext_trans; [apply ext_leave|]. adds. Qed.
Ltac step E := match type of E with bindr ?r _ = Ok _ => let E1 := fresh "E1" in destruct r eqn:E1; [|discriminate]; cbn [bindr] in E end.
Lemma ext_needle_to s s' x y : needle_to N s x y = Ok s' -> ext s s'.
Proof. intros E. unfold needle_to in E. step E. injection E as <-. eapply ext_trans; [(eapply ext_interp; [| |eassumption]; code)|apply ext_stitch_at]. Qed.
Lemma ext_sew_to s s' x y : sew_to N s x y = Ok s' -> ext s s'.
Proof. intros E. unfold sew_to in E. step E. injection E as <-. eapply ext_trans; [(eapply ext_interp; [| |eassumption]; code)|apply ext_stitch_at]. Qed.
Lemma ext_contingency s s' x y : stitch_with_contingency N s x y = Ok s' -> ext s s'.
Proof.
  intros E. unfold stitch_with_contingency in E. destruct (_ =? _); [eapply ext_sew_to; eassumption|].
  destruct (_ =? _); [eapply ext_needle_to; eassumption|]. injection E as <-. apply ext_stitch_at.
Qed.
Lemma ext_within c s s' x y : jump_to_within_stitchrange N c s x y = Ok s' -> ext s s'.
Proof.
  intros E. unfold jump_to_within_stitchrange in E. step E. apply ext_interp in E1; [|code|code].
  destruct (full_jump c); [|injection E as <-; exact E1]. destruct (_ || _); injection E as <-; [|exact E1].
  eapply ext_trans; [exact E1|apply ext_jump_at].
Qed.
Lemma ext_jump_to s s' x y : jump_to N s x y = Ok s' -> ext s s'.
Proof. intros E. unfold jump_to in E. step E. injection E as <-. eapply ext_trans; [(eapply ext_interp; [| |eassumption]; code)|apply ext_jump_at]. Qed.
Lemma ext_sequin_at s s' x y : sequin_at N s x y = Ok s' -> ext s s'.
Proof.
  intros E. unfold sequin_at in E. cbv zeta in E. destruct (_ =? CONTINGENCY_SEQUIN_REMOVE); [injection E as <-; apply ext_refl|].
  step E. injection E as <-. apply ext_interp in E1; [|code|code]. apply ext_needle. eapply ext_trans; [exact E1|].
  repeat (destruct (_ =? _); [adds|]). apply ext_refl.
Qed.
Lemma ext_lock s b : ext s (lock_towards N s b).
Proof.
  destruct b as [b|]; [|apply ext_refl]. cbn [lock_towards]. destruct (point_in_matrix_space N (matrix N s) (sx b) (sy b)) as [bx by'].
  destruct (is_anchor (scmd b)); [|apply ext_refl]. unfold lock_stitch.
  match goal with |- context [let '(ax, ay) := ?e in _] => destruct e as [ax ay] end. cbv zeta.
  split; [reflexivity|]. eexists. split; [cbn [append out]; rewrite <- !app_assoc; reflexivity|].
  intros _ _. repeat (constructor; [discriminate|]). constructor.
Qed.
Lemma ext_tie_off src pos s : ext s (tie_off N src pos s).
Proof. unfold tie_off. destruct (_ =? _); [apply ext_lock|apply ext_refl]. Qed.
Lemma ext_tie_on src pos s : ext s (tie_on N src pos s).
Proof. unfold tie_on. destruct (_ =? _); [apply ext_lock|apply ext_refl]. Qed.
Lemma ext_trim_here s : ext s (trim_here N s).
Proof. unfold trim_here. eapply ext_trans; [apply ext_leave|]. adds. Qed.
Lemma ext_if_needed src pos s : ext s (tie_off_and_trim_if_needed N src pos s).
Proof. unfold tie_off_and_trim_if_needed. destruct (negb _); [|apply ext_refl]. eapply ext_trans; [apply ext_tie_off|apply ext_trim_here]. Qed.
Lemma ext_close src pos s : ext s (close_section N src pos s).
Proof.
  unfold close_section. destruct (negb _); [|apply ext_refl]. cbv zeta. destruct (explicit_trim N _); [|apply ext_tie_off].
  eapply ext_trans; [apply ext_tie_off|apply ext_trim_here].
Qed.
Lemma ext_next c seq s s' : (quiet = true -> thread_change_command c = COLOR_CHANGE) -> next_change_sequence N c seq s = Ok s' -> ext s s'.
Proof.
  intros Hc E. unfold next_change_sequence in E. destruct (dict_get _ seq); [|discriminate]. injection E as <-.
  destruct (Z.eqb_spec (thread_change_command c) COLOR_CHANGE) as [E1|E1].
  - destruct (negb _); [|apply ext_same; reflexivity]. eapply ext_one; [reflexivity|reflexivity|]. intros _ _. cbn [scmd].
    rewrite cmd_thread_change by (vm_compute; split; [discriminate|reflexivity]). discriminate.
  - destruct (_ =? NEEDLE_SET); [eapply ext_one; [reflexivity|reflexivity|]; intros B _; elim E1; exact (Hc B)|].
    destruct (_ =? STOP); [|apply ext_same; reflexivity]. eapply ext_one; [reflexivity|reflexivity|]. intros B _. elim E1; exact (Hc B).
Qed.
Lemma ext_open c seq src pos x y s s' : (quiet = true -> thread_change_command c = COLOR_CHANGE) -> open_section N c seq src pos x y s = Ok s' -> ext s s'.
Proof.
  intros Hc E. unfold open_section, declare_not_trimmed in E.
  destruct (if order_index N s =? -1 then _ else _) as [s1|] eqn:E1; [|discriminate]. cbn [bindr] in E.
  step E. injection E as <-. eapply ext_trans; [|eapply ext_trans; [apply ext_stitch_at|apply ext_tie_on]].
  eapply ext_trans; [|eapply ext_within; eassumption]. apply ext_trimmed.
  destruct (order_index N s =? -1); [eapply ext_next; [exact Hc|exact E1]|injection E1 as <-; apply ext_refl].
Qed.
Lemma ext_exec c seq src pos rest a x y o s s' : (quiet = true -> thread_change_command c = COLOR_CHANGE) ->
  (quiet = true -> o <> OpStop /\ o <> OpFrameEject) -> exec N c seq src pos rest a x y o s = Ok s' -> ext s s'.
Proof.
  intros Hc Ho E.
  assert (Sew : forall f : st -> res st, (forall s', f s = Ok s' -> ext s s') ->
    (if trimmed N s then open_section N c seq src pos x y s
     else if jumping N s then do s <- needle_to N s x y; Ok (set_jumping N s false) else f s) = Ok s' -> ext s s').
  { intros f Hf E0. destruct (trimmed N s); [eapply ext_open; [exact Hc|eassumption]|]. destruct (jumping N s); [|apply Hf; exact E0].
    step E0. injection E0 as <-. apply ext_jumping. eapply ext_needle_to; eassumption. }
  destruct o; cbn [exec] in E.
  1: injection E as <-; apply ext_refl.
  1: apply (Sew (fun s => stitch_with_contingency N s x y)); [intros s1; apply ext_contingency|exact E].
  1: apply (Sew (fun s => needle_to N s x y)); [intros s1; apply ext_needle_to|exact E].
  1: apply (Sew (fun s => sew_to N s x y)); [intros s1; apply ext_sew_to|exact E].
  all: try (injection E as <-; first [apply ext_same; reflexivity | adds | apply ext_if_needed | apply ext_tie_off | apply ext_tie_on | apply ext_toggle
     | eapply ext_add; [reflexivity|reflexivity|vm_compute; split; [discriminate|reflexivity]|intros B; destruct (Ho B); congruence]
     | destruct (writes_speeds c); [adds|apply ext_refl]]).
  - step E. injection E as <-. eapply ext_trans; [apply ext_if_needed|]. eapply ext_trans; [eapply ext_jump_to; eassumption|].
    eapply ext_add; [reflexivity|reflexivity|vm_compute; split; [discriminate|reflexivity]|intros B; destruct (Ho B); congruence].
  - unfold color_break in E. destruct (_ <? 0); [injection E as <-; apply ext_refl|]. cbv zeta in E.
    destruct (negb _); [injection E as <-; apply ext_close|]. step E. injection E as <-. apply ext_trimmed.
    eapply ext_trans; [apply ext_close|eapply ext_next; [exact Hc|eassumption]].
  - destruct (jumping N s); [injection E as <-; apply ext_refl|eapply ext_jump_to; eassumption].
  - step E. eapply ext_trans; [|eapply ext_trans; [|eapply ext_sequin_at; exact E]].
    + destruct (trimmed N s); [eapply ext_open; [exact Hc|eassumption]|injection E1 as <-; apply ext_refl].
    + destruct (sequin_mode N _); [apply ext_refl|apply ext_toggle].
  - unfold tie_off_trim_color_change in E. step E. injection E as <-. apply ext_trimmed.
    eapply ext_trans; [apply ext_close|eapply ext_next; [exact Hc|eassumption]].
  - injection E as <-. apply ext_cont. destruct (_ && _); [apply ext_toggle|apply ext_refl].
  - unfold needle_in_source in E. destruct (inverse N (matrix N s)) as [m1|]; [|discriminate]. cbn [bindr] in E.
    destruct (inverse N m1) as [m2|]; [|discriminate]. cbn [bindr] in E. injection E as <-. apply ext_same; reflexivity.
  - unfold needle_in_source in E. destruct (inverse N (matrix N s)) as [m1|]; [|discriminate]. cbn [bindr] in E.
    destruct (inverse N m1) as [m2|]; [|discriminate]. cbn [bindr] in E. injection E as <-. apply ext_same; reflexivity.
Qed.
End Grows.

(** ** The loop *)
Variables (c : config) (seq : dict change) (base : list tref).
Hypothesis Hk : thread_change_command c = COLOR_CHANGE.
Definition thread_at (o : Z) : option nat := if o <? 0 then None else Some (Z.to_nat o).

Lemma count_order : forall s m, Inv N c seq base true true s m ->
  List.length (filter (is_cmd COLOR_CHANGE) (out N s)) = Z.to_nat (Z.max 0 (order_index N s)).
Proof.
  intros s m H. pose proof (i_run _ _ _ _ _ _ _ _ H) as Run. unfold cmds in Run.
  pose proof (filter_changes _ _ _ _ _ _ _ Hk Run) as Fc. cbn [mon0 m_changes app] in Fc.
  destruct (i_plan _ _ _ _ _ _ _ _ H) as (chs & L & _ & P1 & _). destruct (P1 Hk) as [_ C1].
  rewrite C1 in Fc. apply (f_equal (@List.length _)) in Fc. rewrite !map_length in Fc. rewrite <- Fc.
  destruct chs; cbn [List.length tl] in *; lia.
Qed.

Lemma take_order : forall (a : stitch F) rest o, -1 <= o -> take_thread (thread_at o) a rest = thread_at (step_order N a rest o).
Proof.
  intros a rest o Ho. unfold take_thread, step_order.
  assert (X : thread_at (Z.max 0 o) = Some match thread_at o with Some k => k | None => 0%nat end).
  { unfold thread_at. destruct (Z.ltb_spec (Z.max 0 o) 0); [lia|]. destruct (Z.ltb_spec o 0); f_equal; lia. }
  assert (W : thread_at (o + 1) = Some (next_thread (thread_at o))).
  { unfold thread_at. destruct (Z.ltb_spec (o + 1) 0); [lia|]. destruct (Z.ltb_spec o 0); cbn [next_thread]; f_equal; lia. }
  assert (V : (match thread_at o with Some _ => true | None => false end) = (0 <=? o)).
  { unfold thread_at. destruct (Z.ltb_spec o 0); destruct (Z.leb_spec 0 o); lia || reflexivity. }
  rewrite V. destruct (sews_any a); [symmetry; exact X|]. destruct (explicit_change a); [symmetry; exact W|].
  destruct (is_break a && (0 <=? o) && later_sewing rest); [symmetry; exact W|reflexivity].
Qed.
Lemma threaded_step : forall (a : stitch F) rest o, -1 <= o -> is_cmd END a = false ->
  threaded (thread_at o) (a :: rest) =
  (if sews_src a then [(Z.to_nat (step_order N a rest o), a)] else []) ++ threaded (thread_at (step_order N a rest o)) rest.
Proof.
  intros a rest o Ho He. cbn [threaded]. rewrite He, take_order by exact Ho. f_equal.
  destruct (sews_src a) eqn:Es; [|destruct (thread_at _); reflexivity].
  unfold step_order, sews_any. rewrite Es. cbn [orb]. unfold thread_at. destruct (Z.ltb_spec (Z.max 0 o) 0); [lia|reflexivity].
Qed.
Lemma next_order : forall o, -1 <= o -> next_thread (thread_at o) = Z.to_nat (o + 1).
Proof. intros o Ho. unfold thread_at. destruct (Z.ltb_spec o 0); cbn [next_thread]; lia. Qed.

Lemma main_loop_colours : forall src rest pos s s' m, Inv N c seq base true true s m -> open_ok N s m ->
  Forall (plain_sewing N) rest ->
  Forall (fun a => matrix_op (classify (cmd_of (scmd a))) = false) (until_end rest) ->
  main_loop N c seq src pos rest s = Ok s' ->
  exists qs l,
    Forall2 (fun ka kq => fst ka = fst kq /\ placed N c s (snd ka) = Ok (snd kq)) (threaded (thread_at (order_index N s)) rest) qs /\
    Forall (fun ka => Z.of_nat (fst ka) <= order_index N s') (threaded (thread_at (order_index N s)) rest) /\
    order_index N s <= order_index N s' /\
    threads_taken (thread_at (order_index N s)) rest = Z.to_nat (order_index N s' + 1) /\
    coloured 0 (out N s') = coloured 0 (out N s) ++ l /\ subseq qs l /\
    (no_ties N s -> Forall (fun a => plain_op (classify (cmd_of (scmd a))) = true) (until_end rest) -> l = qs).
Proof.
  intros src. induction rest as [|a rest IH]; intros pos s s' m H Ho Hp Hm E; cbn [main_loop] in E.
  - injection E as <-. exists [], []. split; [constructor|]. split; [constructor|]. split; [cbn; lia|].
    split; [apply next_order; exact (i_order _ _ _ _ _ _ _ _ H)|].
    split; [|split; [constructor|auto]]. cbn [end_here]. unfold end_here, add, add_at. cbn [set_trimmed append out].
    rewrite coloured_app, app_nil_r. rewrite (coloured_none _ [_]); [apply app_nil_r|].
    unfold needle_points. cbn [filter]. unfold is_cmd. cbn [scmd].
    change (Z.land (Z.lor END (high_flags N s)) 255) with (cmd_of (Z.lor END (high_flags N s))).
    rewrite cmd_lor_high by (try exact (i_high _ _ _ _ _ _ _ _ H); unfold END; lia). reflexivity.
  - destruct (placed N c s a) as [[x y]|] eqn:Ep; [|discriminate]. cbn [bindr] in E.
    pose proof (inv_high _ _ _ _ _ _ s m (scmd a) H) as H0.
    set (s0 := set_high N s (Z.land (scmd a) FLAGS_MASK)) in *.
    assert (Hi0 : hi N s0) by exact (i_high _ _ _ _ _ _ _ _ H0).
    destruct (exec N c seq src pos (a :: rest) a x y _ s0) as [s1|] eqn:E1; [|discriminate].
    cbn [bindr] in E. cbn [until_end] in *.
    change (is_cmd END a) with (cmd_of (scmd a) =? END) in *.
    destruct (Z.eqb_spec (cmd_of (scmd a)) END) as [Ee|Ee].
    + rewrite Ee in E1. change (classify END) with OpEnd in E1. cbn [exec] in E1. injection E1 as <-. injection E as <-.
      assert (Te : threaded (thread_at (order_index N s)) (a :: rest) = []).
      { cbn [threaded]. change (is_cmd END a) with (cmd_of (scmd a) =? END). rewrite Ee. reflexivity. }
      rewrite Te. exists [], []. split; [constructor|]. split; [constructor|]. split; [cbn; lia|].
      split.
      { cbn [threads_taken]. change (is_cmd END a) with (cmd_of (scmd a) =? END). rewrite Ee.
        apply next_order; exact (i_order _ _ _ _ _ _ _ _ H). }
      split; [|split; [constructor|auto]]. unfold end_here, add, add_at. cbn [set_trimmed append out].
      rewrite coloured_app, app_nil_r. rewrite (coloured_none _ [_]); [apply app_nil_r|].
      unfold needle_points. cbn [filter]. unfold is_cmd. cbn [scmd].
      change (Z.land (Z.lor END (high_flags N s0)) 255) with (cmd_of (Z.lor END (high_flags N s0))).
      rewrite cmd_lor_high by (try exact Hi0; unfold END; lia). reflexivity.
    + assert (Hend : is_cmd END a = false) by (rewrite is_cmd_k; apply Z.eqb_neq; exact Ee).
      apply Forall_cons_iff in Hm. destruct Hm as [Hm Hm'].
      destruct (loop_order N c seq base src pos a rest x y s0 s1 m H0 Ho Hp Hend E1) as (m1 & H1 & O1 & St).
      destruct (exec_grow _ _ _ _ _ _ _ _ _ _ _ _ Hi0 Hm E1) as (_ & M1 & K1 & l1 & P1 & S1 & On1).
      destruct (ext_exec false _ _ _ _ _ _ _ _ _ _ _ ltac:(discriminate) ltac:(discriminate) E1) as [_ [d [Ed _]]].
      assert (Hp' : Forall (plain_sewing N) rest) by (apply Forall_inv_tail in Hp; exact Hp).
      destruct (IH _ _ _ _ H1 O1 Hp' Hm' E) as (qs & l & Q & B & Mo & Tk & Pc & Sub & Ex).
      change (order_index N s0) with (order_index N s) in St.
      assert (Pd : needle_points d = l1).
      { rewrite Ed, needle_points_app in P1. apply app_inv_head in P1. exact P1. }
      set (k := List.length (filter (is_cmd COLOR_CHANGE) (out N s0))) in *.
      assert (Pt : coloured 0 (out N s') = coloured 0 (out N s) ++ coloured k d ++ l).
      { rewrite Pc, Ed, coloured_app, <- app_assoc. reflexivity. }
      pose proof (i_order _ _ _ _ _ _ _ _ H) as Or.
      assert (Q' : Forall2 (fun ka kq => fst ka = fst kq /\ placed N c s (snd ka) = Ok (snd kq))
         (threaded (thread_at (order_index N s1)) rest) qs).
      { assert (X : forall b, placed N c s1 b = placed N c s b).
        { intros b. unfold placed. rewrite M1. reflexivity. }
        eapply Forall2_imp; [|exact Q]. intros b q' [Hq1 Hq]. rewrite <- X. auto. }
      assert (Tk' : threads_taken (thread_at (order_index N s)) (a :: rest) = Z.to_nat (order_index N s' + 1)).
      { cbn [threads_taken]. rewrite Hend, take_order, <- St by exact Or. exact Tk. }
      rewrite (threaded_step a rest _ Or Hend), <- St.
      assert (Mono : order_index N s <= order_index N s1).
      { rewrite St. unfold step_order. destruct (sews_any a); [lia|]. destruct (explicit_change a); [lia|]. destruct (_ && _); lia. }
      assert (Step : no_ties N s -> plain_op (classify (cmd_of (scmd a))) = true ->
         no_ties N s1 /\ l1 = if sewing_op (classify (cmd_of (scmd a))) then [(x, y)] else []).
      { intros Nt Hpl. split; [|apply On1; assumption].
        assert (Hst : steady_op (classify (cmd_of (scmd a))) = true).
        { unfold plain_op in Hpl. apply andb_prop in Hpl. apply Hpl. }
        destruct (K1 Hst) as (_ & _ & T1 & T2 & T3). unfold no_ties. rewrite T1, T2, T3. exact Nt. }
      rewrite sews_src_op in Step. destruct (sews_src a) eqn:So; cbn [app].
      * assert (So' : sewing_op (classify (cmd_of (scmd a))) = true) by (rewrite sews_src_op; exact So).
        assert (Same : order_index N s1 = Z.max 0 (order_index N s)).
        { rewrite St. unfold step_order, sews_any. rewrite So. reflexivity. }
        assert (Kk : k = Z.to_nat (order_index N s1)).
        { unfold k. rewrite (count_order _ _ H0). change (order_index N s0) with (order_index N s). rewrite Same. reflexivity. }
        assert (Nc : filter (is_cmd COLOR_CHANGE) d = []).
        { pose proof (count_order _ _ H1) as C1. rewrite Ed, filter_app, app_length in C1. fold k in C1.
          destruct (filter (is_cmd COLOR_CHANGE) d); [reflexivity|]. cbn [List.length] in C1. lia. }
        rewrite (coloured_one _ d k Nc), Pd in Pt.
        exists ((k, (x, y)) :: qs), (map (fun q => (k, q)) l1 ++ l).
        split; [constructor; [split; [symmetry; exact Kk|exact Ep]|exact Q']|].
        split; [constructor; [cbn [fst]; lia|exact B]|]. split; [lia|]. split; [exact Tk'|]. split; [exact Pt|].
        destruct (S1 So') as (a1 & a2 & El). split.
        -- rewrite El, map_app, <- app_assoc. apply subseq_prefix. cbn [map app]. apply sub_take. apply subseq_prefix. exact Sub.
        -- intros Nt Hpl. apply Forall_cons_iff in Hpl. destruct Hpl as [Hpl Hpl'].
           destruct (Step Nt Hpl) as [Nt1 L1]. rewrite L1, (Ex Nt1 Hpl'). reflexivity.
      * exists qs, (coloured k d ++ l). split; [exact Q'|]. split; [exact B|]. split; [lia|]. split; [exact Tk'|]. split; [exact Pt|].
        split; [apply subseq_prefix; exact Sub|].
        intros Nt Hpl. apply Forall_cons_iff in Hpl. destruct Hpl as [Hpl Hpl'].
        destruct (Step Nt Hpl) as [Nt1 L1]. rewrite (coloured_none _ d k); [exact (Ex Nt1 Hpl')|congruence].
Qed.
End Color.

(** ** The threads of a plan without numbers *)
Definition unnumbered (c : Z) : Prop := is_change (cmd_of c) = true -> dec_field c THREAD_MASK 8 = None.
Definition blank (d : draft) : Prop := d_thread d = None /\ d_obj d = None.
(** The keys of [d] are 0 to [n] in order, and no entry has a thread of its own. *)
Fixpoint counted {A} (P : A -> Prop) (i : Z) (d : dict A) : Prop :=
  match d with [] => True | (k, a) :: r => k = i /\ P a /\ counted P (i + 1) r end.
Lemma counted_set : forall A (P : A -> Prop) d i k a, counted P i d -> P a -> i <= k <= i + Z.of_nat (List.length d) ->
  counted P i (dict_set k a d) /\
  List.length (dict_set k a d) = if k =? i + Z.of_nat (List.length d) then S (List.length d) else List.length d.
Proof.
  intros A P. induction d as [|[j b] d IH]; intros i k a H Ha Hk; cbn [dict_set List.length] in *.
  - replace k with i by lia. rewrite Z.add_0_r, Z.eqb_refl. cbn [counted]. auto.
  - destruct H as (-> & Hb & H). destruct (Z.eqb_spec i k) as [->|Hn].
    + cbn [counted List.length]. split; [auto|]. destruct (Z.eqb_spec k (k + Z.of_nat (S (List.length d)))); [lia|reflexivity].
    + destruct (IH (i + 1) k a H Ha ltac:(lia)) as [I1 I2]. cbn [counted List.length]. split; [auto|]. rewrite I2.
      destruct (Z.eqb_spec k (i + 1 + Z.of_nat (List.length d))); destruct (Z.eqb_spec k (i + Z.of_nat (S (List.length d)))); lia.
Qed.
Lemma counted_get : forall A (P : A -> Prop) d i k a, counted P i d -> dict_get k d = Some a ->
  P a /\ i <= k /\ nth_error d (Z.to_nat (k - i)) = Some (k, a).
Proof.
  intros A P. induction d as [|[j b] d IH]; intros i k a H E; cbn [dict_get] in E; [discriminate|].
  destruct H as (-> & Hb & H). destruct (Z.eqb_spec i k) as [->|Hn].
  - injection E as <-. split; [exact Hb|]. split; [lia|]. rewrite Z.sub_diag. reflexivity.
  - destruct (IH (i + 1) k a H E) as (I1 & I2 & I3). split; [exact I1|]. split; [lia|].
    replace (Z.to_nat (k - i)) with (S (Z.to_nat (k - (i + 1)))) by lia. exact I3.
Qed.
Lemma plan_counted : forall threads cs ci la d, Forall unnumbered cs -> Forall (fun c => cmd_of c <> SET_CHANGE_SEQUENCE) cs ->
  counted blank 0 d -> d <> [] -> (ci = Z.of_nat (List.length d) \/ (ci = 0 /\ List.length d = 1%nat)) ->
  counted blank 0 (plan_events threads la d (thread_change_events ci cs)).
Proof.
  intros threads. induction cs as [|c cs IH]; intros ci la d Hu Hs Hd Hne Hl; [exact Hd|].
  apply Forall_cons_iff in Hu. destruct Hu as [Hu Hu']. apply Forall_cons_iff in Hs. destruct Hs as [Hs Hs'].
  rewrite events_cons. cbv zeta. unfold decode_embroidery_command.
  apply Z.eqb_neq in Hs. rewrite Hs.
  assert (L1 : (1 <= List.length d)%nat) by (destruct d; [congruence|cbn; lia]).
  assert (Hb : bump ci (cmd_of c) = Z.of_nat (List.length d) \/ (bump ci (cmd_of c) = 0 /\ List.length d = 1%nat)).
  { unfold bump. destruct ((ci =? 0) && is_sewing (cmd_of c)) eqn:Eb; [|exact Hl]. apply andb_prop in Eb. destruct Eb as [Eb _].
    apply Z.eqb_eq in Eb. left. lia. }
  set (b := bump ci (cmd_of c)) in *.
  destruct (is_change (cmd_of c)) eqn:Ec.
  - cbn [plan_events e_index]. cbv zeta.
    set (cur := match dict_get b d with Some c0 => c0 | None => no_draft end).
    assert (Hcur : blank cur).
    { unfold cur. destruct (dict_get b d) as [x|] eqn:Eg; [|split; reflexivity].
      apply (counted_get _ _ _ _ _ _ Hd Eg). }
    match goal with |- context [fill_draft threads ?e cur] => set (e0 := e) end.
    assert (Hf : blank (fill_draft threads e0 cur)).
    { unfold e0, fill_draft. cbn [e_thread]. rewrite (Hu Ec). destruct Hcur as [B1 B2]. split; assumption. }
    destruct (counted_set _ _ d 0 b _ Hd Hf ltac:(lia)) as [D1 D2].
    apply IH; try assumption.
    + intros X. apply (f_equal (@List.length _)) in X. rewrite D2 in X. cbn [List.length] in X. destruct (b =? _); lia.
    + left. rewrite D2. destruct (Z.eqb_spec b (0 + Z.of_nat (List.length d))); lia.
  - apply IH; assumption.
Qed.
Lemma finish_counted : forall threads tcc lim d t n q k ch, counted blank t d -> finish_plan threads tcc lim t n d = Ok q ->
  dict_get k q = Some ch -> c_thread ch = k /\ c_obj ch = get_thread_or_filler threads k.
Proof.
  intros threads tcc lim. induction d as [|[j b] d IH]; intros t n q k ch H E G; cbn [finish_plan] in E.
  - injection E as <-. discriminate.
  - destruct H as (-> & [B1 B2] & H). rewrite B1, B2 in E.
    destruct (match d_needle b with Some n0 => _ | None => _ end) as [[nd ni]|]; [|discriminate]. cbn [bindr] in E.
    destruct (finish_plan threads tcc lim (t + 1) ni d) as [q'|] eqn:Eq; [|discriminate]. cbn [bindr] in E. injection E as <-.
    cbn [dict_get] in G. destruct (Z.eqb_spec t k) as [->|Hn].
    + injection G as <-. split; reflexivity.
    + eapply IH; eassumption.
Qed.
Lemma plan_plain : forall tcc nc threads cs seq k ch, Forall unnumbered cs ->
  Forall (fun c => cmd_of c <> SET_CHANGE_SEQUENCE) cs ->
  build_thread_change_sequence tcc nc threads cs = Ok seq -> dict_get k seq = Some ch ->
  c_thread ch = k /\ c_obj ch = get_thread_or_filler threads k.
Proof.
  intros tcc nc threads cs seq k ch Hu Hs E G. unfold build_thread_change_sequence in E.
  eapply finish_counted; [|exact E|exact G]. apply plan_counted; auto.
  - cbn. auto. repeat split; reflexivity.
  - discriminate.
Qed.

(** ** No stops *)
Lemma classify_quiet : forall k, k <> STOP -> k <> FRAME_EJECT -> classify k <> OpStop /\ classify k <> OpFrameEject.
Proof.
  intros k H1 H2. unfold classify. apply Z.eqb_neq in H1, H2. rewrite H1, H2.
  repeat match goal with |- context [if ?p =? ?q then _ else _] => destruct (p =? q); [split; discriminate|] end. split; discriminate.
Qed.
Section WholeColor.
Context (N : Num).
Notation F := (F N).
Lemma main_loop_quiet : forall c seq src rest pos s s', thread_change_command c = COLOR_CHANGE -> hi N s ->
  Forall (fun a => cmd_of (scmd a) <> STOP) (out N s) ->
  Forall (fun a => is_cmd STOP a = false /\ is_cmd FRAME_EJECT a = false) rest ->
  main_loop N c seq src pos rest s = Ok s' -> Forall (fun a => cmd_of (scmd a) <> STOP) (out N s').
Proof.
  intros c seq src rest pos s s' Hc. revert pos s s'. induction rest as [|a rest IH]; intros pos s s' Hi Ho Hr E; cbn [main_loop] in E.
  - injection E as <-. unfold end_here, add, add_at. cbn [set_trimmed append out]. apply Forall_app. split; [exact Ho|].
    constructor; [|constructor]. cbn [scmd]. rewrite cmd_lor_high by (try exact Hi; unfold END; lia). discriminate.
  - destruct (placed N c s a) as [[x y]|]; [|discriminate]. cbn [bindr] in E.
    apply Forall_cons_iff in Hr. destruct Hr as [[R1 R2] Hr].
    set (s0 := set_high N s (Z.land (scmd a) FLAGS_MASK)) in *.
    assert (Hi0 : hi N s0).
    { unfold hi, s0. cbn [set_high high_flags]. rewrite <- Z.land_assoc, Z.land_diag. reflexivity. }
    destruct (exec N c seq src pos (a :: rest) a x y _ s0) as [s1|] eqn:E1; [|discriminate]. cbn [bindr] in E.
    destruct (ext_exec N true _ _ _ _ _ _ _ _ _ _ _ (fun _ => Hc)
      (fun _ => classify_quiet _ (proj1 (Z.eqb_neq _ _) R1) (proj1 (Z.eqb_neq _ _) R2)) E1) as [Hh [d [Ed D]]].
    assert (O1 : Forall (fun a => cmd_of (scmd a) <> STOP) (out N s1)).
    { rewrite Ed. apply Forall_app. split; [exact Ho|]. apply D; [reflexivity|exact Hi0]. }
    destruct (cmd_of (scmd a) =? END); [injection E as <-; exact O1|]. eapply IH; [|exact O1|exact Hr|exact E].
    unfold hi in *. rewrite Hh. exact Hi0.
Qed.
Lemma transcode_quiet : forall set p o ths, transcode N set p = Ok (o, ths) ->
  thread_change_command (init_config N set) = COLOR_CHANGE ->
  Forall (fun a => is_cmd STOP a = false /\ is_cmd FRAME_EJECT a = false) (p_stitches N p) ->
  Forall (fun a => cmd_of (scmd a) <> STOP) o.
Proof.
  intros set p o ths E Hk Hq. rewrite transcode_unfold in E.
  destruct (build_thread_change_sequence _ _ _ _) as [seq|]; [|discriminate]. cbn [bindr] in E.
  destruct (main_loop _ _ _ _ _ _ _) as [s|] eqn:Em; [|discriminate]. cbn [bindr] in E. injection E as <- <-.
  eapply main_loop_quiet; [exact Hk| | |exact Hq|exact Em]; unfold start; destruct (_ =? _); first [reflexivity|constructor].
Qed.
Lemma transcode_colours : forall set p o ths, transcode N set p = Ok (o, ths) ->
  thread_change_command (init_config N set) = COLOR_CHANGE ->
  Forall (plain_sewing N) (p_stitches N p) ->
  Forall (fun a => matrix_op (classify (cmd_of (scmd a))) = false) (until_end (p_stitches N p)) ->
  Forall (fun a => is_cmd SET_CHANGE_SEQUENCE a = false) (p_stitches N p) ->
  Forall (fun a => changes_thread a = true -> thread_number a = None) (p_stitches N p) ->
  exists qs,
    Forall2 (fun ka kq => fst ka = fst kq /\ placed N (init_config N set) (start N set (p_threads N p)) (snd ka) = Ok (snd kq))
      (threaded None (p_stitches N p)) qs /\
    subseq qs (coloured 0 o) /\
    (no_ties N (init_state N set) -> Forall (fun a => plain_op (classify (cmd_of (scmd a))) = true) (until_end (p_stitches N p)) -> coloured 0 o = qs) /\
    Forall (fun ka => (fst ka < List.length ths)%nat) (threaded None (p_stitches N p)) /\
    List.length ths = threads_taken None (p_stitches N p) /\
    List.length (filter (is_cmd COLOR_CHANGE) o) = pred (List.length ths) /\
    forall k t, nth_error ths k = Some t -> t = get_thread_or_filler (p_threads N p) (Z.of_nat k).
Proof.
  intros set p o ths E Hk Hp Hm Hs Hn. rewrite transcode_unfold in E.
  destruct (build_thread_change_sequence _ _ _ _) as [seq|] eqn:Eb; [|discriminate]. cbn [bindr] in E.
  destruct (main_loop _ _ _ _ _ _ _) as [s|] eqn:Em; [|discriminate]. cbn [bindr] in E. injection E as <- <-.
  set (s0 := start N set (p_threads N p)) in *.
  assert (Hi : Inv N (init_config N set) seq (start_threads N set (p_threads N p)) true true s0 mon0)
    by (apply start_inv; auto).
  assert (Os : order_index N s0 = -1 /\ out N s0 = [] /\ (no_ties N (init_state N set) -> no_ties N s0)).
  { unfold s0, start. destruct (_ =? _); (split; [reflexivity|]; split; [reflexivity|auto]). }
  destruct Os as (Os & Oo & Ont).
  destruct (main_loop_colours N _ _ _ Hk _ _ _ _ _ _ Hi (start_open _ _ _) Hp Hm Em) as (qs & l & Q & B & _ & Tk & P & Sub & Ex).
  rewrite Os in Q, B, Tk. rewrite Oo in P. cbn [coloured app] in P. change (thread_at (-1)) with (@None nat) in *.
  destruct (main_loop_inv _ _ _ _ _ _ _ _ _ _ _ _ Hi (start_open _ _ _) (source_any _ _) Em)
    as (body & e & s1 & m1 & A1 & A2 & D & O & T & R).
  destruct (i_plan _ _ _ _ _ _ _ _ D) as (chs & L & G & P1 & _). destruct (P1 Hk) as [T1 _].
  assert (Or : order_index N s1 = order_index N s).
  { symmetry. exact R. }
  assert (Bs : start_threads N set (p_threads N p) = []).
  { unfold start_threads. rewrite Hk. reflexivity. }
  rewrite Bs in T1. cbn [app] in T1. rewrite T, T1.
  exists qs. split; [exact Q|]. split; [rewrite P; exact Sub|]. split; [intros X Y; rewrite P; auto|]. split.
  - eapply Forall_impl; [|exact B]. intros ka Hka. cbv beta in Hka. rewrite map_length. lia.
  - split; [rewrite map_length, Tk; lia|]. split.
    { rewrite map_length, A1, filter_app, app_length. cbn [filter]. unfold is_cmd at 2.
      change (Z.land (scmd e) 255) with (cmd_of (scmd e)). rewrite A2. change (END =? COLOR_CHANGE) with false. cbn [List.length].
      rewrite <- O, (count_order N _ _ _ Hk _ _ D). lia. }
    intros k t Hkt. rewrite nth_error_map in Hkt. destruct (nth_error chs k) as [ch|] eqn:Ek; [|discriminate]. injection Hkt as <-.
    specialize (G k ch Ek). eapply plan_plain; [| |exact Eb|exact G].
    + apply Forall_map. eapply Forall_impl; [|exact Hn]. intros a Ha Hc. rewrite change_flags in Hc.
      rewrite thread_number_dec. exact (Ha Hc).
    + apply Forall_map. eapply Forall_impl; [|exact Hs]. intros a Ha. apply Z.eqb_neq. exact Ha.
Qed.
End WholeColor.
