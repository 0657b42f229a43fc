(** C229: everything the machine is asked to do besides moving is in the encoded pattern, in order. *)
From Coq Require Import ZArith QArith List Bool Lia.
From Verif Require Import PyBase EmbConst FunctionsModel ThreadModel NumModel NumQ MatrixModel EncoderModel
  EncoderProofs EncoderSpec EncoderFlowProofs EncoderSewProofs PropertiesEncoder.
Import ListNotations.
Open Scope Z_scope.

(** * Specification *)
Definition work_commands : list Z := [STITCH; TRIM; COLOR_CHANGE; NEEDLE_SET; STOP; SLOW; FAST].
Definition is_work (k : Z) : bool := existsb (Z.eqb k) work_commands.
(** What the machine does, except for moving, as a list of commands. *)
Definition work {C} (l : list (stitch C)) : list Z := filter is_work (map (fun a => Z.land (scmd a) 255) l).
Definition when (b : bool) (k : Z) : list Z := if b then [k] else [].
(** What a design asks for.  [begun]: something was sewn or a thread was chosen before; [sewn]: the thread
    hangs on something sewn; [explicit]: threads are cut before they are changed.  A break changes the thread
    only if something was begun before and ([later]) something is sewn after it.  Threads are changed with [by];
    the first thread is there from the start if that is a colour change, and is chosen with [by] otherwise. *)
Record asking := mkAsk { explicit : bool; begun : bool; sewn : bool }.
Definition first_change (by_ : Z) (w : asking) : list Z := when (negb (begun w) && negb (by_ =? COLOR_CHANGE)) by_.
Definition asked (by_ : Z) (speeds later : bool) (w : asking) (k : Z) : list Z * asking :=
  let loose := mkAsk (explicit w) (begun w) false in
  if (k =? STITCH) || (k =? NEEDLE_AT) then (first_change by_ w ++ [STITCH], mkAsk (explicit w) true true)
  else if (k =? TRIM) || (k =? SEQUENCE_BREAK) then (when (sewn w) TRIM, loose)
  else if (k =? COLOR_CHANGE) || (k =? NEEDLE_SET) then
    (when (sewn w && explicit w) TRIM ++ when (begun w) by_ ++ first_change by_ w, mkAsk (explicit w) true false)
  else if k =? COLOR_BREAK then
    if begun w then
      (when (sewn w && explicit w) TRIM ++ when later by_, mkAsk (explicit w) true (sewn w && negb (explicit w) && negb later))
    else ([], w)
  else if k =? STOP then ([STOP], loose)
  else if k =? FRAME_EJECT then (when (sewn w) TRIM ++ [STOP], loose)
  else if (k =? SLOW) || (k =? FAST) then (when speeds k, w)
  else if k =? OPTION_EXPLICIT_TRIM then ([], mkAsk true (begun w) (sewn w))
  else if k =? OPTION_IMPLICIT_TRIM then ([], mkAsk false (begun w) (sewn w))
  else ([], w).
Fixpoint all_asked {C} (by_ : Z) (speeds : bool) (w : asking) (l : list (stitch C)) : list Z :=
  match l with
  | [] => []
  | a :: r => let '(o, w) := asked by_ speeds (existsb (fun b => sews_src b) r) w (Z.land (scmd a) 255) in o ++ all_asked by_ speeds w r
  end.
(** The commands left out here: those with stitches of their own, and sequins. *)
Definition left_out : list Z := stitching_commands ++ [SEQUIN_MODE].
(** Whether something is sewn later is seen only if the commands that sew or end carry no numbers. *)
Definition unnumbered {C} (a : stitch C) : Prop := has_command [STITCH; NEEDLE_AT; END] a = true -> scmd a = Z.land (scmd a) 255.
Definition breaks_clear {C} (l : list (stitch C)) : Prop :=
  Forall unnumbered l \/ Forall (fun a => is_cmd COLOR_BREAK a = false) (until_end l).

(** * Proofs *)
Lemma work_app C (a b : list (stitch C)) : work (a ++ b) = work a ++ work b.
Proof. unfold work. rewrite map_app, filter_app. reflexivity. Qed.
Lemma work_one C (x y : C) k h : 0 <= k < 256 -> Z.land h FLAGS_MASK = h -> work [mkS x y (Z.lor k h)] = when (is_work k) k.
Proof.
  intros K H. unfold work. cbn [map scmd filter]. change (Z.land (Z.lor k h) 255) with (cmd_of (Z.lor k h)). rewrite (cmd_lor_high k h K H). reflexivity.
Qed.

Section Work.
Context (N : Num) (by_ : Z) (Hby : by_ = COLOR_CHANGE \/ by_ = NEEDLE_SET \/ by_ = STOP).
Notation F := (F N).
Notation st := (st N).
Implicit Types s : st.

Definition frame s := (high_flags N s, trimmed N s, order_index N s, sequin_mode N s, explicit_trim N s).
Definition ties s := (tie_on_contingency N s, tie_off_contingency N s, long_stitch_contingency N s).
(** [s'] has [l] to do in addition and is otherwise the same. *)
Definition does s s' (l : list Z) : Prop := work (out N s') = work (out N s) ++ l /\ frame s' = frame s /\ ties s' = ties s.
Lemma does_refl s : does s s [].
Proof. split; [rewrite app_nil_r; reflexivity|split; reflexivity]. Qed.
Lemma does_trans s1 s2 s3 l1 l2 : does s1 s2 l1 -> does s2 s3 l2 -> does s1 s3 (l1 ++ l2).
Proof. intros (A & B & C) (D & E & G). unfold does. rewrite D, A, E, G, B, C, app_assoc. auto. Qed.
Lemma does_hi s s' l : does s s' l -> hi N s -> hi N s'.
Proof. unfold does, frame, hi. intros (_ & E & _). injection E as -> _ _ _ _. auto. Qed.
Lemma does_add s k x y : hi N s -> 0 <= k < 256 -> does s (add_at N s k x y) (when (is_work k) k).
Proof. intros H K. split; [|split; reflexivity]. attrs. rewrite work_app, work_one by assumption. reflexivity. Qed.
Lemma does_needle s x y : does s (update_needle_position N s x y) [].
Proof. split; [rewrite app_nil_r; reflexivity|split; reflexivity]. Qed.
Lemma does_loop n : forall qx qy ax ay h s, Z.land h FLAGS_MASK = h -> does s (gap_loop N n qx qy ax ay (Z.lor JUMP h) s) [].
Proof.
  induction n as [|n IH]; intros qx qy ax ay h s H; cbn [gap_loop]; [apply does_refl|].
  eapply (does_trans _ _ _ [] []); [|apply IH, H]. split; [|split; reflexivity]. attrs. rewrite work_app, work_one by (try exact H; unfold JUMP; lia). reflexivity.
Qed.
Lemma does_jumps s s' x0 y0 x1 y1 lim : hi N s -> sequin_mode N s = false -> interpolate_gap_stitches N s x0 y0 x1 y1 lim JUMP = Ok s' -> does s s' [].
Proof.
  intros H M E. unfold interpolate_gap_stitches in E. cbv zeta in E. rewrite M, andb_false_r in E.
  destruct lim as [lim|]; [|injection E as <-; apply does_refl].
  destruct (exceeds _ _ _ || exceeds _ _ _); [|injection E as <-; apply does_refl].
  destruct (fdiv N _ lim) as [rx|]; [|discriminate]. cbn [bindr] in E.
  destruct (fceil N _) as [nx'|]; [|discriminate]. cbn [bindr] in E.
  destruct (fdiv N _ lim) as [ry|]; [|discriminate]. cbn [bindr] in E.
  destruct (fceil N _) as [ny'|]; [|discriminate]. cbn [bindr] in E.
  destruct (fdivz N _ _) as [ax|]; [|discriminate]. cbn [bindr] in E.
  destruct (fdivz N _ _) as [ay|]; [|discriminate]. cbn [bindr] in E. injection E as <-. apply does_loop, H.
Qed.
Lemma does_stitch_at s x y : hi N s -> does s (stitch_at N s x y) [STITCH].
Proof. intros H. unfold stitch_at. eapply (does_trans _ _ _ [STITCH] []); [|apply does_needle]. apply (does_add s STITCH x y H). unfold STITCH. lia. Qed.
Lemma does_jump_at s x y : hi N s -> sequin_mode N s = false -> does s (jump_at N s x y) [].
Proof.
  intros H M. unfold jump_at. rewrite M. eapply (does_trans _ _ _ [] []); [|apply does_needle].
  apply (does_add s JUMP x y H). unfold JUMP. lia.
Qed.
Lemma does_mode s s' l : does s s' l -> sequin_mode N s' = sequin_mode N s.
Proof. unfold does, frame. intros (_ & E & _). injection E as _ _ _ -> _. reflexivity. Qed.
Lemma does_jump_to s s' x y : hi N s -> sequin_mode N s = false -> jump_to N s x y = Ok s' -> does s s' [].
Proof.
  intros H M E. unfold jump_to in E. destruct (interpolate_gap_stitches N _ _ _ _ _ _ _) as [s1|] eqn:E1; [|discriminate]. cbn [bindr] in E. injection E as <-.
  pose proof (does_jumps _ _ _ _ _ _ _ H M E1) as D. eapply (does_trans _ _ _ [] [] D). apply does_jump_at; [exact (does_hi _ _ _ D H)|rewrite (does_mode _ _ _ D); exact M].
Qed.
Lemma does_needle_to s s' x y : hi N s -> sequin_mode N s = false -> needle_to N s x y = Ok s' -> does s s' [STITCH].
Proof.
  intros H M E. unfold needle_to in E. destruct (interpolate_gap_stitches N _ _ _ _ _ _ _) as [s1|] eqn:E1; [|discriminate]. cbn [bindr] in E. injection E as <-.
  pose proof (does_jumps _ _ _ _ _ _ _ H M E1) as D. eapply (does_trans _ _ _ [] [STITCH] D). apply does_stitch_at; exact (does_hi _ _ _ D H).
Qed.
Lemma does_within c s s' x y : hi N s -> sequin_mode N s = false -> jump_to_within_stitchrange N c s x y = Ok s' -> does s s' [].
Proof.
  intros H M E. unfold jump_to_within_stitchrange in E. destruct (interpolate_gap_stitches N _ _ _ _ _ _ _) as [s1|] eqn:E1; [|discriminate]. cbn [bindr] in E.
  pose proof (does_jumps _ _ _ _ _ _ _ H M E1) as D.
  assert (J : does s1 (jump_at N s1 x y) []) by (apply does_jump_at; [exact (does_hi _ _ _ D H)|rewrite (does_mode _ _ _ D); exact M]).
  destruct (full_jump c); [destruct (_ || _)|]; injection E as <-; [exact (does_trans _ _ _ [] [] D J)|exact D|exact D].
Qed.

(** ** The state and what is asked for *)
Definition plain_state s : Prop := hi N s /\ sequin_mode N s = false /\ no_ties N s.
Definition of_state s : asking := mkAsk (explicit_trim N s) (0 <=? order_index N s) (negb (trimmed N s)).
Definition ordered s : Prop := -1 <= order_index N s.
(** After doing [l], [w] holds. *)
Definition step s s' (l : list Z) (w : asking) : Prop :=
  work (out N s') = work (out N s) ++ l /\ of_state s' = w /\ plain_state s' /\ ordered s'.
Lemma no_tie_on src pos s : no_ties N s -> tie_on N src pos s = s.
Proof. intros (A & _ & _). unfold tie_on. apply Z.eqb_neq in A. rewrite A. reflexivity. Qed.
Lemma no_tie_off src pos s : no_ties N s -> tie_off N src pos s = s.
Proof. intros (_ & A & _). unfold tie_off. apply Z.eqb_neq in A. rewrite A. reflexivity. Qed.
Lemma does_ties s s' l : does s s' l -> no_ties N s -> no_ties N s'.
Proof. unfold does, ties, no_ties. intros (_ & _ & E). injection E as -> -> ->. auto. Qed.
Lemma does_plain s s' l : does s s' l -> plain_state s -> plain_state s'.
Proof. intros D (A & B & C). split; [exact (does_hi _ _ _ D A)|]. split; [rewrite (does_mode _ _ _ D); exact B|exact (does_ties _ _ _ D C)]. Qed.
Lemma does_step s s' l : does s s' l -> plain_state s -> ordered s -> step s s' l (of_state s).
Proof.
  intros D P O. split; [apply D|]. split; [|split; [exact (does_plain _ _ _ D P)|]].
  - destruct D as (_ & E & _). unfold frame in E. injection E as _ A B _ C. unfold of_state. rewrite A, B, C. reflexivity.
  - destruct D as (_ & E & _). unfold frame in E. injection E as _ A B _ C. unfold ordered in *. rewrite B. exact O.
Qed.
Lemma trim_step s : plain_state s -> ordered s -> step s (trim_here N s) [TRIM] (mkAsk (explicit_trim N s) (0 <=? order_index N s) false).
Proof.
  intros P O. destruct P as (H & M & T). unfold trim_here. rewrite M.
  destruct (does_add s TRIM (nx N s) (ny N s) H) as (W & _ & _); [unfold TRIM; lia|].
  split; [exact W|]. split; [reflexivity|]. split; [split; [exact H|split; [exact M|exact T]]|exact O].
Qed.
Lemma stop_step s : plain_state s -> ordered s -> step s (stop_here N s) [STOP] (mkAsk (explicit_trim N s) (0 <=? order_index N s) false).
Proof.
  intros P O. destruct P as (H & M & T). unfold stop_here.
  destruct (does_add s STOP (nx N s) (ny N s) H) as (W & _ & _); [unfold STOP; lia|].
  split; [exact W|]. split; [reflexivity|]. split; [split; [exact H|split; [exact M|exact T]]|exact O].
Qed.
Lemma step_trans s s1 s2 l1 l2 w1 w2 : step s s1 l1 w1 -> step s1 s2 l2 w2 -> step s s2 (l1 ++ l2) w2.
Proof. intros (A & _) (B & C). split; [rewrite B, A, app_assoc; reflexivity|exact C]. Qed.
Lemma needed_step src pos s : plain_state s -> ordered s ->
  step s (tie_off_and_trim_if_needed N src pos s) (when (negb (trimmed N s)) TRIM) (mkAsk (explicit_trim N s) (0 <=? order_index N s) false).
Proof.
  intros P O. unfold tie_off_and_trim_if_needed. rewrite no_tie_off by apply P. destruct (trimmed N s) eqn:E; cbn [negb when]; [|apply trim_step; assumption].
  split; [rewrite app_nil_r; reflexivity|]. split; [unfold of_state; rewrite E; reflexivity|]. split; assumption.
Qed.
Lemma next_work c seq s s' : thread_change_command c = by_ -> next_change_sequence N c seq s = Ok s' -> ordered s ->
  work (out N s') = work (out N s) ++ when (0 <=? order_index N s) by_ ++ first_change by_ (of_state s) /\ order_index N s' = order_index N s + 1 /\ trimmed N s' = true /\
  explicit_trim N s' = explicit_trim N s /\ high_flags N s' = high_flags N s /\ sequin_mode N s' = sequin_mode N s /\ ties s' = ties s.
Proof.
  intros K E O. unfold next_change_sequence in E. cbv zeta in E. destruct (dict_get _ _) as [ch|]; [|discriminate]. rewrite K in E.
  unfold first_change. change (begun (of_state s)) with (0 <=? order_index N s).
  assert (One : forall (x y : F) k t n, In k [COLOR_CHANGE; NEEDLE_SET; STOP] -> work [mkS x y (encode_thread_change k t n None)] = [k]).
  { intros x y k t n Hk. unfold work. cbn [map scmd filter]. change (Z.land ?a 255) with (cmd_of a). cbn [In] in Hk.
    destruct Hk as [<- | [<- | [<- | []]]]; rewrite cmd_thread_change by (unfold COLOR_CHANGE, NEEDLE_SET, STOP; lia); reflexivity. }
  destruct Hby as [B0 | [B0 | B0]]; rewrite B0 in E |- *.
  - change (COLOR_CHANGE =? COLOR_CHANGE) with true in E |- *. cbv iota in E. injection E as <-. unfold ordered in O.
    change (order_index N (add_thread N (set_order N s (order_index N s + 1)) (c_obj ch))) with (order_index N s + 1).
    rewrite andb_false_r. cbn [when]. rewrite app_nil_r.
    destruct (Z.eqb_spec (order_index N s + 1) 0) as [Z0|Z0]; cbn [negb].
    + assert (B : (0 <=? order_index N s) = false) by (apply Z.leb_gt; lia). rewrite B. cbn [when]. rewrite app_nil_r. repeat split.
    + assert (B : (0 <=? order_index N s) = true) by (apply Z.leb_le; lia). rewrite B. split; [|repeat split].
      attrs. rewrite work_app. f_equal. apply One. cbn; tauto.
  - change (NEEDLE_SET =? COLOR_CHANGE) with false in *. change (NEEDLE_SET =? NEEDLE_SET) with true in E. cbv iota in E. injection E as <-.
    split; [|repeat split]. attrs. rewrite work_app, One by (cbn; tauto). f_equal. destruct (0 <=? order_index N s); reflexivity.
  - change (STOP =? COLOR_CHANGE) with false in *. change (STOP =? NEEDLE_SET) with false in E. change (STOP =? STOP) with true in E. cbv iota in E. injection E as <-.
    split; [|repeat split]. attrs. rewrite work_app, One by (cbn; tauto). f_equal. destruct (0 <=? order_index N s); reflexivity.
Qed.
Lemma begun_next o : -1 <= o -> (0 <=? o + 1) = true.
Proof. intros H. apply Z.leb_le. lia. Qed.
Lemma open_step c seq src pos x y s s' : thread_change_command c = by_ -> plain_state s -> ordered s ->
  open_section N c seq src pos x y s = Ok s' -> step s s' (first_change by_ (of_state s) ++ [STITCH]) (mkAsk (explicit_trim N s) true true).
Proof.
  intros K P O E. unfold open_section in E. destruct (declare_not_trimmed N c seq s) as [s1|] eqn:E1; [|discriminate]. cbn [bindr] in E.
  assert (S1 : work (out N s1) = work (out N s) ++ first_change by_ (of_state s) /\ plain_state s1 /\ 0 <= order_index N s1 /\ trimmed N s1 = false /\ explicit_trim N s1 = explicit_trim N s).
  { unfold declare_not_trimmed in E1. destruct (Z.eqb_spec (order_index N s) (-1)) as [B|B].
    - destruct (next_change_sequence N c seq s) as [s0|] eqn:E0; [|discriminate]. cbn [bindr] in E1. injection E1 as <-.
      destruct (next_work _ _ _ _ K E0 O) as (W & R & _ & X & Hh & M & T). rewrite B in W, R. cbn [Z.leb when app] in W.
      split; [exact W|]. split; [|repeat split; [attrs; lia|exact X]].
      destruct P as (P1 & P2 & P3). unfold plain_state, hi, no_ties in *. unfold ties in T. injection T as T1 T2 T3. attrs. rewrite Hh, M, T1, T2, T3. auto.
    - cbn [bindr] in E1. injection E1 as <-. unfold ordered in O. split; [|split; [exact P|repeat split; attrs; lia]].
      unfold first_change. change (begun (of_state s)) with (0 <=? order_index N s). rewrite (proj2 (Z.leb_le 0 (order_index N s))) by lia. cbn [negb andb when]. rewrite app_nil_r. reflexivity. }
  destruct S1 as (W & P1 & O1 & T1 & X1). destruct (jump_to_within_stitchrange N c s1 x y) as [s2|] eqn:E2; [|discriminate]. cbn [bindr] in E. injection E as <-.
  pose proof (does_within _ _ _ _ _ (proj1 P1) (proj1 (proj2 P1)) E2) as D. pose proof (does_stitch_at s2 x y (does_hi _ _ _ D (proj1 P1))) as D2.
  pose proof (does_trans _ _ _ [] [STITCH] D D2) as D3. assert (P3 := does_plain _ _ _ D3 P1). rewrite no_tie_on by apply P3.
  destruct (does_step _ _ _ D3 P1 ltac:(unfold ordered; lia)) as (A & B & C & G). split; [rewrite A, W; cbn [app]; rewrite <- app_assoc; reflexivity|]. split; [|split; assumption].
  rewrite B. unfold of_state. rewrite X1, T1, (proj2 (Z.leb_le _ _) O1). reflexivity.
Qed.
Lemma close_step src pos s : plain_state s -> ordered s -> exists w,
  step s (close_section N src pos s) (when (negb (trimmed N s) && explicit_trim N s) TRIM) w /\ explicit w = explicit_trim N s /\ begun w = (0 <=? order_index N s) /\
  order_index N (close_section N src pos s) = order_index N s /\ sewn w = negb (trimmed N s) && negb (explicit_trim N s).
Proof.
  intros P O. unfold close_section. destruct (trimmed N s) eqn:T; cbn [negb andb when].
  - exists (of_state s). split; [split; [rewrite app_nil_r; reflexivity|auto]|]. repeat split. unfold of_state. cbn [sewn]. rewrite T. reflexivity.
  - rewrite no_tie_off by apply P. destruct (explicit_trim N s) eqn:X; cbn [when].
    + eexists. split; [apply trim_step; assumption|]. rewrite X. repeat split. unfold trim_here. rewrite (proj1 (proj2 P)). reflexivity.
    + exists (of_state s). split; [split; [rewrite app_nil_r; reflexivity|auto]|]. repeat split; [exact X|]. unfold of_state. cbn [sewn]. rewrite T. reflexivity.
Qed.
Lemma change_step c seq src pos s s' : thread_change_command c = by_ -> plain_state s -> ordered s ->
  tie_off_trim_color_change N c seq src pos s = Ok s' ->
  step s s' (when (negb (trimmed N s) && explicit_trim N s) TRIM ++ when (0 <=? order_index N s) by_ ++ first_change by_ (of_state s)) (mkAsk (explicit_trim N s) true false).
Proof.
  intros K P O E. unfold tie_off_trim_color_change in E. destruct (close_step src pos s P O) as (w & (W & S1 & P1 & O1) & X1 & B1 & Ix & _).
  destruct (next_change_sequence N c seq _) as [s2|] eqn:E2; [|discriminate]. cbn [bindr] in E. injection E as <-.
  destruct (next_work _ _ _ _ K E2 O1) as (W2 & R & _ & X & Hh & M & T). rewrite Ix in W2, R.
  assert (Fc : first_change by_ (of_state (close_section N src pos s)) = first_change by_ (of_state s)) by (unfold first_change, of_state; cbn [begun]; rewrite Ix; reflexivity). rewrite Fc in W2.
  split; [attrs; rewrite W2, W, <- !app_assoc; reflexivity|]. split; [|split].
  - unfold of_state. attrs. rewrite R, X, begun_next by exact O. unfold of_state in S1. rewrite <- S1 in X1. cbn [explicit] in X1. rewrite X1. reflexivity.
  - destruct P1 as (P1 & P2 & P3). unfold plain_state, hi, no_ties in *. unfold ties in T. injection T as T1 T2 T3. attrs. rewrite Hh, M, T1, T2, T3. auto.
  - unfold ordered in *. attrs. lia.
Qed.

Lemma break_step c seq src pos rest s s' : thread_change_command c = by_ -> plain_state s -> ordered s ->
  color_break N c seq src pos rest s = Ok s' ->
  let later := lookahead_stitch N rest in
  if 0 <=? order_index N s then
    step s s' (when (negb (trimmed N s) && explicit_trim N s) TRIM ++ when later by_)
      (mkAsk (explicit_trim N s) true (negb (trimmed N s) && negb (explicit_trim N s) && negb later))
  else s' = s.
Proof.
  intros K P O E. cbv zeta. unfold color_break in E. rewrite Z.ltb_antisym in E. destruct (0 <=? order_index N s) eqn:Bg; cbn [negb] in E; [|injection E as <-; reflexivity].
  cbv zeta in E. destruct (lookahead_stitch N rest); cbn [negb when] in *.
  - pose proof (change_step c seq src pos s s' K P O E) as S1. rewrite Bg in S1. unfold first_change in S1. change (begun (of_state s)) with (0 <=? order_index N s) in S1. rewrite Bg in S1. cbn [negb andb when] in S1. rewrite app_nil_r in S1. rewrite andb_false_r. exact S1.
  - injection E as <-. destruct (close_step src pos s P O) as (w & S1 & X1 & B1 & _ & Sw). rewrite app_nil_r, andb_true_r.
    destruct w as [e b n]. cbn [explicit begun sewn] in X1, B1, Sw. rewrite X1, B1, Bg, Sw in S1. exact S1.
Qed.

Definition allowed (k : Z) : bool := negb (existsb (Z.eqb k) left_out).
Lemma sew_step c seq src pos x y s s' f : thread_change_command c = by_ -> plain_state s -> ordered s ->
  (forall s', f s = Ok s' -> does s s' [STITCH]) ->
  (if trimmed N s then open_section N c seq src pos x y s
   else if jumping N s then do s <- needle_to N s x y; Ok (set_jumping N s false)
   else f s) = Ok s' ->
  (trimmed N s = false -> 0 <= order_index N s) -> step s s' (first_change by_ (of_state s) ++ [STITCH]) (mkAsk (explicit_trim N s) true true).
Proof.
  intros K P O Hf E B. destruct (trimmed N s) eqn:T; [exact (open_step _ _ _ _ _ _ _ _ K P O E)|].
  assert (Fc : first_change by_ (of_state s) = []).
  { unfold first_change. change (begun (of_state s)) with (0 <=? order_index N s). rewrite (proj2 (Z.leb_le _ _) (B eq_refl)). reflexivity. }
  rewrite Fc. cbn [app].
  assert (G : forall s1, does s s1 [STITCH] -> step s s1 [STITCH] (mkAsk (explicit_trim N s) true true)).
  { intros s1 D. destruct (does_step _ _ _ D P O) as (A & W & Q & R). split; [exact A|]. split; [|split; assumption].
    rewrite W. unfold of_state. rewrite T, (proj2 (Z.leb_le _ _) (B eq_refl)). reflexivity. }
  destruct (jumping N s).
  - destruct (needle_to N s x y) as [s1|] eqn:E1; [|discriminate]. cbn [bindr] in E. injection E as <-.
    exact (G _ (does_needle_to _ _ _ _ (proj1 P) (proj1 (proj2 P)) E1)).
  - exact (G _ (Hf _ E)).
Qed.

(** [asked], by the branch of the encoder. *)
Definition asked_op (speeds later : bool) (w : asking) (o : op) : list Z * asking :=
  let loose := mkAsk (explicit w) (begun w) false in
  match o with
  | OpStitch | OpNeedleAt => (first_change by_ w ++ [STITCH], mkAsk (explicit w) true true)
  | OpTrim | OpSequenceBreak => (when (sewn w) TRIM, loose)
  | OpThreadChange => (when (sewn w && explicit w) TRIM ++ when (begun w) by_ ++ first_change by_ w, mkAsk (explicit w) true false)
  | OpColorBreak =>
      if begun w then
        (when (sewn w && explicit w) TRIM ++ when later by_, mkAsk (explicit w) true (sewn w && negb (explicit w) && negb later))
      else ([], w)
  | OpStop => ([STOP], loose)
  | OpFrameEject => (when (sewn w) TRIM ++ [STOP], loose)
  | OpSlow => (when speeds SLOW, w)
  | OpFast => (when speeds FAST, w)
  | OpExplicit b => ([], mkAsk b (begun w) (sewn w))
  | _ => ([], w)
  end.
Definition allowed_op (o : op) : bool :=
  match o with
  | OpSewTo | OpTieOff | OpTieOn | OpSequinMode | OpSequinEject | OpSetTieOn _ | OpSetTieOff _ | OpLongStitch _ | OpEnd => false
  | _ => true
  end.
Lemma by_branch speeds later w k : allowed k = true -> k <> END -> asked by_ speeds later w k = asked_op speeds later w (classify k) /\ allowed_op (classify k) = true.
Proof.
  intros A E. unfold classify.
  repeat match goal with
  | |- context [if k =? ?c then _ else _] => destruct (Z.eqb_spec k c) as [-> | ?]; [first [split; reflexivity | discriminate A | congruence]|]
  end.
  split; [|reflexivity]. unfold asked.
  repeat match goal with |- context [k =? ?c] => rewrite (proj2 (Z.eqb_neq k c)) by assumption end. reflexivity.
Qed.
Definition sane (w : asking) : Prop := sewn w = true -> begun w = true.
Lemma sane_asked speeds later w o : sane w -> sane (snd (asked_op speeds later w o)).
Proof. unfold sane. intros H. destruct o; cbn [asked_op snd sewn begun]; auto; try discriminate. destruct (begun w) eqn:B; cbn [snd sewn begun]; [reflexivity|]. intros X. rewrite B. exact (H X). Qed.
Lemma exec_step c seq src pos rest a x y o s s' : thread_change_command c = by_ -> plain_state s -> ordered s -> sane (of_state s) -> allowed_op o = true ->
  exec N c seq src pos rest a x y o s = Ok s' ->
  let later := lookahead_stitch N rest in
  step s s' (fst (asked_op (writes_speeds c) later (of_state s) o)) (snd (asked_op (writes_speeds c) later (of_state s) o)).
Proof.
  intros K P O Hs A E. cbv zeta. pose proof P as (H & M & T).
  assert (B : trimmed N s = false -> 0 <= order_index N s).
  { intros Tr. apply Z.leb_le. apply Hs. unfold of_state. cbn [sewn]. rewrite Tr. reflexivity. }
  assert (Quiet : forall s1, does s s1 [] -> step s s1 [] (of_state s)) by (intros s1 D; apply does_step; assumption).
  assert (Same : forall s1, out N s1 = out N s -> of_state s1 = of_state s -> high_flags N s1 = high_flags N s -> sequin_mode N s1 = sequin_mode N s ->
     ties s1 = ties s -> order_index N s1 = order_index N s -> step s s1 [] (of_state s)).
  { intros s1 E1 E2 E3 E4 E5 E6. split; [rewrite E1, app_nil_r; reflexivity|]. split; [exact E2|]. unfold plain_state, hi, no_ties, ordered, ties in *.
    injection E5 as -> -> ->. rewrite E3, E4, E6. auto. }
  destruct o; try discriminate A; cbn [exec] in E; cbn [asked_op fst snd of_state explicit begun sewn].
  - injection E as <-. apply Quiet, does_refl.
  - eapply sew_step with (f := fun s => stitch_with_contingency N s x y); try eassumption.
    intros s1 E1. unfold stitch_with_contingency in E1. destruct T as (_ & _ & T). apply Z.eqb_neq in T. rewrite T in E1. clear T.
    destruct (_ =? _); [exact (does_needle_to _ _ _ _ H M E1)|]. injection E1 as <-. apply does_stitch_at, H.
  - eapply sew_step with (f := fun s => needle_to N s x y); try eassumption. intros s1 E1. exact (does_needle_to _ _ _ _ H M E1).
  - injection E as <-. apply Same; reflexivity.
  - destruct (jump_to N _ x y) as [s2|] eqn:E2; [|discriminate]. cbn [bindr] in E. injection E as <-.
    destruct (needed_step src pos s P O) as (W & S1 & P1 & O1). pose proof (does_jump_to _ _ _ _ (proj1 P1) (proj1 (proj2 P1)) E2) as D.
    destruct (does_step _ _ _ D P1 O1) as (W2 & S2 & P2 & O2). rewrite S1 in S2.
    unfold of_state in S2. injection S2 as X2 B2 _. pose proof (stop_step s2 P2 O2) as S3. rewrite X2, B2 in S3.
    eapply step_trans; [split; [exact W|split; [exact S1|split; assumption]]|]. destruct S3 as (W3 & S3). split; [rewrite W3, W2, app_nil_r; reflexivity|exact S3].
  - injection E as <-. apply needed_step; assumption.
  - pose proof (break_step _ _ _ _ _ _ _ K P O E) as S1. cbv zeta in S1. destruct (0 <=? order_index N s); [exact S1|]. subst s'. apply Quiet, does_refl.
  - injection E as <-. apply needed_step; assumption.
  - destruct (jumping N s); [injection E as <-; apply Quiet, does_refl|]. apply Quiet. exact (does_jump_to _ _ _ _ H M E).
  - exact (change_step _ _ _ _ _ _ K P O E).
  - injection E as <-. apply stop_step; assumption.
  - injection E as <-. destruct (writes_speeds c); cbn [when]; [|apply Quiet, does_refl]. apply does_step; try assumption.
    apply (does_add s SLOW (nx N s) (ny N s) H). unfold SLOW. lia.
  - injection E as <-. destruct (writes_speeds c); cbn [when]; [|apply Quiet, does_refl]. apply does_step; try assumption.
    apply (does_add s FAST (nx N s) (ny N s) H). unfold FAST. lia.
  - injection E as <-. apply Same; reflexivity.
  - injection E as <-. apply Same; reflexivity.
  - injection E as <-. split; [rewrite app_nil_r; reflexivity|]. split; [reflexivity|]. split; [exact P|exact O].
  - injection E as <-. rewrite M, andb_false_r. apply Same; reflexivity.
  - injection E as <-. apply Same; reflexivity.
  - injection E as <-. apply Same; reflexivity.
  - injection E as <-. apply Same; reflexivity.
  - unfold needle_in_source in E. destruct (inverse N _) as [i1|]; [|discriminate]. cbn [bindr] in E. destruct (inverse N i1) as [i2|]; [|discriminate]. cbn [bindr] in E.
    injection E as <-. apply Same; reflexivity.
  - unfold needle_in_source in E. destruct (inverse N _) as [i1|]; [|discriminate]. cbn [bindr] in E. destruct (inverse N i1) as [i2|]; [|discriminate]. cbn [bindr] in E.
    injection E as <-. apply Same; reflexivity.
  - injection E as <-. apply Same; reflexivity.
Qed.
Lemma end_work s : hi N s -> work (out N (end_here N s)) = work (out N s).
Proof. intros H. unfold end_here. destruct (does_add s END (nx N s) (ny N s) H) as (W & _); [unfold END; lia|]. cbn [when] in W. rewrite app_nil_r in W. exact W. Qed.
(** The encoder's look ahead finds a stitch exactly when one is left. *)
Lemma lookahead_ok l : Forall unnumbered l -> Forall (fun a => allowed (cmd_of (scmd a)) = true) (until_end l) ->
  lookahead_stitch N l = existsb (fun b => sews_src b) (until_end l).
Proof.
  induction l as [|a l IH]; intros U A; [reflexivity|]. apply Forall_cons_iff in U. destruct U as [Ua U].
  unfold unnumbered, has_command in Ua. cbn [existsb] in Ua.
  cbn [lookahead_stitch until_end] in *. cbv zeta. unfold is_cmd in *. change (Z.land (scmd a) 255) with (cmd_of (scmd a)) in *.
  destruct (Z.eqb_spec (cmd_of (scmd a)) END) as [Ee|Ee].
  - assert (R : scmd a = END) by (rewrite Ua, Ee; [reflexivity|rewrite Ee; reflexivity]). rewrite R. reflexivity.
  - apply Forall_cons_iff in A. destruct A as [Aa A]. cbn [existsb]. unfold sews_src at 1, is_cmd. change (Z.land (scmd a) 255) with (cmd_of (scmd a)).
    assert (G : (scmd a =? STITCH) || (scmd a =? NEEDLE_AT) || (scmd a =? SEW_TO) || (scmd a =? TIE_ON) || (scmd a =? SEQUIN_EJECT)
              = (cmd_of (scmd a) =? STITCH) || (cmd_of (scmd a) =? NEEDLE_AT) || (cmd_of (scmd a) =? SEW_TO)).
    { destruct (Z.eqb_spec (cmd_of (scmd a)) STITCH) as [C1|C1]; [assert (R : scmd a = STITCH) by (rewrite Ua; [exact C1|]; first [reflexivity | rewrite C1; reflexivity]); rewrite R; reflexivity|].
      destruct (Z.eqb_spec (cmd_of (scmd a)) NEEDLE_AT) as [C2|C2]; [assert (R : scmd a = NEEDLE_AT) by (rewrite Ua; [exact C2|]; first [reflexivity | rewrite C2; reflexivity]); rewrite R; reflexivity|].
      destruct (Z.eqb_spec (cmd_of (scmd a)) SEW_TO) as [C3|C3]; [rewrite C3 in Aa; discriminate|]. cbn [orb].
      destruct (Z.eqb_spec (scmd a) STITCH) as [C|_]; [exfalso; apply C1; rewrite C; reflexivity|].
      destruct (Z.eqb_spec (scmd a) NEEDLE_AT) as [C|_]; [exfalso; apply C2; rewrite C; reflexivity|].
      destruct (Z.eqb_spec (scmd a) SEW_TO) as [C|_]; [exfalso; apply C3; rewrite C; reflexivity|].
      destruct (Z.eqb_spec (scmd a) TIE_ON) as [C|_]; [rewrite C in Aa; discriminate|].
      destruct (Z.eqb_spec (scmd a) SEQUIN_EJECT) as [C|_]; [rewrite C in Aa; discriminate|]. reflexivity. }
    rewrite G. clear G. set (b := (cmd_of (scmd a) =? STITCH) || (cmd_of (scmd a) =? NEEDLE_AT) || (cmd_of (scmd a) =? SEW_TO)). destruct b; [reflexivity|]. cbn [orb].
    destruct (Z.eqb_spec (scmd a) END) as [C|_]; [exfalso; apply Ee; rewrite C; reflexivity|]. exact (IH U A).
Qed.
Lemma later_irrelevant speeds b b' w k : k <> COLOR_BREAK -> asked by_ speeds b w k = asked by_ speeds b' w k.
Proof. intros H. unfold asked. apply Z.eqb_neq in H. rewrite H. reflexivity. Qed.
Lemma breaks_clear_tail (a : stitch F) l : breaks_clear (a :: l) -> is_cmd END a = false -> breaks_clear l.
Proof.
  intros [H|H] E; [left|right].
  - exact (Forall_inv_tail H).
  - cbn [until_end] in H. rewrite E in H. exact (Forall_inv_tail H).
Qed.
Lemma later_seen speeds (a : stitch F) l w : breaks_clear (a :: l) -> is_cmd END a = false -> Forall (fun a => allowed (cmd_of (scmd a)) = true) (until_end l) ->
  asked by_ speeds (existsb (fun b => sews_src b) (until_end l)) w (cmd_of (scmd a)) = asked by_ speeds (lookahead_stitch N (a :: l)) w (cmd_of (scmd a)).
Proof.
  intros B E A. destruct (Z.eq_dec (cmd_of (scmd a)) COLOR_BREAK) as [K|K]; [|apply later_irrelevant; exact K].
  destruct B as [B|B].
  - rewrite lookahead_ok; [|exact B|cbn [until_end]; rewrite E; constructor; [rewrite K; reflexivity|exact A]].
    cbn [until_end]. rewrite E. cbn [existsb]. unfold sews_src at 2, is_cmd. change (Z.land (scmd a) 255) with (cmd_of (scmd a)). rewrite K. reflexivity.
  - cbn [until_end] in B. rewrite E in B. apply Forall_inv in B. unfold is_cmd in B. change (Z.land (scmd a) 255) with (cmd_of (scmd a)) in B. rewrite K in B. discriminate.
Qed.
Lemma loop_work c seq src rest : thread_change_command c = by_ -> forall pos s s', plain_state s -> ordered s -> sane (of_state s) ->
  Forall (fun a => allowed (cmd_of (scmd a)) = true) (until_end rest) -> breaks_clear rest ->
  main_loop N c seq src pos rest s = Ok s' ->
  work (out N s') = work (out N s) ++ all_asked by_ (writes_speeds c) (of_state s) (until_end rest).
Proof.
  intros K. induction rest as [|a rest IH]; intros pos s s' P O Hs A Bc E; cbn [main_loop] in E.
  - injection E as <-. cbn [until_end all_asked]. rewrite app_nil_r. apply end_work, P.
  - destruct (placed N c s a) as [[x y]|]; [|discriminate]. cbn [bindr] in E.
    set (s0 := set_high N s (Z.land (scmd a) FLAGS_MASK)) in *.
    assert (P0 : plain_state s0) by (destruct P as (_ & P2 & P3); split; [unfold hi, s0; attrs; apply high_flags_mask|split; assumption]).
    destruct (exec N c seq src pos (a :: rest) a x y _ s0) as [s1|] eqn:E1; [|discriminate]. cbn [bindr] in E. cbn [until_end] in *.
    assert (Eq : is_cmd END a = (cmd_of (scmd a) =? END)) by reflexivity.
    rewrite Eq in *. destruct (Z.eqb_spec (cmd_of (scmd a)) END) as [Ee|Ee].
    + rewrite Ee in E1. change (classify END) with OpEnd in E1. cbn [exec] in E1. injection E1 as <-. injection E as <-. cbn [all_asked]. rewrite app_nil_r. exact (end_work s0 (proj1 P0)).
    + apply Forall_cons_iff in A. destruct A as [A A']. destruct (by_branch (writes_speeds c) (lookahead_stitch N (a :: rest)) (of_state s) _ A Ee) as [B Al].
      destruct (exec_step _ _ _ _ _ _ _ _ _ s0 s1 K P0 O Hs Al E1) as (W & S1 & P1 & O1).
      assert (Hs1 : sane (of_state s1)) by (rewrite S1; apply sane_asked, Hs).
      rewrite (IH _ _ _ P1 O1 Hs1 A' (breaks_clear_tail _ _ Bc Eq) E), W, S1. cbn [all_asked]. change (Z.land (scmd a) 255) with (cmd_of (scmd a)).
      rewrite (later_seen _ _ _ _ Bc Eq A'), B.
      change (of_state s0) with (of_state s). destruct (asked_op _ _ _ _) as [l w]. cbn [fst snd]. rewrite app_assoc. reflexivity.
Qed.
End Work.

(** Everything is done that the design asks for, in its order, and nothing else: stitches, cuts of threads,
    colour changes, stops and speeds. *)
Theorem C229_work : forall N (set : settings N) p o ths, transcode N set p = Ok (o, ths) -> plain_settings set ->
  In (requested_change set) [COLOR_CHANGE; NEEDLE_SET; STOP] ->
  Forall (fun a => has_command left_out a = false) (until_end (p_stitches N p)) -> breaks_clear (p_stitches N p) ->
  work o = all_asked (requested_change set) (match s_writes_speeds N set with Some b => b | None => true end)
             (mkAsk (match s_explicit_trim N set with Some b => b | None => false end) false false) (until_end (p_stitches N p)).
Proof.
  intros N set p o ths E (T1 & T2 & T3) Hc Hm Hb. rewrite transcode_unfold in E. rewrite <- requested_ok in *.
  set (by_ := thread_change_command (init_config N set)) in *.
  assert (Hby : by_ = COLOR_CHANGE \/ by_ = NEEDLE_SET \/ by_ = STOP) by (cbn [In] in Hc; clear - Hc; intuition congruence).
  destruct (build_thread_change_sequence _ _ _ _) as [seq|] eqn:Eb; [|discriminate]. cbn [bindr] in E.
  destruct (main_loop _ _ _ _ _ _ _) as [s|] eqn:Em; [|discriminate]. cbn [bindr] in E. injection E as <- <-.
  eapply (loop_work N by_ Hby) in Em; [|reflexivity| | | | |exact Hb].
  - rewrite Em. unfold start. destruct (_ =? NEEDLE_SET); reflexivity.
  - assert (P0 : plain_state N (init_state N set)).
    { split; [reflexivity|]. split; [reflexivity|]. unfold no_ties. cbn [init_state tie_on_contingency tie_off_contingency long_stitch_contingency]. unfold get.
      split; [destruct T1 as [-> | ->]; discriminate|]. split; [destruct T2 as [-> | ->]; discriminate|]. destruct T3 as [-> | [-> | ->]]; discriminate. }
    unfold start. destruct (_ =? NEEDLE_SET); exact P0.
  - unfold ordered, start. destruct (_ =? NEEDLE_SET); cbn; lia.
  - unfold start. destruct (_ =? NEEDLE_SET); intros X; discriminate.
  - eapply Forall_impl; [|exact Hm]. intros a Ha. unfold allowed. change (existsb (Z.eqb (cmd_of (scmd a))) left_out) with (has_command left_out a). rewrite Ha. reflexivity.
Qed.

(** So stops and speeds are exactly those of the design. *)
Definition halts_or_speeds (k : Z) : bool := existsb (Z.eqb k) [STOP; SLOW; FAST].
Definition asks_halt_or_speed {C} (a : stitch C) : list Z :=
  if is_cmd FRAME_EJECT a then [STOP] else if halts_or_speeds (Z.land (scmd a) 255) then [Z.land (scmd a) 255] else [].
Theorem C229_stops_and_speeds : forall N (set : settings N) p o ths, transcode N set p = Ok (o, ths) -> plain_settings set -> In (requested_change set) [COLOR_CHANGE; NEEDLE_SET] ->
  s_writes_speeds N set <> Some false -> Forall (fun a => has_command left_out a = false) (until_end (p_stitches N p)) -> breaks_clear (p_stitches N p) ->
  filter halts_or_speeds (map (fun a => Z.land (scmd a) 255) o) = flat_map asks_halt_or_speed (until_end (p_stitches N p)).
Proof.
  intros N set p o ths E Hs K Sp Hm Hb. pose proof (C229_work N set p o ths E Hs ltac:(cbn [In] in K |- *; tauto) Hm Hb) as W.
  assert (Sp' : (match s_writes_speeds N set with Some b => b | None => true end) = true) by (destruct (s_writes_speeds N set) as [[]|]; congruence).
  rewrite Sp' in W. clear Sp Sp'.
  assert (F : forall l, filter halts_or_speeds l = filter halts_or_speeds (filter is_work l)).
  { induction l as [|k l IH]; [reflexivity|]. cbn [filter]. destruct (is_work k) eqn:Wk; cbn [filter]; rewrite IH; [reflexivity|].
    destruct (halts_or_speeds k) eqn:Hk; [|reflexivity]. exfalso. unfold halts_or_speeds in Hk. apply existsb_exists in Hk as (j & Hj & Ej). apply Z.eqb_eq in Ej. subst j.
    cbn [In] in Hj. destruct Hj as [<- | [<- | [<- | []]]]; discriminate. }
  rewrite F. change (filter is_work (map (fun a => Z.land (scmd a) 255) o)) with (work o). rewrite W. clear - K. revert K. generalize (requested_change set). intros by_ K.
  generalize (mkAsk (match s_explicit_trim N set with Some b => b | None => false end) false false).
  induction (until_end (p_stitches N p)) as [|a l IH]; intros w; [reflexivity|]. cbn [all_asked flat_map].
  generalize (existsb (fun b => sews_src b) l). intros lt.
  assert (G : filter halts_or_speeds (fst (asked by_ true lt w (Z.land (scmd a) 255))) = asks_halt_or_speed a).
  { unfold asks_halt_or_speed, is_cmd. generalize (Z.land (scmd a) 255). intros k. clear - K. unfold asked, halts_or_speeds, existsb.
    repeat match goal with |- context [k =? ?c] => destruct (Z.eqb_spec k c) as [-> | ?]; [cbn [orb]; destruct K as [<- | [<- | []]], w as [[] [] []], lt; reflexivity|] end. reflexivity. }
  destruct (asked by_ true lt w (Z.land (scmd a) 255)) as [k w']. cbn [fst] in G. rewrite filter_app, G, IH. reflexivity.
Qed.

Definition worked : list (stitch Q) :=
  [mkS 0 0 COLOR_BREAK; mkS 0 0 STITCH; mkS 0 0 SLOW; mkS 300 0 STITCH; mkS 300 0 TRIM; mkS 300 0 TRIM; mkS 0 0 FAST; mkS 9 0 STITCH; mkS 9 0 STOP; mkS 9 0 TRIM; mkS 9 9 STITCH;
   mkS 9 9 COLOR_CHANGE; mkS 5 5 JUMP; mkS 6 6 STITCH; mkS 0 0 OPTION_EXPLICIT_TRIM; mkS 6 6 COLOR_CHANGE; mkS 7 7 STITCH; mkS 7 7 COLOR_BREAK; mkS 6 7 STITCH; mkS 8 8 FRAME_EJECT;
   mkS 8 8 COLOR_BREAK; mkS 8 8 END]%Q.
Example C229_case : plain_settings no_settings /\ requested_change no_settings = COLOR_CHANGE /\
  Forall (fun a => has_command left_out a = false) (until_end worked) /\ breaks_clear worked /\
  exists o ths, transcode ExNum no_settings (mkP ExNum worked []) = Ok (o, ths) /\
  work o = [STITCH; SLOW; STITCH; TRIM; FAST; STITCH; STOP; STITCH; COLOR_CHANGE; STITCH; TRIM; COLOR_CHANGE; STITCH; TRIM; COLOR_CHANGE; STITCH; TRIM; STOP].
Proof.
  split; [repeat split; left; reflexivity|]. split; [reflexivity|]. split; [repeat constructor|]. split; [left; repeat constructor|]. do 2 eexists. split; [vm_compute; reflexivity|]. vm_compute. reflexivity.
Qed.
Definition by_needles : settings ExNum :=
  mkSettings ExNum None None None None (Some 3) (Some NEEDLE_SET) None None None None None None None None None None.
Example C229_needles : plain_settings by_needles /\ requested_change by_needles = NEEDLE_SET /\
  exists o ths, transcode ExNum by_needles (mkP ExNum worked []) = Ok (o, ths) /\
  work o = [NEEDLE_SET; STITCH; SLOW; STITCH; TRIM; FAST; STITCH; STOP; STITCH; NEEDLE_SET; STITCH; TRIM; NEEDLE_SET; STITCH; TRIM; NEEDLE_SET; STITCH; TRIM; STOP].
Proof. split; [repeat split; left; reflexivity|]. split; [reflexivity|]. do 2 eexists. split; [vm_compute; reflexivity|]. vm_compute. reflexivity. Qed.
Print Assumptions C229_work.
Print Assumptions C229_stops_and_speeds.
