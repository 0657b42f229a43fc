(** Which needle penetrations the encoder emits. *)
From Coq Require Import ZArith List Bool Lia.
From Verif Require Import PyBase EmbConst FunctionsModel ThreadModel NumModel MatrixModel EncoderModel
  BitLemmas EncoderProofs EncoderSpec.
Import ListNotations.
Open Scope Z_scope.

Lemma needle_points_app : forall C (l1 l2 : list (stitch C)),
  needle_points (l1 ++ l2) = needle_points l1 ++ needle_points l2.
Proof. intros. unfold needle_points. rewrite filter_app, map_app. reflexivity. Qed.

Lemma jump_small : 0 <= JUMP < 256. Proof. unfold JUMP. lia. Qed.
Lemma stitch_small : 0 <= STITCH < 256. Proof. unfold STITCH. lia. Qed.

Lemma Forall2_imp : forall A B (P Q : A -> B -> Prop) l1 l2, (forall a b, P a b -> Q a b) ->
  Forall2 P l1 l2 -> Forall2 Q l1 l2.
Proof. intros A B P Q l1 l2 H F. induction F; constructor; auto. Qed.

Section Sew.
Context (N : Num).
Notation F := (F N).
Notation st := (st N).
Implicit Types s : st.

Definition hi s : Prop := Z.land (high_flags N s) FLAGS_MASK = high_flags N s.

(** The attributes that only option and matrix commands change. *)
Definition keep s s' : Prop :=
  high_flags N s' = high_flags N s /\ matrix N s' = matrix N s /\
  tie_on_contingency N s' = tie_on_contingency N s /\ tie_off_contingency N s' = tie_off_contingency N s /\
  long_stitch_contingency N s' = long_stitch_contingency N s.

Definition grow s s' (l : list (F * F)) : Prop :=
  needle_points (out N s') = needle_points (out N s) ++ l /\ keep s s'.

Lemma keep_refl : forall s, keep s s.
Proof. intros s. unfold keep. auto. Qed.
Lemma keep_trans : forall a b c, keep a b -> keep b c -> keep a c.
Proof. unfold keep. intros a b c (A1 & A2 & A3 & A4 & A5) (B1 & B2 & B3 & B4 & B5).
  rewrite B1, B2, B3, B4, B5. auto. Qed.
Lemma keep_hi : forall s s', keep s s' -> hi s -> hi s'.
Proof. unfold keep, hi. intros s s' (-> & _). auto. Qed.

Lemma grow_refl : forall s, grow s s [].
Proof. intros s. split; [rewrite app_nil_r; reflexivity|apply keep_refl]. Qed.
Lemma grow_trans : forall a b c l1 l2, grow a b l1 -> grow b c l2 -> grow a c (l1 ++ l2).
Proof.
  intros a b c l1 l2 [A1 A2] [B1 B2]. split; [rewrite B1, A1, app_assoc; reflexivity|].
  eapply keep_trans; eassumption.
Qed.
Lemma grow_hi : forall s s' l, grow s s' l -> hi s -> hi s'.
Proof. intros s s' l [_ K]. apply keep_hi, K. Qed.

Lemma grow_add : forall s k x y, hi s -> 0 <= k < 256 ->
  grow s (add_at N s k x y) (if k =? STITCH then [(x, y)] else []).
Proof.
  intros s k x y H Hk. split; [|unfold keep; attrs; auto].
  attrs. rewrite needle_points_app. unfold needle_points at 2. cbn [filter].
  change (is_cmd STITCH (mkS x y (Z.lor k (high_flags N s)))) with (cmd_of (Z.lor k (high_flags N s)) =? STITCH).
  rewrite cmd_lor_high by assumption. destruct (k =? STITCH); reflexivity.
Qed.

Lemma grow_change : forall s k t n, 0 <= k < 256 -> k <> STITCH -> grow s (add_thread_change N s k t n) [].
Proof.
  intros s k t n Hk Hn. split; [|unfold keep; attrs; auto].
  unfold add_thread_change. attrs. rewrite needle_points_app. unfold needle_points at 2. cbn [filter].
  unfold is_cmd. cbn [scmd]. fold (cmd_of (encode_thread_change k (Some t) (Some n) None)).
  change (Z.land (encode_thread_change k (Some t) (Some n) None) 255)
    with (cmd_of (encode_thread_change k (Some t) (Some n) None)).
  rewrite cmd_thread_change by exact Hk. apply Z.eqb_neq in Hn. rewrite Hn. reflexivity.
Qed.

Lemma grow_toggle : forall s, hi s -> grow s (toggle_sequins N s) [].
Proof.
  intros s H. unfold toggle_sequins. destruct (_ =? _); [|apply grow_refl].
  apply (grow_add s SEQUIN_MODE (nx N s) (ny N s) H). unfold SEQUIN_MODE. lia.
Qed.

Lemma grow_leave : forall s, hi s -> grow s (if sequin_mode N s then toggle_sequins N s else s) [].
Proof. intros s H. destruct (sequin_mode N s); [apply grow_toggle; exact H|apply grow_refl]. Qed.

Lemma grow_gap : forall n qx qy ax ay cmd s,
  exists l, grow s (gap_loop N n qx qy ax ay cmd s) l /\ (cmd_of cmd <> STITCH -> l = []).
Proof.
  induction n as [|n IH]; intros qx qy ax ay cmd s; cbn [gap_loop].
  - exists []. split; [apply grow_refl|auto].
  - set (s1 := update_needle_position _ _ _ _).
    destruct (IH (fadd N qx ax) (fadd N qy ay) ax ay cmd s1) as (l & G & L).
    exists ((if cmd_of cmd =? STITCH then [(fadd N qx ax, fadd N qy ay)] else []) ++ l). split.
    + eapply grow_trans; [|exact G]. split; [|unfold keep, s1; attrs; auto].
      unfold s1. attrs. rewrite needle_points_app. unfold needle_points at 2. cbn [filter].
      change (is_cmd STITCH (mkS (fadd N qx ax) (fadd N qy ay) cmd)) with (cmd_of cmd =? STITCH).
      destruct (cmd_of cmd =? STITCH); reflexivity.
    + intros Hn. rewrite (L Hn). apply Z.eqb_neq in Hn. rewrite Hn. reflexivity.
Qed.

Lemma grow_interp : forall s s' x0 y0 x1 y1 lim data, hi s -> 0 <= data < 256 ->
  interpolate_gap_stitches N s x0 y0 x1 y1 lim data = Ok s' ->
  exists l, grow s s' l /\ (data <> STITCH -> l = []).
Proof.
  intros s s' x0 y0 x1 y1 lim data H Hd E. unfold interpolate_gap_stitches in E. cbv zeta in E.
  destruct lim as [lim|]; [|injection E as <-; exists []; split; [apply grow_refl|auto]].
  destruct (exceeds _ _ _ || exceeds _ _ _); [|injection E as <-; exists []; split; [apply grow_refl|auto]].
  set (s0 := if (data =? JUMP) && sequin_mode N s then toggle_sequins N s else s) in *.
  assert (G0 : grow s s0 []).
  { unfold s0. destruct (_ && _); [apply grow_toggle; exact H|apply grow_refl]. }
  destruct (fdiv N _ lim) as [rx|]; [|discriminate]. cbn [bindr] in E.
  destruct (fceil N _) as [nx'|]; [|discriminate]. cbn [bindr] in E.
  destruct (fdiv N _ lim) as [ry|]; [|discriminate]. cbn [bindr] in E.
  destruct (fceil N _) as [ny'|]; [|discriminate]. cbn [bindr] in E.
  destruct (fdivz N _ _) as [ax|]; [|discriminate]. cbn [bindr] in E.
  destruct (fdivz N _ _) as [ay|]; [|discriminate]. cbn [bindr] in E. injection E as <-.
  destruct (grow_gap (Z.to_nat ((if ny' <? nx' then nx' else ny') - 1)) x0 y0 ax ay
              (Z.lor data (high_flags N s0)) s0) as (l & G & L).
  exists l. split; [exact (grow_trans _ _ _ _ _ G0 G)|]. intros Hn. apply L.
  rewrite cmd_lor_high; [exact Hn|exact Hd|]. exact (grow_hi _ _ _ G0 H).
Qed.

Lemma grow_stitch_at : forall s x y, hi s -> grow s (stitch_at N s x y) [(x, y)].
Proof.
  intros s x y H. unfold stitch_at. change [(x, y)] with ([(x, y)] ++ @nil (F * F)).
  eapply grow_trans; [apply (grow_add s STITCH x y H); unfold STITCH; lia|].
  split; [rewrite app_nil_r; reflexivity|unfold keep; attrs; auto].
Qed.

Lemma grow_jump_at : forall s x y, hi s -> grow s (jump_at N s x y) [].
Proof.
  intros s x y H. unfold jump_at. change (@nil (F * F)) with (@nil (F * F) ++ []).
  eapply grow_trans; [apply grow_leave; exact H|].
  pose proof (grow_hi _ _ _ (grow_leave s H) H) as H1.
  destruct (grow_add _ JUMP x y H1) as [A B]; [unfold JUMP; lia|]. split; [exact A|exact B].
Qed.

Ltac open_interp E :=
  match type of E with bindr (interpolate_gap_stitches ?n ?s ?a ?b ?c ?d ?l ?k) _ = Ok _ =>
    let s1 := fresh "s1" in let E1 := fresh "E1" in
    destruct (interpolate_gap_stitches n s a b c d l k) as [s1|] eqn:E1; [|discriminate];
    cbn [bindr] in E end.

Lemma grow_needle_to : forall s s' x y, hi s -> needle_to N s x y = Ok s' -> grow s s' [(x, y)].
Proof.
  intros s s' x y H E. unfold needle_to in E. open_interp E. injection E as <-.
  destruct (grow_interp _ _ _ _ _ _ _ _ H jump_small E1) as (l & G & L).
  rewrite L in G by discriminate. change [(x, y)] with (@nil (F * F) ++ [(x, y)]).
  eapply grow_trans; [exact G|]. apply grow_stitch_at. exact (grow_hi _ _ _ G H).
Qed.

Lemma grow_sew_to : forall s s' x y, hi s -> sew_to N s x y = Ok s' -> exists l, grow s s' (l ++ [(x, y)]).
Proof.
  intros s s' x y H E. unfold sew_to in E. open_interp E. injection E as <-.
  destruct (grow_interp _ _ _ _ _ _ _ _ H stitch_small E1) as (l & G & _).
  exists l. eapply grow_trans; [exact G|]. apply grow_stitch_at. exact (grow_hi _ _ _ G H).
Qed.

Lemma grow_contingency : forall s s' x y, hi s -> stitch_with_contingency N s x y = Ok s' ->
  exists l, grow s s' (l ++ [(x, y)]) /\
    (long_stitch_contingency N s <> CONTINGENCY_LONG_STITCH_SEW_TO -> l = []).
Proof.
  intros s s' x y H E. unfold stitch_with_contingency in E.
  destruct (Z.eqb_spec (long_stitch_contingency N s) CONTINGENCY_LONG_STITCH_SEW_TO) as [Es|Es].
  - destruct (grow_sew_to _ _ _ _ H E) as (l & G). exists l. split; [exact G|]. intros; contradiction.
  - exists []. split; [|auto]. cbn [app]. destruct (_ =? _).
    + apply grow_needle_to; assumption.
    + injection E as <-. apply grow_stitch_at. exact H.
Qed.

Lemma grow_within : forall c s s' x y, hi s -> jump_to_within_stitchrange N c s x y = Ok s' -> grow s s' [].
Proof.
  intros c s s' x y H E. unfold jump_to_within_stitchrange in E. open_interp E.
  destruct (grow_interp _ _ _ _ _ _ _ _ H jump_small E1) as (l & G & L).
  rewrite L in G by discriminate.
  destruct (full_jump c); [|injection E as <-; exact G]. destruct (_ || _); injection E as <-; [|exact G].
  change (@nil (F * F)) with (@nil (F * F) ++ []). eapply grow_trans; [exact G|].
  apply grow_jump_at. exact (grow_hi _ _ _ G H).
Qed.

Lemma grow_jump_to : forall s s' x y, hi s -> jump_to N s x y = Ok s' -> grow s s' [].
Proof.
  intros s s' x y H E. unfold jump_to in E. open_interp E. injection E as <-.
  destruct (grow_interp _ _ _ _ _ _ _ _ H jump_small E1) as (l & G & L).
  rewrite L in G by discriminate. change (@nil (F * F)) with (@nil (F * F) ++ []). eapply grow_trans; [exact G|].
  apply grow_jump_at. exact (grow_hi _ _ _ G H).
Qed.

Lemma grow_sequin_at : forall s s' x y, hi s -> sequin_at N s x y = Ok s' -> exists l, grow s s' l.
Proof.
  intros s s' x y H E. unfold sequin_at in E. cbv zeta in E.
  destruct (_ =? CONTINGENCY_SEQUIN_REMOVE); [injection E as <-; exists []; apply grow_refl|].
  open_interp E. injection E as <-.
  destruct (grow_interp _ _ _ _ _ _ _ _ H stitch_small E1) as (l & G & _).
  pose proof (grow_hi _ _ _ G H) as H1.
  assert (G2 : exists l2, grow s1 (if sequin_contingency N s =? CONTINGENCY_SEQUIN_UTILIZE then add_at N s1 SEQUIN_EJECT x y
      else if sequin_contingency N s =? CONTINGENCY_SEQUIN_JUMP then add_at N s1 JUMP x y
      else if sequin_contingency N s =? CONTINGENCY_SEQUIN_STITCH then add_at N s1 STITCH x y else s1) l2).
  { repeat (destruct (_ =? _); [eexists; apply grow_add; [exact H1|unfold SEQUIN_EJECT, JUMP, STITCH; lia]|]).
    exists []. apply grow_refl. }
  destruct G2 as (l2 & G2). exists (l ++ l2). destruct (grow_trans _ _ _ _ _ G G2) as [A B].
  split; [exact A|exact B].
Qed.

Lemma grow_lock : forall s b, exists l, grow s (lock_towards N s b) l.
Proof.
  intros s [b|]; [|exists []; apply grow_refl]. cbn [lock_towards].
  destruct (point_in_matrix_space N (matrix N s) (sx b) (sy b)) as [bx by'].
  destruct (is_anchor (scmd b)); [|exists []; apply grow_refl]. unfold lock_stitch.
  match goal with |- context [let '(ax, ay) := ?e in _] => destruct e as [ax ay] end.
  cbv zeta. eexists. split; [|unfold keep; attrs; auto].
  attrs. rewrite !needle_points_app, <- !app_assoc. reflexivity.
Qed.

Lemma grow_tie_off : forall src pos s, exists l, grow s (tie_off N src pos s) l /\
  (tie_off_contingency N s <> CONTINGENCY_TIE_OFF_THREE_SMALL -> l = []).
Proof.
  intros src pos s. unfold tie_off. destruct (Z.eqb_spec (tie_off_contingency N s) CONTINGENCY_TIE_OFF_THREE_SMALL).
  - destruct (grow_lock s (at_index N src (pos - 1))) as (l & G). exists l. split; [exact G|contradiction].
  - exists []. split; [apply grow_refl|auto].
Qed.

Lemma grow_tie_on : forall src pos s, exists l, grow s (tie_on N src pos s) l /\
  (tie_on_contingency N s <> CONTINGENCY_TIE_ON_THREE_SMALL -> l = []).
Proof.
  intros src pos s. unfold tie_on. destruct (Z.eqb_spec (tie_on_contingency N s) CONTINGENCY_TIE_ON_THREE_SMALL).
  - destruct (grow_lock s (at_index N src (pos + 1))) as (l & G). exists l. split; [exact G|contradiction].
  - exists []. split; [apply grow_refl|auto].
Qed.

Lemma grow_trim_here : forall s, hi s -> grow s (trim_here N s) [].
Proof.
  intros s H. unfold trim_here. pose proof (grow_leave s H) as G.
  pose proof (grow_hi _ _ _ G H) as H1. set (s1 := if sequin_mode N s then toggle_sequins N s else s) in *.
  destruct (grow_add s1 TRIM (nx N s1) (ny N s1) H1) as [A B]; [unfold TRIM; lia|].
  change (@nil (F * F)) with (@nil (F * F) ++ []). eapply grow_trans; [exact G|]. split; [exact A|exact B].
Qed.

Lemma grow_if_needed : forall src pos s, hi s -> exists l, grow s (tie_off_and_trim_if_needed N src pos s) l /\
  (tie_off_contingency N s <> CONTINGENCY_TIE_OFF_THREE_SMALL -> l = []).
Proof.
  intros src pos s H. unfold tie_off_and_trim_if_needed. destruct (negb (trimmed N s)).
  - destruct (grow_tie_off src pos s) as (l & G & L). exists (l ++ []). split.
    + eapply grow_trans; [exact G|]. apply grow_trim_here. exact (grow_hi _ _ _ G H).
    + intros Hn. rewrite (L Hn). reflexivity.
  - exists []. split; [apply grow_refl|auto].
Qed.

Lemma grow_close : forall src pos s, hi s -> exists l, grow s (close_section N src pos s) l /\
  (tie_off_contingency N s <> CONTINGENCY_TIE_OFF_THREE_SMALL -> l = []).
Proof.
  intros src pos s H. unfold close_section. destruct (negb (trimmed N s)).
  - destruct (grow_tie_off src pos s) as (l & G & L). destruct (explicit_trim N (tie_off N src pos s)).
    + exists (l ++ []). split.
      * eapply grow_trans; [exact G|]. apply grow_trim_here. exact (grow_hi _ _ _ G H).
      * intros Hn. rewrite (L Hn). reflexivity.
    + exists l. auto.
  - exists []. split; [apply grow_refl|auto].
Qed.

Lemma grow_next : forall c seq s s', next_change_sequence N c seq s = Ok s' -> grow s s' [].
Proof.
  intros c seq s s' E. unfold next_change_sequence in E.
  destruct (dict_get (order_index N (set_order N s (order_index N s + 1))) seq) as [ch|]; [|discriminate].
  injection E as <-.
  set (s1 := set_order N s (order_index N s + 1)).
  assert (G1 : forall s2, out N s2 = out N s -> keep s s2 -> grow s s2 []).
  { intros s2 Eo K. split; [rewrite Eo, app_nil_r; reflexivity|exact K]. }
  assert (T : forall s2, grow s s2 [] -> grow s (set_trimmed N s2 true) []).
  { intros s2 [A B]. split; [exact A|exact B]. }
  apply T. unfold s1.
  destruct (_ =? COLOR_CHANGE).
  - destruct (negb _).
    + change (@nil (F * F)) with (@nil (F * F) ++ []). eapply grow_trans; [|apply grow_change; [unfold COLOR_CHANGE; lia|discriminate]].
      apply G1; [reflexivity|unfold keep; attrs; auto].
    + apply G1; [reflexivity|unfold keep; attrs; auto].
  - destruct (_ =? NEEDLE_SET).
    + change (@nil (F * F)) with (@nil (F * F) ++ []). eapply grow_trans; [|apply grow_change; [unfold NEEDLE_SET; lia|discriminate]].
      apply G1; [reflexivity|unfold keep; attrs; auto].
    + destruct (_ =? STOP).
      * change (@nil (F * F)) with (@nil (F * F) ++ []). eapply grow_trans; [|apply grow_change; [unfold STOP; lia|discriminate]].
        apply G1; [reflexivity|unfold keep; attrs; auto].
      * apply G1; [reflexivity|unfold keep; attrs; auto].
Qed.

Lemma grow_open : forall c seq src pos x y s s', hi s -> open_section N c seq src pos x y s = Ok s' ->
  exists l, grow s s' ((x, y) :: l) /\
    (tie_on_contingency N s <> CONTINGENCY_TIE_ON_THREE_SMALL -> l = []).
Proof.
  intros c seq src pos x y s s' H E. unfold open_section, declare_not_trimmed in E.
  destruct (if order_index N s =? -1 then _ else _) as [s1|] eqn:E1; [|discriminate]. cbn [bindr] in E.
  assert (G1 : grow s s1 []).
  { destruct (order_index N s =? -1); [eapply grow_next; exact E1|injection E1 as <-; apply grow_refl]. }
  assert (G2 : grow s (set_trimmed N s1 false) []) by (destruct G1 as [A B]; split; [exact A|exact B]).
  set (s2 := set_trimmed N s1 false) in *. pose proof (grow_hi _ _ _ G2 H) as H2.
  destruct (jump_to_within_stitchrange N c s2 x y) as [s3|] eqn:E3; [|discriminate]. cbn [bindr] in E.
  injection E as <-. pose proof (grow_within _ _ _ _ _ H2 E3) as G3. pose proof (grow_hi _ _ _ G3 H2) as H3.
  pose proof (grow_stitch_at s3 x y H3) as G4.
  destruct (grow_tie_on src pos (stitch_at N s3 x y)) as (l & G5 & L5). exists l.
  pose proof (grow_trans _ _ _ _ _ G2 (grow_trans _ _ _ _ _ G3 G4)) as G6. cbn [app] in G6.
  split; [exact (grow_trans _ _ _ _ _ G6 G5)|]. intros Hn. apply L5.
  destruct G6 as [_ (_ & _ & K & _)]. rewrite K. exact Hn.
Qed.

(** ** One source command *)
Definition sewing_op (o : op) : bool :=
  match o with OpStitch | OpNeedleAt | OpSewTo => true | _ => false end.

(** Commands that leave matrix and contingencies alone. *)
Definition steady_op (o : op) : bool :=
  match o with
  | OpSetTieOn _ | OpSetTieOff _ | OpLongStitch _ | OpTranslate | OpScaleOrigin | OpRotateOrigin | OpScale
  | OpRotate | OpReset => false
  | _ => true
  end.
Definition matrix_op (o : op) : bool :=
  match o with
  | OpTranslate | OpScaleOrigin | OpRotateOrigin | OpScale | OpRotate | OpReset => true
  | _ => false
  end.

(** No command that may add penetrations of its own. *)
Definition plain_op (o : op) : bool :=
  steady_op o && match o with OpSewTo | OpSequinEject | OpTieOn | OpTieOff => false | _ => true end.

Definition no_ties s : Prop :=
  tie_on_contingency N s <> CONTINGENCY_TIE_ON_THREE_SMALL /\
  tie_off_contingency N s <> CONTINGENCY_TIE_OFF_THREE_SMALL /\
  long_stitch_contingency N s <> CONTINGENCY_LONG_STITCH_SEW_TO.

Definition sewn_here (o : op) (x y : F) (l : list (F * F)) : Prop :=
  sewing_op o = true -> exists l1 l2, l = l1 ++ (x, y) :: l2.
Definition only_here (o : op) (x y : F) s (l : list (F * F)) : Prop :=
  plain_op o = true -> no_ties s -> l = if sewing_op o then [(x, y)] else [].

Lemma sewing_grow : forall c seq src pos x y s s' o (f : st -> res st), hi s ->
  sewing_op o = true ->
  (forall s', f s = Ok s' -> exists l, grow s s' (l ++ [(x, y)]) /\ (plain_op o = true -> no_ties s -> l = [])) ->
  (if trimmed N s then open_section N c seq src pos x y s
   else if jumping N s then do s <- needle_to N s x y; Ok (set_jumping N s false)
   else f s) = Ok s' ->
  exists l, grow s s' l /\ sewn_here o x y l /\ only_here o x y s l.
Proof.
  intros c seq src pos x y s s' o f H Hs Hf E. unfold sewn_here, only_here. rewrite Hs.
  destruct (trimmed N s).
  - destruct (grow_open _ _ _ _ _ _ _ _ H E) as (l & G & L). exists ((x, y) :: l). split; [exact G|].
    split; [intros _; exists [], l; reflexivity|]. intros _ (T & _). rewrite (L T). reflexivity.
  - destruct (jumping N s).
    + destruct (needle_to N s x y) as [s1|] eqn:E1; [|discriminate]. cbn [bindr] in E. injection E as <-.
      destruct (grow_needle_to _ _ _ _ H E1) as [A B]. exists [(x, y)]. split; [split; [exact A|exact B]|].
      split; [intros _; exists [], []; reflexivity|reflexivity].
    + destruct (Hf s' E) as (l & G & L). exists (l ++ [(x, y)]). split; [exact G|].
      split; [intros _; exists l, []; reflexivity|]. intros Hp Hn. rewrite (L Hp Hn). reflexivity.
Qed.

Lemma exec_grow : forall c seq src pos rest a x y o s s', hi s -> matrix_op o = false ->
  exec N c seq src pos rest a x y o s = Ok s' ->
  hi s' /\ matrix N s' = matrix N s /\ (steady_op o = true -> keep s s') /\
  exists l, needle_points (out N s') = needle_points (out N s) ++ l /\ sewn_here o x y l /\ only_here o x y s l.
Proof.
  intros c seq src pos rest a x y o s s' H Hm E.
  assert (Done : (exists l, grow s s' l /\ sewn_here o x y l /\ only_here o x y s l) ->
     hi s' /\ matrix N s' = matrix N s /\ (steady_op o = true -> keep s s') /\
     exists l, needle_points (out N s') = needle_points (out N s) ++ l /\ sewn_here o x y l /\ only_here o x y s l).
  { intros (l & G & S & O). split; [exact (grow_hi _ _ _ G H)|]. destruct G as [A B].
    split; [apply B|]. split; [intros _; exact B|]. exists l. auto. }
  assert (Quiet : sewing_op o = false -> grow s s' [] ->
     exists l, grow s s' l /\ sewn_here o x y l /\ only_here o x y s l).
  { intros So G. exists []. unfold sewn_here, only_here. rewrite So. split; [exact G|]. split; [discriminate|auto]. }
  destruct o; cbn [exec] in E; try discriminate Hm.
  - (* nothing *) injection E as <-. apply Done, Quiet; [reflexivity|apply grow_refl].
  - apply Done. eapply sewing_grow with (f := fun s => stitch_with_contingency N s x y); [exact H|reflexivity| |exact E].
    intros s1 E1. destruct (grow_contingency _ _ _ _ H E1) as (l & G & L). exists l. split; [exact G|].
    intros _ (_ & _ & T). auto.
  - apply Done. eapply sewing_grow with (f := fun s => needle_to N s x y); [exact H|reflexivity| |exact E].
    intros s1 E1. exists []. split; [exact (grow_needle_to _ _ _ _ H E1)|auto].
  - apply Done. eapply sewing_grow with (f := fun s => sew_to N s x y); [exact H|reflexivity| |exact E].
    intros s1 E1. destruct (grow_sew_to _ _ _ _ H E1) as (l & G). exists l. split; [exact G|discriminate].
  - (* stitch break *) injection E as <-. apply Done, Quiet; [reflexivity|].
    split; [rewrite app_nil_r; reflexivity|unfold keep; attrs; auto].
  - (* frame eject *) apply Done.
    destruct (jump_to N _ x y) as [s2|] eqn:E2; [|discriminate]. cbn [bindr] in E. injection E as <-.
    destruct (grow_if_needed src pos s H) as (l & G & L).
    pose proof (grow_hi _ _ _ G H) as H1. pose proof (grow_jump_to _ _ _ _ H1 E2) as G2.
    pose proof (grow_hi _ _ _ G2 H1) as H2.
    destruct (grow_add s2 STOP (nx N s2) (ny N s2) H2) as [A B]; [unfold STOP; lia|].
    assert (G3 : grow s2 (stop_here N s2) []) by (split; [exact A|exact B]).
    exists (l ++ [] ++ []). split; [exact (grow_trans _ _ _ _ _ G (grow_trans _ _ _ _ _ G2 G3))|].
    split; [discriminate|]. intros _ (_ & T & _). rewrite (L T). reflexivity.
  - (* sequence break *) injection E as <-. apply Done. destruct (grow_if_needed src pos s H) as (l & G & L).
    exists l. split; [exact G|]. split; [discriminate|]. intros _ (_ & T & _). auto.
  - (* colour break *) apply Done. unfold color_break in E.
    destruct (order_index N s <? 0); [injection E as <-; apply Quiet; [reflexivity|apply grow_refl]|].
    cbv zeta in E. destruct (grow_close src pos s H) as (l & G & L).
    assert (O : only_here OpColorBreak x y s l) by (intros _ (_ & T & _); auto).
    destruct (negb (lookahead_stitch N rest)).
    + injection E as <-. exists l. split; [exact G|]. split; [discriminate|exact O].
    + destruct (next_change_sequence N c seq _) as [s2|] eqn:E2; [|discriminate]. cbn [bindr] in E. injection E as <-.
      pose proof (grow_trans _ _ _ _ _ G (grow_next _ _ _ _ E2)) as [A B]. rewrite app_nil_r in A.
      exists l. split; [split; [exact A|exact B]|]. split; [discriminate|exact O].
  - (* tie off *) injection E as <-. apply Done. destruct (grow_tie_off src pos s) as (l & G & L).
    exists l. split; [exact G|]. split; [discriminate|]. intros Hp; discriminate.
  - injection E as <-. apply Done. destruct (grow_tie_on src pos s) as (l & G & L).
    exists l. split; [exact G|]. split; [discriminate|]. intros Hp; discriminate.
  - (* trim *) injection E as <-. apply Done. destruct (grow_if_needed src pos s H) as (l & G & L).
    exists l. split; [exact G|]. split; [discriminate|]. intros _ (_ & T & _). auto.
  - (* jump *) apply Done, Quiet; [reflexivity|]. destruct (jumping N s); [injection E as <-; apply grow_refl|].
    eapply grow_jump_to; eassumption.
  - injection E as <-. apply Done, Quiet; [reflexivity|apply grow_toggle; exact H].
  - (* sequin eject *) apply Done.
    destruct (if trimmed N s then _ else _) as [s1|] eqn:E1; [|discriminate]. cbn [bindr] in E.
    assert (G1 : exists l, grow s s1 l).
    { destruct (trimmed N s); [destruct (grow_open _ _ _ _ _ _ _ _ H E1) as (l & G & _); eauto|].
      injection E1 as <-. exists []. apply grow_refl. }
    destruct G1 as (l1 & G1). pose proof (grow_hi _ _ _ G1 H) as H1.
    assert (G2 : grow s1 (if sequin_mode N s1 then s1 else toggle_sequins N s1) []).
    { destruct (sequin_mode N s1); [apply grow_refl|apply grow_toggle; exact H1]. }
    destruct (grow_sequin_at _ _ _ _ (grow_hi _ _ _ G2 H1) E) as (l3 & G3).
    exists (l1 ++ [] ++ l3). split; [exact (grow_trans _ _ _ _ _ G1 (grow_trans _ _ _ _ _ G2 G3))|].
    split; [discriminate|]. intros Hp; discriminate.
  - (* thread change *) apply Done. unfold tie_off_trim_color_change in E.
    destruct (grow_close src pos s H) as (l & G & L).
    destruct (next_change_sequence N c seq _) as [s2|] eqn:E2; [|discriminate]. cbn [bindr] in E. injection E as <-.
    pose proof (grow_trans _ _ _ _ _ G (grow_next _ _ _ _ E2)) as [A B]. rewrite app_nil_r in A.
    exists l. split; [split; [exact A|exact B]|]. split; [discriminate|]. intros _ (_ & T & _). auto.
  - (* stop *) injection E as <-. apply Done, Quiet; [reflexivity|].
    destruct (grow_add s STOP (nx N s) (ny N s) H) as [A B]; [unfold STOP; lia|]. split; [exact A|exact B].
  - injection E as <-. apply Done, Quiet; [reflexivity|]. destruct (writes_speeds c); [|apply grow_refl].
    apply (grow_add s SLOW (nx N s) (ny N s) H). unfold SLOW. lia.
  - injection E as <-. apply Done, Quiet; [reflexivity|]. destruct (writes_speeds c); [|apply grow_refl].
    apply (grow_add s FAST (nx N s) (ny N s) H). unfold FAST. lia.
  - (* end *) injection E as <-. apply Done, Quiet; [reflexivity|].
    destruct (grow_add s END (nx N s) (ny N s) H) as [A B]; [unfold END; lia|]. split; [exact A|exact B].
  - injection E as <-. split; [exact H|]. split; [reflexivity|]. split; [discriminate|].
    exists []. split; [rewrite app_nil_r; reflexivity|]. split; [discriminate|intros Hp; discriminate].
  - injection E as <-. split; [exact H|]. split; [reflexivity|]. split; [discriminate|].
    exists []. split; [rewrite app_nil_r; reflexivity|]. split; [discriminate|intros Hp; discriminate].
  - injection E as <-. apply Done, Quiet; [reflexivity|]. split; [rewrite app_nil_r; reflexivity|unfold keep; attrs; auto].
  - injection E as <-. apply Done, Quiet; [reflexivity|]. split; [rewrite app_nil_r; reflexivity|unfold keep; attrs; auto].
  - injection E as <-. apply Done, Quiet; [reflexivity|]. split; [rewrite app_nil_r; reflexivity|unfold keep; attrs; auto].
  - injection E as <-. split; [exact H|]. split; [reflexivity|]. split; [discriminate|].
    exists []. split; [rewrite app_nil_r; reflexivity|]. split; [discriminate|intros Hp; discriminate].
  - (* sequin contingency *) injection E as <-. apply Done, Quiet; [reflexivity|].
    assert (G : grow s (if negb (c0 =? CONTINGENCY_SEQUIN_UTILIZE) && sequin_mode N s then toggle_sequins N s else s) []).
    { destruct (_ && _); [apply grow_toggle; exact H|apply grow_refl]. }
    destruct G as [A B]. split; [exact A|exact B].
Qed.

(** ** The loop *)
Lemma subseq_nil_l : forall A (l : list A), subseq [] l.
Proof. induction l; constructor; assumption. Qed.
Lemma subseq_prefix : forall A (p q l : list A), subseq q l -> subseq q (p ++ l).
Proof. induction p; intros; cbn [app]; [assumption|constructor; auto]. Qed.
Lemma subseq_app : forall A (q1 q2 l1 l2 : list A), subseq q1 l1 -> subseq q2 l2 -> subseq (q1 ++ q2) (l1 ++ l2).
Proof. intros A q1 q2 l1 l2 H1 H2. induction H1; cbn [app]; [exact H2|constructor; assumption|constructor; assumption]. Qed.

Lemma sews_src_op : forall a : stitch F, sewing_op (classify (cmd_of (scmd a))) = sews_src a.
Proof.
  intros a. change (sews_src a) with ((cmd_of (scmd a) =? STITCH) || (cmd_of (scmd a) =? NEEDLE_AT)
    || (cmd_of (scmd a) =? SEW_TO)). generalize (cmd_of (scmd a)). intros k. unfold classify.
  repeat match goal with
  | |- context [if ?a =? ?b then _ else _] => destruct (Z.eqb_spec a b) as [->|]; [reflexivity|]
  end. reflexivity.
Qed.

Lemma main_loop_points : forall c seq src rest pos s s', hi s ->
  Forall (fun a => matrix_op (classify (cmd_of (scmd a))) = false) (until_end rest) ->
  main_loop N c seq src pos rest s = Ok s' ->
  exists qs l,
    Forall2 (fun a q => placed N c s a = Ok q) (filter sews_src (until_end rest)) qs /\
    needle_points (out N s') = needle_points (out N s) ++ l /\
    subseq qs l /\
    (no_ties s -> Forall (fun a => plain_op (classify (cmd_of (scmd a))) = true) (until_end rest) -> l = qs).
Proof.
  intros c seq src. induction rest as [|a rest IH]; intros pos s s' H Hm E; cbn [main_loop] in E.
  - injection E as <-. exists [], []. split; [constructor|].
    destruct (grow_add s END (nx N s) (ny N s) H) as [A B]; [unfold END; lia|].
    split; [exact A|]. split; [constructor|auto].
  - destruct (placed N c s a) as [[x y]|] eqn:Ep; [|discriminate]. cbn [bindr] in E.
    set (s0 := set_high N s (Z.land (scmd a) FLAGS_MASK)) in *.
    assert (H0 : hi s0) by (unfold hi, s0; attrs; apply high_flags_mask).
    destruct (exec N c seq src pos (a :: rest) a x y _ s0) as [s1|] eqn:E1; [|discriminate].
    cbn [bindr] in E. cbn [until_end] in *.
    change (is_cmd END a) with (cmd_of (scmd a) =? END) in *.
    destruct (Z.eqb_spec (cmd_of (scmd a)) END) as [Ee|Ee].
    + rewrite Ee in E1. change (classify END) with OpEnd in E1. cbn [exec] in E1. injection E1 as <-.
      injection E as <-. exists [], []. split; [constructor|].
      destruct (grow_add s0 END (nx N s0) (ny N s0) H0) as [A B]; [unfold END; lia|].
      split; [exact A|]. split; [constructor|auto].
    + apply Forall_cons_iff in Hm. destruct Hm as [Hm Hm'].
      destruct (exec_grow _ _ _ _ _ _ _ _ _ _ _ H0 Hm E1) as (H1 & M1 & K1 & l1 & P1 & S1 & O1).
      destruct (IH _ _ _ H1 Hm' E) as (qs & l & Q & P & S & O).
      assert (Q' : Forall2 (fun a q => placed N c s a = Ok q) (filter sews_src (until_end rest)) qs).
      { assert (X : forall b, placed N c s1 b = placed N c s b).
        { intros b. unfold placed. rewrite M1. reflexivity. }
        eapply Forall2_imp; [|exact Q]. intros b q' Hq. rewrite <- X. exact Hq. }
      cbn [filter]. rewrite <- sews_src_op.
      assert (Pt : needle_points (out N s') = needle_points (out N s) ++ l1 ++ l).
      { rewrite P, P1, <- app_assoc. reflexivity. }
      assert (Step : no_ties s -> plain_op (classify (cmd_of (scmd a))) = true ->
         no_ties s1 /\ l1 = if sewing_op (classify (cmd_of (scmd a))) then [(x, y)] else []).
      { intros Nt Hp. split; [|apply O1; assumption].
        assert (Hst : steady_op (classify (cmd_of (scmd a))) = true).
        { unfold plain_op in Hp. apply andb_prop in Hp. apply Hp. }
        destruct (K1 Hst) as (_ & _ & T1 & T2 & T3). unfold no_ties. rewrite T1, T2, T3. exact Nt. }
      destruct (sewing_op (classify (cmd_of (scmd a)))) eqn:So.
      * exists ((x, y) :: qs), (l1 ++ l). split; [constructor; [exact Ep|exact Q']|]. split; [exact Pt|].
        destruct (S1 So) as (a1 & a2 & ->). split.
        -- rewrite <- app_assoc. apply subseq_prefix. cbn [app]. apply sub_take. apply subseq_prefix. exact S.
        -- intros Nt Hp. apply Forall_cons_iff in Hp. destruct Hp as [Hp Hp'].
           destruct (Step Nt Hp) as [Nt1 L1]. rewrite L1, (O Nt1 Hp'). reflexivity.
      * exists qs, (l1 ++ l). split; [exact Q'|]. split; [exact Pt|]. split; [apply subseq_prefix; exact S|].
        intros Nt Hp. apply Forall_cons_iff in Hp. destruct Hp as [Hp Hp'].
        destruct (Step Nt Hp) as [Nt1 L1]. rewrite L1, (O Nt1 Hp'). reflexivity.
Qed.
End Sew.
