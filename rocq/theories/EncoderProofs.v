(** Invariants of the Transcoder, for every arithmetic. *)
From Coq Require Import ZArith List Bool Lia ZifyBool.
From Verif Require Import PyBase EmbConst BitLemmas FunctionsModel ThreadModel NumModel MatrixModel EncoderModel.
Import ListNotations.
Open Scope Z_scope.

(** ** Low byte of the emitted commands *)
Lemma cmd_lor_high : forall k h, 0 <= k < 256 -> Z.land h FLAGS_MASK = h -> cmd_of (Z.lor k h) = k.
Proof.
  intros k h Hk Hh. unfold cmd_of, COMMAND_MASK. rewrite Z.land_lor_distr_l.
  rewrite <- Hh at 1. rewrite <- Z.land_assoc. change (Z.land FLAGS_MASK 255) with 0.
  rewrite Z.land_0_r, Z.lor_0_r, land_ff. apply Z.mod_small. exact Hk.
Qed.

Lemma high_flags_mask : forall c, Z.land (Z.land c FLAGS_MASK) FLAGS_MASK = Z.land c FLAGS_MASK.
Proof. intros c. rewrite <- Z.land_assoc. reflexivity. Qed.

Lemma cmd_shiftl : forall v k, 8 <= k -> Z.land (Z.shiftl v k) 0xFF = 0.
Proof.
  intros v k H. rewrite land_ff, Z.shiftl_mul_pow2 by lia.
  replace k with (8 + (k - 8)) by lia. rewrite Z.pow_add_r by lia. change (2 ^ 8) with 256.
  rewrite (Z.mul_comm 256), Z.mul_assoc. apply Z.mod_mul. lia.
Qed.

Lemma cmd_thread_change : forall k t n o, 0 <= k < 256 -> cmd_of (encode_thread_change k t n o) = k.
Proof.
  intros k t n o Hk. unfold cmd_of, encode_thread_change, COMMAND_MASK.
  rewrite !Z.land_lor_distr_l, !cmd_shiftl by lia. rewrite !Z.lor_0_r, <- Z.land_assoc.
  change (Z.land 255 255) with 255. rewrite land_ff. apply Z.mod_small. exact Hk.
Qed.

(** Reduction of attribute reads and writes only. *)
Ltac attrs := cbn [out othreads nx ny order_index trimmed sequin_mode jumping high_flags max_stitch max_jump
  explicit_trim tie_on_contingency tie_off_contingency long_stitch_contingency sequin_contingency matrix
  append add_thread update_needle_position set_order set_trimmed set_sequin_mode set_jumping set_high
  set_limits set_contingencies set_matrix add_at add add_thread_change scmd sx sy].

(** ** A monitor for output command streams *)
Record mon := mkMon { m_sewn : bool; m_mode : bool; m_any : bool; m_changes : list Z }.
Definition mon0 : mon := mkMon false false false [].

Section Monitor.
(** [kind]: the thread change command; [seqs], [speeds]: whether sequin and speed commands are
    expected. *)
Variables (kind : Z) (seqs speeds : bool).

Definition mstep (m : mon) (full : Z) : option mon :=
  let c := cmd_of full in
  if c =? STITCH then Some (mkMon true (m_mode m) true (m_changes m))
  else if c =? JUMP then if m_mode m then None else Some m
  else if c =? TRIM then
    if m_mode m || negb (m_sewn m) then None else Some (mkMon false (m_mode m) (m_any m) (m_changes m))
  else if c =? STOP then Some (mkMon false (m_mode m) (m_any m) (m_changes m))
  else if c =? COLOR_CHANGE then
    if kind =? COLOR_CHANGE then Some (mkMon false (m_mode m) (m_any m) (m_changes m ++ [full])) else None
  else if c =? NEEDLE_SET then
    if kind =? NEEDLE_SET then Some (mkMon false (m_mode m) (m_any m) (m_changes m ++ [full])) else None
  else if c =? SEQUIN_MODE then
    if seqs then Some (mkMon (m_sewn m) (negb (m_mode m)) (m_any m) (m_changes m)) else None
  else if c =? SEQUIN_EJECT then
    if seqs && m_mode m then Some (mkMon (m_sewn m) (m_mode m) true (m_changes m)) else None
  else if (c =? SLOW) || (c =? FAST) then if speeds then Some m else None
  else None.

Fixpoint mrun (m : mon) (l : list Z) : option mon :=
  match l with
  | [] => Some m
  | c :: r => match mstep m c with Some m' => mrun m' r | None => None end
  end.

Lemma mrun_app : forall l1 l2 m, mrun m (l1 ++ l2) =
  match mrun m l1 with Some m' => mrun m' l2 | None => None end.
Proof.
  induction l1 as [|c l1 IH]; intros l2 m; cbn [app mrun]; [reflexivity|].
  destruct (mstep m c); [apply IH|reflexivity].
Qed.

End Monitor.

Section Inv.
Context (N : Num).
Notation F := (F N).
Notation st := (st N).
Variable c : config.
Variable seq : dict change.      (* the thread plan *)
Variable base : list tref.       (* the thread list at the start *)
Variable seqs : bool.     (* may the utilise contingency be in force? *)
Variable ties : bool.     (* may TIE_ON/TIE_OFF commands occur in the source? *)

Definition cmds (l : list (stitch F)) : list Z := map scmd l.

Notation step := (mstep (thread_change_command c) seqs (writes_speeds c)).
Notation run := (mrun (thread_change_command c) seqs (writes_speeds c)).

Definition enc (k : Z) (ch : change) : Z :=
  encode_thread_change k (Some (c_thread ch)) (Some (c_needle ch)) None.

(** The plan entries used so far, and the threads and commands they led to. *)
Definition plan_so_far (order : Z) (threads : list tref) (changes : list Z) (chs : list change) : Prop :=
  Z.of_nat (length chs) = order + 1 /\
  (forall k ch, nth_error chs k = Some ch -> dict_get (Z.of_nat k) seq = Some ch) /\
  (thread_change_command c = COLOR_CHANGE ->
     threads = base ++ map c_obj chs /\ changes = map (enc COLOR_CHANGE) (tl chs)) /\
  (thread_change_command c = NEEDLE_SET ->
     threads = base /\ changes = map (enc NEEDLE_SET) chs) /\
  (thread_change_command c = STOP -> threads = base ++ map c_obj chs).

Record Inv (s : st) (m : mon) : Prop := mkInv {
  i_run : run mon0 (cmds (out N s)) = Some m;
  i_mode : m_mode m = sequin_mode N s;
  i_seq : sequin_mode N s = true -> sequin_contingency N s = CONTINGENCY_SEQUIN_UTILIZE;
  i_allow : sequin_contingency N s = CONTINGENCY_SEQUIN_UTILIZE -> seqs = true;
  i_high : Z.land (high_flags N s) FLAGS_MASK = high_flags N s;
  i_order : -1 <= order_index N s;
  i_plan : exists chs, plan_so_far (order_index N s) (othreads N s) (m_changes m) chs;
  i_any : ties = false -> m_any m = true -> 0 <= order_index N s }.

(** An untrimmed state has sewn something since the last trim, stop or thread change. *)
Definition open_ok (s : st) (m : mon) : Prop :=
  trimmed N s = false -> m_sewn m = true /\ 0 <= order_index N s.

Definition can_sew (s : st) : Prop := ties = true \/ 0 <= order_index N s.

Lemma inv_append : forall s m m' a, Inv s m -> step m (scmd a) = Some m' ->
  m_mode m' = m_mode m -> m_changes m' = m_changes m ->
  (m_any m' = true -> m_any m = true \/ can_sew s) -> Inv (append N s a) m'.
Proof.
  intros s m m' a [R Mo Sq Al Hi Or Pl An] Hs Hm Hc Ha. constructor; attrs; cbn [m_sewn m_mode m_any m_changes]; try assumption.
  - unfold cmds in *. rewrite map_app, mrun_app, R. cbn [map mrun]. rewrite Hs. reflexivity.
  - congruence.
  - rewrite Hc. exact Pl.
  - intros E Em. destruct (Ha Em) as [H|[H|H]]; [auto|congruence|exact H].
Qed.

(** Updates that do not concern the invariant. *)
Lemma inv_needle : forall s m x y, Inv s m -> Inv (update_needle_position N s x y) m.
Proof. intros s m x y []. constructor; assumption. Qed.
Lemma inv_trimmed : forall s m b, Inv s m -> Inv (set_trimmed N s b) m.
Proof. intros s m b []. constructor; assumption. Qed.
Lemma inv_jumping : forall s m b, Inv s m -> Inv (set_jumping N s b) m.
Proof. intros s m b []. constructor; assumption. Qed.
Lemma inv_limits : forall s m a b, Inv s m -> Inv (set_limits N s a b) m.
Proof. intros s m a b []. constructor; assumption. Qed.
Lemma inv_matrix : forall s m a, Inv s m -> Inv (set_matrix N s a) m.
Proof. intros s m a []. constructor; assumption. Qed.
Lemma inv_high : forall s m v, Inv s m -> Inv (set_high N s (Z.land v FLAGS_MASK)) m.
Proof. intros s m v []. constructor; try assumption. apply high_flags_mask. Qed.

(** The emitted command is the wanted one. *)
Lemma add_at_cmd : forall s m k x y, Inv s m -> 0 <= k < 256 ->
  cmd_of (scmd (mkS x y (Z.lor k (high_flags N s)) : stitch F)) = k.
Proof. intros s m k x y H Hk. cbn [scmd]. apply cmd_lor_high; [exact Hk|apply (i_high _ _ H)]. Qed.

Lemma inv_stitch : forall s m x y, Inv s m -> can_sew s ->
  exists m', Inv (add_at N s STITCH x y) m' /\ m_sewn m' = true.
Proof.
  intros s m x y H Hc. exists (mkMon true (m_mode m) true (m_changes m)). split; [|reflexivity].
  apply inv_append with (m := m); [exact H| |reflexivity|reflexivity|auto].
  unfold mstep; cbv zeta; erewrite add_at_cmd; [reflexivity|exact H|]. unfold STITCH. lia.
Qed.

Lemma inv_jump : forall s m x y, Inv s m -> sequin_mode N s = false -> Inv (add_at N s JUMP x y) m.
Proof.
  intros s m x y H Hm. apply inv_append with (m := m); [exact H| |reflexivity|reflexivity|auto].
  unfold mstep; cbv zeta; erewrite add_at_cmd; [|exact H|unfold JUMP; lia]. cbn. rewrite (i_mode _ _ H), Hm. reflexivity.
Qed.

Lemma inv_trim : forall s m x y, Inv s m -> sequin_mode N s = false -> m_sewn m = true ->
  exists m', Inv (add_at N s TRIM x y) m'.
Proof.
  intros s m x y H Hm Hw. exists (mkMon false (m_mode m) (m_any m) (m_changes m)).
  apply inv_append with (m := m); [exact H| |reflexivity|reflexivity|auto].
  unfold mstep; cbv zeta; erewrite add_at_cmd; [|exact H|unfold TRIM; lia]. cbn. rewrite (i_mode _ _ H), Hm, Hw. reflexivity.
Qed.

Lemma inv_stop : forall s m x y, Inv s m -> exists m', Inv (add_at N s STOP x y) m'.
Proof.
  intros s m x y H. exists (mkMon false (m_mode m) (m_any m) (m_changes m)).
  apply inv_append with (m := m); [exact H| |reflexivity|reflexivity|auto].
  unfold mstep; cbv zeta; erewrite add_at_cmd; [reflexivity|exact H|unfold STOP; lia].
Qed.

Lemma inv_speed : forall s m k, Inv s m -> k = SLOW \/ k = FAST -> writes_speeds c = true ->
  Inv (add N s k) m.
Proof.
  intros s m k H Hk Hw. apply inv_append with (m := m); [exact H| |reflexivity|reflexivity|auto].
  unfold mstep; cbv zeta; erewrite add_at_cmd; [|exact H|destruct Hk; subst k; unfold SLOW, FAST; lia].
  destruct Hk; subst k; cbn; rewrite Hw; reflexivity.
Qed.

Lemma inv_eject : forall s m x y, Inv s m -> sequin_mode N s = true -> can_sew s ->
  exists m', Inv (add_at N s SEQUIN_EJECT x y) m' /\ m_sewn m' = m_sewn m.
Proof.
  intros s m x y H Hm Hc. exists (mkMon (m_sewn m) (m_mode m) true (m_changes m)). split; [|reflexivity].
  apply inv_append with (m := m); [exact H| |reflexivity|reflexivity|auto].
  unfold mstep; cbv zeta; erewrite add_at_cmd; [|exact H|unfold SEQUIN_EJECT; lia]. cbn.
  rewrite (i_mode _ _ H), Hm, (i_allow _ _ H (i_seq _ _ H Hm)). reflexivity.
Qed.

(** Sequin toggling: the mode follows, trimming state and sewn are kept. *)
Lemma inv_toggle : forall s m, Inv s m -> exists m', Inv (toggle_sequins N s) m' /\
  m_sewn m' = m_sewn m.
Proof.
  intros s m H. unfold toggle_sequins.
  destruct (Z.eqb_spec (sequin_contingency N s) CONTINGENCY_SEQUIN_UTILIZE) as [E|E];
    [|exists m; split; [exact H|reflexivity]].
  exists (mkMon (m_sewn m) (negb (m_mode m)) (m_any m) (m_changes m)). split; [|reflexivity].
  pose proof (i_allow _ _ H E) as Hall. destruct H as [R Mo Sq Al Hi Or Pl An].
  constructor; attrs; cbn [m_sewn m_mode m_any m_changes]; try assumption.
  - unfold cmds in *. rewrite map_app, mrun_app, R. cbn [map mrun scmd].
    unfold mstep; cbv zeta. rewrite cmd_lor_high; [|unfold SEQUIN_MODE; lia|exact Hi]. cbn. rewrite Hall. reflexivity.
  - rewrite Mo. reflexivity.
  - intros _. exact E.
Qed.

Lemma toggle_off : forall s m, Inv s m -> sequin_mode N s = true -> sequin_mode N (toggle_sequins N s) = false.
Proof.
  intros s m H Hm. unfold toggle_sequins. rewrite (i_seq _ _ H Hm). cbn. rewrite Hm. reflexivity.
Qed.

Lemma toggle_keeps : forall s, trimmed N (toggle_sequins N s) = trimmed N s /\
  order_index N (toggle_sequins N s) = order_index N s /\
  sequin_contingency N (toggle_sequins N s) = sequin_contingency N s.
Proof. intros s. unfold toggle_sequins. destruct (_ =? _); repeat split. Qed.

(** "if mode on: toggle" switches it off. *)
Lemma inv_leave_mode : forall s m, Inv s m ->
  let s' := if sequin_mode N s then toggle_sequins N s else s in
  exists m', Inv s' m' /\ m_sewn m' = m_sewn m /\ sequin_mode N s' = false /\
    trimmed N s' = trimmed N s /\ order_index N s' = order_index N s /\
    sequin_contingency N s' = sequin_contingency N s.
Proof.
  intros s m H. destruct (sequin_mode N s) eqn:E; cbn zeta.
  - destruct (inv_toggle s m H) as (m' & H' & Es). exists m'. destruct (toggle_keeps s) as (A & B & C).
    pose proof (toggle_off s m H E). auto 7.
  - exists m. auto 7.
Qed.

(** ** Gap filling *)
Lemma gap_loop_jump : forall n qx qy ax ay cmd s m, Inv s m -> sequin_mode N s = false ->
  cmd_of cmd = JUMP ->
  let s' := gap_loop N n qx qy ax ay cmd s in
  Inv s' m /\ trimmed N s' = trimmed N s /\ order_index N s' = order_index N s /\
  sequin_mode N s' = sequin_mode N s /\ sequin_contingency N s' = sequin_contingency N s.
Proof.
  induction n as [|n IH]; intros qx qy ax ay cmd s m H Hm Hc; cbn [gap_loop]; [auto|].
  cbv zeta.
  set (s1 := update_needle_position N (append N s (mkS (fadd N qx ax) (fadd N qy ay) cmd))
       (fadd N qx ax) (fadd N qy ay)).
  destruct (IH (fadd N qx ax) (fadd N qy ay) ax ay cmd s1 m) as (A & B & C & D & E).
  - apply inv_needle. apply inv_append with (m := m); [exact H| |reflexivity|reflexivity|auto].
    unfold mstep; cbv zeta; cbn [scmd]. rewrite Hc. cbn. rewrite (i_mode _ _ H), Hm. reflexivity.
  - exact Hm.
  - exact Hc.
  - auto.
Qed.

Lemma gap_loop_stitch : forall n qx qy ax ay cmd s m, Inv s m -> can_sew s -> cmd_of cmd = STITCH ->
  let s' := gap_loop N n qx qy ax ay cmd s in
  exists m', Inv s' m' /\ (m_sewn m = true -> m_sewn m' = true) /\ trimmed N s' = trimmed N s /\
  order_index N s' = order_index N s /\
  sequin_mode N s' = sequin_mode N s /\ sequin_contingency N s' = sequin_contingency N s.
Proof.
  induction n as [|n IH]; intros qx qy ax ay cmd s m H Hs Hc; cbn [gap_loop]; [exists m; auto 7|].
  cbv zeta.
  set (s1 := update_needle_position N (append N s (mkS (fadd N qx ax) (fadd N qy ay) cmd))
       (fadd N qx ax) (fadd N qy ay)).
  destruct (IH (fadd N qx ax) (fadd N qy ay) ax ay cmd s1 (mkMon true (m_mode m) true (m_changes m)))
    as (m' & A & B & C).
  - apply inv_needle. apply inv_append with (m := m); [exact H| |reflexivity|reflexivity|auto].
    unfold mstep; cbv zeta; cbn [scmd]. rewrite Hc. reflexivity.
  - exact Hs.
  - exact Hc.
  - exists m'. split; [exact A|]. split; [auto|]. exact C.
Qed.

(** The fields that control flow looks at. *)
Definition same_flow (s s' : st) : Prop :=
  trimmed N s' = trimmed N s /\ order_index N s' = order_index N s /\
  sequin_contingency N s' = sequin_contingency N s.

Lemma interpolate_jump : forall s s' m x0 y0 x1 y1 l, Inv s m ->
  interpolate_gap_stitches N s x0 y0 x1 y1 l JUMP = Ok s' ->
  exists m', Inv s' m' /\ m_sewn m' = m_sewn m /\ same_flow s s'.
Proof.
  intros s s' m x0 y0 x1 y1 l H E. unfold interpolate_gap_stitches in E.
  destruct l as [l|]; [|injection E as <-; exists m; unfold same_flow; auto 9].
  destruct (exceeds N _ _ || exceeds N _ _); [|injection E as <-; exists m; unfold same_flow; auto 9].
  change (JUMP =? JUMP) with true in E. rewrite andb_true_l in E.
  destruct (inv_leave_mode s m H) as (m1 & H1 & Es & Em & A & B & C).
  set (s1 := if sequin_mode N s then toggle_sequins N s else s) in *.
  destruct (fdiv N (fsub N x1 x0) l) as [rx|]; [|discriminate]. cbn [bindr] in E.
  destruct (fceil N (fabs N rx)) as [stx|]; [|discriminate]. cbn [bindr] in E.
  destruct (fdiv N (fsub N y1 y0) l) as [ry|]; [|discriminate]. cbn [bindr] in E.
  destruct (fceil N (fabs N ry)) as [sty|]; [|discriminate]. cbn [bindr] in E.
  destruct (fdivz N (fsub N x1 x0) _) as [ax|]; [|discriminate]. cbn [bindr] in E.
  destruct (fdivz N (fsub N y1 y0) _) as [ay|]; [|discriminate]. cbn [bindr] in E.
  injection E as <-.
  destruct (gap_loop_jump (Z.to_nat ((if sty <? stx then stx else sty) - 1)) x0 y0 ax ay
    (Z.lor JUMP (high_flags N s1)) s1 m1 H1 Em) as (A1 & B1 & C1 & D1 & E1).
  - apply cmd_lor_high; [unfold JUMP; lia|apply (i_high _ _ H1)].
  - exists m1. split; [exact A1|]. split; [exact Es|]. split; [exact (eq_trans B1 A)|split; [exact (eq_trans C1 B)|exact (eq_trans E1 C)]].
Qed.

Lemma interpolate_stitch : forall s s' m x0 y0 x1 y1 l, Inv s m -> can_sew s ->
  interpolate_gap_stitches N s x0 y0 x1 y1 l STITCH = Ok s' ->
  exists m', Inv s' m' /\ (m_sewn m = true -> m_sewn m' = true) /\ same_flow s s' /\
    sequin_mode N s' = sequin_mode N s.
Proof.
  intros s s' m x0 y0 x1 y1 l H Hs E. unfold interpolate_gap_stitches in E.
  destruct l as [l|]; [|injection E as <-; exists m; unfold same_flow; auto 9].
  destruct (exceeds N _ _ || exceeds N _ _); [|injection E as <-; exists m; unfold same_flow; auto 9].
  change (STITCH =? JUMP) with false in E. rewrite andb_false_l in E.
  destruct (fdiv N (fsub N x1 x0) l) as [rx|]; [|discriminate]. cbn [bindr] in E.
  destruct (fceil N (fabs N rx)) as [stx|]; [|discriminate]. cbn [bindr] in E.
  destruct (fdiv N (fsub N y1 y0) l) as [ry|]; [|discriminate]. cbn [bindr] in E.
  destruct (fceil N (fabs N ry)) as [sty|]; [|discriminate]. cbn [bindr] in E.
  destruct (fdivz N (fsub N x1 x0) _) as [ax|]; [|discriminate]. cbn [bindr] in E.
  destruct (fdivz N (fsub N y1 y0) _) as [ay|]; [|discriminate]. cbn [bindr] in E.
  injection E as <-.
  destruct (gap_loop_stitch (Z.to_nat ((if sty <? stx then stx else sty) - 1)) x0 y0 ax ay
    (Z.lor STITCH (high_flags N s)) s m H Hs) as (m' & A1 & B1 & C1 & D1 & E1 & F1).
  - apply cmd_lor_high; [unfold STITCH; lia|apply (i_high _ _ H)].
  - exists m'. split; [exact A1|]. split; [exact B1|]. split; [split; [exact C1|split; [exact D1|exact F1]]|exact E1].
Qed.

(** ** The methods *)
Lemma stitch_at_inv : forall s m x y, Inv s m -> can_sew s ->
  exists m', Inv (stitch_at N s x y) m' /\ m_sewn m' = true /\ same_flow s (stitch_at N s x y).
Proof.
  intros s m x y H Hs. destruct (inv_stitch s m x y H Hs) as (m' & H' & E). exists m'.
  split; [apply inv_needle; exact H'|]. split; [exact E|]. repeat split.
Qed.

Lemma jump_at_inv : forall s m x y, Inv s m ->
  exists m', Inv (jump_at N s x y) m' /\ m_sewn m' = m_sewn m /\ same_flow s (jump_at N s x y).
Proof.
  intros s m x y H. unfold jump_at.
  destruct (inv_leave_mode s m H) as (m1 & H1 & Es & Em & A & B & C).
  exists m1. split; [apply inv_needle, inv_jump; assumption|]. split; [exact Es|].
  unfold same_flow. cbn. auto.
Qed.

Lemma can_sew_flow : forall s s', same_flow s s' -> can_sew s -> can_sew s'.
Proof. intros s s' (_ & E & _) [H|H]; [left; exact H|right; lia]. Qed.

Lemma same_flow_trans : forall a b d, same_flow a b -> same_flow b d -> same_flow a d.
Proof. unfold same_flow. intros a b d (A & B & C) (D & E & G). rewrite D, E, G. auto. Qed.

Lemma jump_within_inv : forall s s' m x y, Inv s m ->
  jump_to_within_stitchrange N c s x y = Ok s' ->
  exists m', Inv s' m' /\ m_sewn m' = m_sewn m /\ same_flow s s'.
Proof.
  intros s s' m x y H E. unfold jump_to_within_stitchrange in E.
  destruct (interpolate_gap_stitches _ _ _ _ _ _ _ _) as [s1|] eqn:E1; [|discriminate].
  cbn [bindr] in E. destruct (interpolate_jump _ _ _ _ _ _ _ _ H E1) as (m1 & H1 & W1 & F1).
  destruct (full_jump c).
  - destruct (_ || _); injection E as <-.
    + destruct (jump_at_inv s1 m1 x y H1) as (m2 & H2 & W2 & F2). exists m2.
      split; [exact H2|]. split; [congruence|]. eapply same_flow_trans; eassumption.
    + exists m1. auto.
  - injection E as <-. exists m1. auto.
Qed.

Lemma jump_to_inv : forall s s' m x y, Inv s m -> jump_to N s x y = Ok s' ->
  exists m', Inv s' m' /\ m_sewn m' = m_sewn m /\ same_flow s s'.
Proof.
  intros s s' m x y H E. unfold jump_to in E.
  destruct (interpolate_gap_stitches _ _ _ _ _ _ _ _) as [s1|] eqn:E1; [|discriminate].
  cbn [bindr] in E. injection E as <-.
  destruct (interpolate_jump _ _ _ _ _ _ _ _ H E1) as (m1 & H1 & W1 & F1).
  destruct (jump_at_inv s1 m1 x y H1) as (m2 & H2 & W2 & F2). exists m2.
  split; [exact H2|]. split; [congruence|]. eapply same_flow_trans; eassumption.
Qed.

Lemma needle_to_inv : forall s s' m x y, Inv s m -> can_sew s -> needle_to N s x y = Ok s' ->
  exists m', Inv s' m' /\ m_sewn m' = true /\ same_flow s s'.
Proof.
  intros s s' m x y H Hs E. unfold needle_to in E.
  destruct (interpolate_gap_stitches _ _ _ _ _ _ _ _) as [s1|] eqn:E1; [|discriminate].
  cbn [bindr] in E. injection E as <-.
  destruct (interpolate_jump _ _ _ _ _ _ _ _ H E1) as (m1 & H1 & W1 & F1).
  destruct (stitch_at_inv s1 m1 x y H1 (can_sew_flow _ _ F1 Hs)) as (m2 & H2 & W2 & F2). exists m2.
  split; [exact H2|]. split; [exact W2|]. eapply same_flow_trans; eassumption.
Qed.

Lemma sew_to_inv : forall s s' m x y, Inv s m -> can_sew s -> sew_to N s x y = Ok s' ->
  exists m', Inv s' m' /\ m_sewn m' = true /\ same_flow s s'.
Proof.
  intros s s' m x y H Hs E. unfold sew_to in E.
  destruct (interpolate_gap_stitches _ _ _ _ _ _ _ _) as [s1|] eqn:E1; [|discriminate].
  cbn [bindr] in E. injection E as <-.
  destruct (interpolate_stitch _ _ _ _ _ _ _ _ H Hs E1) as (m1 & H1 & W1 & F1 & _).
  destruct (stitch_at_inv s1 m1 x y H1 (can_sew_flow _ _ F1 Hs)) as (m2 & H2 & W2 & F2). exists m2.
  split; [exact H2|]. split; [exact W2|]. eapply same_flow_trans; eassumption.
Qed.

Lemma contingency_inv : forall s s' m x y, Inv s m -> can_sew s ->
  stitch_with_contingency N s x y = Ok s' ->
  exists m', Inv s' m' /\ m_sewn m' = true /\ same_flow s s'.
Proof.
  intros s s' m x y H Hs E. unfold stitch_with_contingency in E.
  destruct (_ =? _); [eapply sew_to_inv; eassumption|].
  destruct (_ =? _); [eapply needle_to_inv; eassumption|].
  injection E as <-. apply stitch_at_inv with (m := m); assumption.
Qed.

Lemma sequin_at_inv : forall s s' m x y, Inv s m -> can_sew s ->
  (sequin_contingency N s = CONTINGENCY_SEQUIN_UTILIZE -> sequin_mode N s = true) ->
  sequin_at N s x y = Ok s' ->
  exists m', Inv s' m' /\ (m_sewn m = true -> m_sewn m' = true) /\ same_flow s s'.
Proof.
  intros s s' m x y H Hs Hu E. unfold sequin_at in E.
  destruct (sequin_contingency N s =? CONTINGENCY_SEQUIN_REMOVE);
    [injection E as <-; exists m; unfold same_flow; auto 9|].
  destruct (interpolate_gap_stitches _ _ _ _ _ _ _ _) as [s1|] eqn:E1; [|discriminate].
  cbn [bindr] in E. injection E as <-.
  destruct (interpolate_stitch _ _ _ _ _ _ _ _ H Hs E1) as (m1 & H1 & W1 & F1 & Em).
  pose proof (can_sew_flow _ _ F1 Hs) as Hs1. pose proof F1 as (_ & _ & Ec).
  destruct (Z.eqb_spec (sequin_contingency N s) CONTINGENCY_SEQUIN_UTILIZE) as [Eu|Eu].
  - destruct (inv_eject s1 m1 x y H1) as (m2 & H2 & W2).
    + rewrite Em. auto.
    + exact Hs1.
    + exists m2. split; [apply inv_needle; exact H2|]. split; [intros; rewrite W2; auto|]. exact F1.
  - assert (Hoff : sequin_mode N s1 = false).
    { destruct (sequin_mode N s1) eqn:Es; [|reflexivity]. exfalso. apply Eu. rewrite <- Ec. apply (i_seq _ _ H1 Es). }
    destruct (sequin_contingency N s =? CONTINGENCY_SEQUIN_JUMP).
    { exists m1. split; [apply inv_needle, inv_jump; assumption|]. split; [exact W1|]. exact F1. }
    destruct (sequin_contingency N s =? CONTINGENCY_SEQUIN_STITCH).
    { destruct (inv_stitch s1 m1 x y H1 Hs1) as (m2 & H2 & W2). exists m2.
      split; [apply inv_needle; exact H2|]. split; [auto|]. exact F1. }
    exists m1. split; [apply inv_needle; exact H1|]. split; [exact W1|]. exact F1.
Qed.

Lemma plain_stitch_inv : forall s m x y, Inv s m -> can_sew s ->
  exists m', Inv (append N s (mkS x y STITCH)) m' /\ m_sewn m' = true.
Proof.
  intros s m x y H Hs. exists (mkMon true (m_mode m) true (m_changes m)). split; [|reflexivity].
  apply inv_append with (m := m); [exact H|reflexivity|reflexivity|reflexivity|auto].
Qed.

Lemma lock_inv : forall s m x y ax ay l, Inv s m -> can_sew s ->
  exists m', Inv (lock_stitch N s x y ax ay l) m' /\ m_sewn m' = true /\
    same_flow s (lock_stitch N s x y ax ay l) /\ explicit_trim N (lock_stitch N s x y ax ay l) = explicit_trim N s.
Proof.
  intros s m x y ax ay l H Hs. unfold lock_stitch.
  destruct (match l with Fin _ l0 => _ | Inf _ => _ end) as [bx by']. cbv zeta.
  edestruct plain_stitch_inv as (m1 & H1 & _); [exact H|exact Hs|].
  edestruct plain_stitch_inv as (m2 & H2 & _); [exact H1|exact Hs|].
  edestruct plain_stitch_inv as (m3 & H3 & _); [exact H2|exact Hs|].
  edestruct plain_stitch_inv as (m4 & H4 & W4); [exact H3|exact Hs|].
  exists m4. split; [exact H4|]. split; [exact W4|]. repeat split.
Qed.

Lemma lock_towards_inv : forall s m b, Inv s m -> can_sew s ->
  exists m', Inv (lock_towards N s b) m' /\ (m_sewn m = true -> m_sewn m' = true) /\
    same_flow s (lock_towards N s b) /\ explicit_trim N (lock_towards N s b) = explicit_trim N s.
Proof.
  intros s m b H Hs. unfold lock_towards. destruct b as [b|]; [|exists m; unfold same_flow; auto 9].
  destruct (point_in_matrix_space _ _ _ _) as [bx by'].
  destruct (is_anchor (scmd b)); [|exists m; unfold same_flow; auto 9].
  destruct (lock_inv s m (nx N s) (ny N s) bx by' (max_stitch N s) H Hs) as (m' & A & B & C & D).
  exists m'. auto.
Qed.

Lemma tie_off_inv : forall src pos s m, Inv s m -> can_sew s ->
  exists m', Inv (tie_off N src pos s) m' /\ (m_sewn m = true -> m_sewn m' = true) /\
    same_flow s (tie_off N src pos s) /\ explicit_trim N (tie_off N src pos s) = explicit_trim N s.
Proof.
  intros src pos s m H Hs. unfold tie_off.
  destruct (_ =? _); [apply lock_towards_inv; assumption|exists m; unfold same_flow; auto 9].
Qed.
Lemma tie_on_inv : forall src pos s m, Inv s m -> can_sew s ->
  exists m', Inv (tie_on N src pos s) m' /\ (m_sewn m = true -> m_sewn m' = true) /\
    same_flow s (tie_on N src pos s) /\ explicit_trim N (tie_on N src pos s) = explicit_trim N s.
Proof.
  intros src pos s m H Hs. unfold tie_on.
  destruct (_ =? _); [apply lock_towards_inv; assumption|exists m; unfold same_flow; auto 9].
Qed.

Lemma trim_here_inv : forall s m, Inv s m -> m_sewn m = true ->
  exists m', Inv (trim_here N s) m' /\ trimmed N (trim_here N s) = true /\
    order_index N (trim_here N s) = order_index N s /\
    sequin_contingency N (trim_here N s) = sequin_contingency N s.
Proof.
  intros s m H W. unfold trim_here.
  destruct (inv_leave_mode s m H) as (m1 & H1 & Es & Em & A & B & C).
  destruct (inv_trim _ m1 (nx N (if sequin_mode N s then toggle_sequins N s else s))
     (ny N (if sequin_mode N s then toggle_sequins N s else s)) H1 Em ltac:(congruence)) as (m2 & H2).
  exists m2. split; [apply inv_trimmed; exact H2|]. cbn. auto.
Qed.

Lemma open_can_sew : forall s m, open_ok s m -> trimmed N s = false -> can_sew s.
Proof. intros s m H E. right. apply (H E). Qed.

Lemma close_section_inv : forall src pos s m, Inv s m -> open_ok s m ->
  exists m', Inv (close_section N src pos s) m' /\ open_ok (close_section N src pos s) m' /\
    order_index N (close_section N src pos s) = order_index N s /\
    sequin_contingency N (close_section N src pos s) = sequin_contingency N s.
Proof.
  intros src pos s m H Ho. unfold close_section. destruct (trimmed N s) eqn:Et; cbn [negb].
  - exists m. auto.
  - destruct (tie_off_inv src pos s m H (open_can_sew s m Ho Et)) as (m1 & H1 & W1 & F1 & X1).
    destruct (Ho Et) as [Hw Hr]. specialize (W1 Hw). pose proof F1 as (A1 & B1 & C1).
    destruct (explicit_trim N (tie_off N src pos s)).
    + destruct (trim_here_inv _ m1 H1 W1) as (m2 & H2 & T2 & O2 & S2). exists m2.
      split; [exact H2|]. split; [intros E; congruence|]. split; congruence.
    + exists m1. split; [exact H1|]. split; [intros _; split; [exact W1|lia]|]. auto.
Qed.

Lemma trim_if_needed_inv : forall src pos s m, Inv s m -> open_ok s m ->
  let s' := tie_off_and_trim_if_needed N src pos s in
  exists m', Inv s' m' /\ open_ok s' m' /\ order_index N s' = order_index N s /\
    sequin_contingency N s' = sequin_contingency N s.
Proof.
  intros src pos s m H Ho. cbv zeta. unfold tie_off_and_trim_if_needed. destruct (trimmed N s) eqn:Et; cbn [negb].
  - exists m. auto.
  - destruct (tie_off_inv src pos s m H (open_can_sew s m Ho Et)) as (m1 & H1 & W1 & F1 & X1).
    destruct (Ho Et) as [Hw Hr]. specialize (W1 Hw). pose proof F1 as (A1 & B1 & C1).
    destruct (trim_here_inv _ m1 H1 W1) as (m2 & H2 & T2 & O2 & S2). exists m2.
    split; [exact H2|]. split; [intros E; congruence|]. split; congruence.
Qed.

Lemma plan_next : forall order threads changes chs ch, plan_so_far order threads changes chs ->
  dict_get (order + 1) seq = Some ch ->
  Z.of_nat (length (chs ++ [ch])) = order + 1 + 1 /\
  (forall k ch', nth_error (chs ++ [ch]) k = Some ch' -> dict_get (Z.of_nat k) seq = Some ch').
Proof.
  intros order threads changes chs ch (L & G & _) E. split; [rewrite app_length; cbn [length]; lia|].
  intros k ch' Hk. destruct (Nat.lt_ge_cases k (length chs)) as [Hl|Hl].
  - rewrite nth_error_app1 in Hk by exact Hl. apply G. exact Hk.
  - rewrite nth_error_app2 in Hk by exact Hl. destruct (k - length chs)%nat as [|n] eqn:En.
    + cbn in Hk. injection Hk as <-. replace (Z.of_nat k) with (order + 1) by lia. exact E.
    + destruct n; discriminate.
Qed.

Ltac kinds := intros; exfalso; unfold COLOR_CHANGE, NEEDLE_SET, STOP in *; lia.

Lemma next_change_inv : forall s s' m, Inv s m ->
  next_change_sequence N c seq s = Ok s' ->
  exists m', Inv s' m' /\ trimmed N s' = true /\ order_index N s' = order_index N s + 1 /\
    sequin_contingency N s' = sequin_contingency N s.
Proof.
  intros s s' m H E. unfold next_change_sequence in E.
  change (order_index N (set_order N s (order_index N s + 1))) with (order_index N s + 1) in E.
  destruct (dict_get (order_index N s + 1) seq) as [ch|] eqn:Eg; [|discriminate].
  injection E as <-. pose proof (i_order _ _ H) as Ho.
  destruct H as [R Mo Sq Al Hi Or Pl An].
  destruct Pl as (chs & Pl). destruct (plan_next _ _ _ _ _ Pl Eg) as [L' G'].
  destruct Pl as (L & G & P1 & P2 & P3).
  destruct (Z.eqb_spec (thread_change_command c) COLOR_CHANGE) as [Ek|Ek].
  - destruct (P1 Ek) as [T1 C1]. destruct (Z.eqb_spec (order_index N s + 1) 0) as [Ez|Ez]; cbn [negb].
    + exists m. split; [|repeat split].
      constructor; attrs; try assumption; try lia.
      exists (chs ++ [ch]). split; [exact L'|]. split; [exact G'|]. split; [|split; kinds].
      intros _. rewrite map_app, app_assoc, T1. split; [reflexivity|].
      destruct chs; [|cbn [length] in L; lia]. rewrite C1. reflexivity.
    + exists (mkMon false (m_mode m) (m_any m) (m_changes m ++ [enc COLOR_CHANGE ch])). split; [|repeat split].
      constructor; attrs; cbn [m_sewn m_mode m_any m_changes]; try assumption; try lia.
      * unfold cmds in *. rewrite map_app, mrun_app, R. cbn [map mrun scmd].
        unfold mstep; cbv zeta. rewrite cmd_thread_change by (unfold COLOR_CHANGE; lia). cbn [Z.eqb].
        rewrite (proj2 (Z.eqb_eq _ _) Ek). reflexivity.
      * exists (chs ++ [ch]). split; [exact L'|]. split; [exact G'|]. split; [|split; kinds].
        intros _. rewrite map_app, app_assoc, T1. split; [reflexivity|].
        destruct chs as [|c0 chs]; [cbn [length] in L; lia|]. cbn [tl app]. rewrite map_app, C1. reflexivity.
  - destruct (Z.eqb_spec (thread_change_command c) NEEDLE_SET) as [En|En].
    + destruct (P2 En) as [T1 C1].
      exists (mkMon false (m_mode m) (m_any m) (m_changes m ++ [enc NEEDLE_SET ch])). split; [|repeat split].
      constructor; attrs; cbn [m_sewn m_mode m_any m_changes]; try assumption; try lia.
      * unfold cmds in *. rewrite map_app, mrun_app, R. cbn [map mrun scmd].
        unfold mstep; cbv zeta. rewrite cmd_thread_change by (unfold NEEDLE_SET; lia). cbn [Z.eqb].
        rewrite (proj2 (Z.eqb_eq _ _) En). reflexivity.
      * exists (chs ++ [ch]). split; [exact L'|]. split; [exact G'|]. split; [kinds|].
        split; [|kinds]. intros _. rewrite map_app, C1. split; [exact T1|reflexivity].
    + destruct (Z.eqb_spec (thread_change_command c) STOP) as [Es|Es].
      * exists (mkMon false (m_mode m) (m_any m) (m_changes m)). split; [|repeat split].
        constructor; attrs; cbn [m_sewn m_mode m_any m_changes]; try assumption; try lia.
        -- unfold cmds in *. rewrite map_app, mrun_app, R. cbn [map mrun scmd].
           unfold mstep; cbv zeta. rewrite cmd_thread_change by (unfold STOP; lia). reflexivity.
        -- exists (chs ++ [ch]). split; [exact L'|]. split; [exact G'|]. split; [kinds|].
           split; [kinds|]. intros _. rewrite map_app, app_assoc, (P3 Es). reflexivity.
      * exists m. split; [|repeat split].
        constructor; attrs; cbn [m_sewn m_mode m_any m_changes]; try assumption; try lia.
        exists (chs ++ [ch]). split; [exact L'|]. split; [exact G'|]. split; [kinds|].
        split; kinds.
Qed.

Lemma declare_inv : forall s s' m, Inv s m -> trimmed N s = true ->
  declare_not_trimmed N c seq s = Ok s' ->
  exists m', Inv s' m' /\ trimmed N s' = false /\ order_index N s' = Z.max 0 (order_index N s) /\
    sequin_contingency N s' = sequin_contingency N s.
Proof.
  intros s s' m H Ht E. unfold declare_not_trimmed in E.
  destruct (Z.eqb_spec (order_index N s) (-1)) as [Eo|Eo].
  - destruct (next_change_sequence N c seq s) as [s1|] eqn:E1; [|discriminate].
    cbn [bindr] in E. injection E as <-.
    destruct (next_change_inv s s1 m H E1) as (m1 & H1 & T1 & O1 & S1).
    exists m1. split; [apply inv_trimmed; exact H1|]. cbn. repeat split; [lia|exact S1].
  - cbn [bindr] in E. injection E as <-. exists m. split; [apply inv_trimmed; exact H|].
    cbn. repeat split. pose proof (i_order _ _ H). lia.
Qed.

Lemma open_section_inv : forall src pos x y s s' m, Inv s m -> trimmed N s = true ->
  open_section N c seq src pos x y s = Ok s' ->
  exists m', Inv s' m' /\ trimmed N s' = false /\ m_sewn m' = true /\ order_index N s' = Z.max 0 (order_index N s) /\
    sequin_contingency N s' = sequin_contingency N s.
Proof.
  intros src pos x y s s' m H Ht E. unfold open_section in E.
  destruct (declare_not_trimmed N c seq s) as [s1|] eqn:E1; [|discriminate]. cbn [bindr] in E.
  destruct (declare_inv s s1 m H Ht E1) as (m1 & H1 & T1 & O1 & S1).
  destruct (jump_to_within_stitchrange N c s1 x y) as [s2|] eqn:E2; [|discriminate]. cbn [bindr] in E.
  injection E as <-.
  destruct (jump_within_inv s1 s2 m1 x y H1 E2) as (m2 & H2 & W2 & F2). pose proof F2 as (T2 & O2 & S2).
  assert (Hs2 : can_sew s2) by (right; lia).
  destruct (stitch_at_inv s2 m2 x y H2 Hs2) as (m3 & H3 & W3 & F3). pose proof F3 as (T3 & O3 & S3).
  assert (Hs3 : can_sew (stitch_at N s2 x y)) by (right; lia).
  destruct (tie_on_inv src pos _ m3 H3 Hs3) as (m4 & H4 & W4 & F4 & _). pose proof F4 as (T4 & O4 & S4).
  exists m4. split; [exact H4|]. split; [congruence|]. split; [auto|]. split; [lia|congruence].
Qed.

(** What an operation may be in the source. *)
Definition op_ok (o : op) : Prop :=
  match o with
  | OpTieOff | OpTieOn => ties = true
  | OpSequinContingency v => v = CONTINGENCY_SEQUIN_UTILIZE -> seqs = true
  | OpEnd => False
  | _ => True
  end.

Lemma flow_open : forall s s' m m', same_flow s s' -> open_ok s m -> (m_sewn m = true -> m_sewn m' = true) ->
  open_ok s' m'.
Proof.
  intros s s' m m' (A & B & _) Ho W E. rewrite A in E. destruct (Ho E) as [X Y]. split; [auto|lia].
Qed.

(** How far the plan advances. *)
Definition order_step (o : op) (a b : Z) : Prop :=
  match o with
  | OpStitch | OpNeedleAt | OpSewTo | OpSequinEject => b = Z.max 0 a
  | OpThreadChange => b = a + 1
  | OpColorBreak => b = a \/ b = a + 1 /\ 0 <= a
  | _ => b = a
  end.

Lemma sewing_inv : forall src pos x y s s' m (f : st -> res st),
  Inv s m -> open_ok s m ->
  (forall s s' m, Inv s m -> can_sew s -> f s = Ok s' ->
     exists m', Inv s' m' /\ m_sewn m' = true /\ same_flow s s') ->
  (if trimmed N s then open_section N c seq src pos x y s
   else if jumping N s then do s <- needle_to N s x y; Ok (set_jumping N s false)
   else f s) = Ok s' ->
  exists m', Inv s' m' /\ open_ok s' m' /\ order_index N s' = Z.max 0 (order_index N s).
Proof.
  intros src pos x y s s' m f H Ho Hf E. destruct (trimmed N s) eqn:Et.
  - destruct (open_section_inv _ _ _ _ _ _ _ H Et E) as (m1 & H1 & T1 & W1 & O1 & _).
    exists m1. split; [exact H1|]. split; [intros _; split; [assumption|lia]|exact O1].
  - pose proof (open_can_sew s m Ho Et) as Hs. destruct (jumping N s).
    + destruct (needle_to N s x y) as [s1|] eqn:E1; [|discriminate]. cbn [bindr] in E. injection E as <-.
      destruct (needle_to_inv _ _ _ _ _ H Hs E1) as (m1 & H1 & W1 & F1).
      exists m1. split; [apply inv_jumping; exact H1|].
      assert (open_ok s1 m1) by (eapply flow_open; [exact F1|exact Ho|auto]).
      split; [assumption|]. pose proof F1 as (_ & K & _). destruct (Ho Et). cbn. lia.
    + destruct (Hf s s' m H Hs E) as (m1 & H1 & W1 & F1). exists m1. split; [exact H1|].
      split; [eapply flow_open; [exact F1|exact Ho|auto]|]. pose proof F1 as (_ & K & _). destruct (Ho Et). lia.
Qed.

Lemma exec_inv : forall src pos rest a x y o s s' m,
  Inv s m -> open_ok s m -> op_ok o -> exec N c seq src pos rest a x y o s = Ok s' ->
  exists m', Inv s' m' /\ open_ok s' m' /\ order_step o (order_index N s) (order_index N s').
Proof.
  intros src pos rest a x y o s s' m H Ho Hop E.
  destruct o; cbn [exec] in E; cbn [op_ok] in Hop; cbn [order_step];
    try (injection E as <-; exists m; split; [exact H|split; [exact Ho|reflexivity]]).
  - (* stitch *) eapply sewing_inv with (f := fun s => stitch_with_contingency N s x y); [exact H|exact Ho| |exact E].
    intros s1 s2 m1 A B C. eapply contingency_inv; eassumption.
  - eapply sewing_inv with (f := fun s => needle_to N s x y); [exact H|exact Ho| |exact E].
    intros s1 s2 m1 A B C. eapply needle_to_inv; eassumption.
  - eapply sewing_inv with (f := fun s => sew_to N s x y); [exact H|exact Ho| |exact E].
    intros s1 s2 m1 A B C. eapply sew_to_inv; eassumption.
  - (* stitch break *) injection E as <-. exists m. split; [apply inv_jumping; exact H|]. split; [exact Ho|reflexivity].
  - (* frame eject *)
    destruct (trim_if_needed_inv src pos s m H Ho) as (m1 & H1 & O1 & R1 & S1). cbv zeta in *.
    destruct (jump_to N _ x y) as [s2|] eqn:E2; [|discriminate]. cbn [bindr] in E. injection E as <-.
    destruct (jump_to_inv _ _ _ _ _ H1 E2) as (m2 & H2 & W2 & F2). pose proof F2 as (_ & K & _).
    destruct (inv_stop s2 m2 (nx N s2) (ny N s2) H2) as (m3 & H3).
    exists m3. split; [apply inv_trimmed; exact H3|]. split; [intros T; discriminate|]. cbn. congruence.
  - (* sequence break *) injection E as <-.
    destruct (trim_if_needed_inv src pos s m H Ho) as (m1 & H1 & O1 & R1 & _). exists m1. auto.
  - (* colour break *) unfold color_break in E.
    destruct (Z.ltb_spec (order_index N s) 0) as [Hneg|Hneg]; [injection E as <-; exists m; auto|].
    destruct (close_section_inv src pos s m H Ho) as (m1 & H1 & O1 & R1 & S1). cbv zeta in *.
    destruct (negb (lookahead_stitch N rest)); [injection E as <-; exists m1; auto|].
    destruct (next_change_sequence N c seq _) as [s2|] eqn:E2; [|discriminate].
    cbn [bindr] in E. injection E as <-.
    destruct (next_change_inv _ _ _ H1 E2) as (m2 & H2 & _ & K & _). exists m2.
    split; [apply inv_trimmed; exact H2|]. split; [intros T; discriminate|]. right. cbn. lia.
  - (* tie off *) injection E as <-.
    destruct (tie_off_inv src pos s m H (or_introl Hop)) as (m1 & H1 & W1 & F1 & _).
    exists m1. split; [exact H1|]. split; [eapply flow_open; eassumption|apply F1].
  - injection E as <-.
    destruct (tie_on_inv src pos s m H (or_introl Hop)) as (m1 & H1 & W1 & F1 & _).
    exists m1. split; [exact H1|]. split; [eapply flow_open; eassumption|apply F1].
  - (* trim *) injection E as <-.
    destruct (trim_if_needed_inv src pos s m H Ho) as (m1 & H1 & O1 & R1 & _). exists m1. auto.
  - (* jump *) destruct (jumping N s); [injection E as <-; exists m; auto|].
    destruct (jump_to_inv _ _ _ _ _ H E) as (m1 & H1 & W1 & F1). exists m1. split; [exact H1|].
    split; [eapply flow_open; [exact F1|exact Ho|congruence]|apply F1].
  - (* sequin mode *) injection E as <-. destruct (inv_toggle s m H) as (m1 & H1 & W1). exists m1.
    split; [exact H1|]. split; [eapply flow_open; [apply toggle_keeps|exact Ho|congruence]|apply toggle_keeps].
  - (* sequin eject *)
    destruct (if trimmed N s then _ else _) as [s1|] eqn:E1; [|discriminate]. cbn [bindr] in E.
    assert (A : exists m1, Inv s1 m1 /\ open_ok s1 m1 /\ order_index N s1 = Z.max 0 (order_index N s)).
    { destruct (trimmed N s) eqn:Et.
      - destruct (open_section_inv _ _ _ _ _ _ _ H Et E1) as (m1 & H1 & T1 & W1 & O1 & _).
        exists m1. split; [exact H1|]. split; [intros _; split; [assumption|lia]|exact O1].
      - injection E1 as <-. exists m. split; [exact H|]. split; [exact Ho|]. destruct (Ho Et). lia. }
    destruct A as (m1 & H1 & O1 & R1).
    set (s2 := if sequin_mode N s1 then s1 else toggle_sequins N s1) in *.
    assert (B : exists m2, Inv s2 m2 /\ open_ok s2 m2 /\ order_index N s2 = Z.max 0 (order_index N s) /\
       (sequin_contingency N s2 = CONTINGENCY_SEQUIN_UTILIZE -> sequin_mode N s2 = true)).
    { unfold s2. destruct (sequin_mode N s1) eqn:Em.
      - exists m1. auto.
      - destruct (inv_toggle s1 m1 H1) as (m2 & H2 & W2). destruct (toggle_keeps s1) as (K1 & K2 & K3).
        exists m2. split; [exact H2|]. split; [eapply flow_open; [apply toggle_keeps|exact O1|congruence]|].
        split; [lia|]. rewrite K3. intros Eu. unfold toggle_sequins. rewrite Eu. cbn. rewrite Em. reflexivity. }
    destruct B as (m2 & H2 & O2 & R2 & U2).
    assert (Hs2 : can_sew s2) by (right; lia).
    destruct (sequin_at_inv _ _ _ _ _ H2 Hs2 U2 E) as (m3 & H3 & W3 & F3).
    exists m3. split; [exact H3|]. split; [eapply flow_open; eassumption|]. pose proof F3 as (_ & K & _). lia.
  - (* thread change *) unfold tie_off_trim_color_change in E.
    destruct (close_section_inv src pos s m H Ho) as (m1 & H1 & O1 & R1 & S1). cbv zeta in *.
    destruct (next_change_sequence N c seq _) as [s2|] eqn:E2; [|discriminate].
    cbn [bindr] in E. injection E as <-.
    destruct (next_change_inv _ _ _ H1 E2) as (m2 & H2 & _ & K & _). exists m2.
    split; [apply inv_trimmed; exact H2|]. split; [intros T; discriminate|]. cbn. lia.
  - (* stop *) injection E as <-. destruct (inv_stop s m (nx N s) (ny N s) H) as (m1 & H1).
    exists m1. split; [apply inv_trimmed; exact H1|]. split; [intros T; discriminate|reflexivity].
  - (* slow *) injection E as <-. exists m. destruct (writes_speeds c) eqn:Ew; [|auto].
    split; [apply inv_speed; auto|]. split; [exact Ho|reflexivity].
  - injection E as <-. exists m. destruct (writes_speeds c) eqn:Ew; [|auto].
    split; [apply inv_speed; auto|]. split; [exact Ho|reflexivity].
  - (* end *) contradiction.
  - injection E as <-. exists m. split; [|split; [exact Ho|reflexivity]]. destruct H. constructor; assumption.
  - injection E as <-. exists m. split; [|split; [exact Ho|reflexivity]]. destruct H. constructor; assumption.
  - injection E as <-. exists m. split; [|split; [exact Ho|reflexivity]]. destruct H. constructor; assumption.
  - injection E as <-. exists m. split; [|split; [exact Ho|reflexivity]]. destruct H. constructor; assumption.
  - injection E as <-. exists m. split; [|split; [exact Ho|reflexivity]]. destruct H. constructor; assumption.
  - injection E as <-. exists m. split; [|split; [exact Ho|reflexivity]]. destruct H. constructor; assumption.
  - (* sequin contingency *) injection E as <-.
    destruct (Z.eqb_spec c0 CONTINGENCY_SEQUIN_UTILIZE) as [Eu|Eu]; cbn [negb andb].
    + exists m. split; [|split; [exact Ho|reflexivity]]. destruct H. constructor; cbn; auto.
    + destruct (inv_leave_mode s m H) as (m1 & H1 & W1 & M1 & T1 & R1 & S1).
      set (s1 := if sequin_mode N s then toggle_sequins N s else s) in *.
      exists m1. split; [|split].
      * destruct H1. constructor; cbn; auto; congruence.
      * intros T. cbn in T. rewrite T1 in T. destruct (Ho T) as [X Y]. split; [congruence|cbn; lia].
      * cbn. exact R1.
  - injection E as <-. exists m. split; [|split; [exact Ho|reflexivity]]. apply inv_matrix. exact H.
  - injection E as <-. exists m. split; [|split; [exact Ho|reflexivity]]. apply inv_matrix. exact H.
  - injection E as <-. exists m. split; [|split; [exact Ho|reflexivity]]. apply inv_matrix. exact H.
  - unfold needle_in_source in E.
    destruct (inverse N (matrix N s)) as [iv|]; [|discriminate]. cbn [bindr] in E.
    destruct (inverse N iv) as [bk|]; [|discriminate]. cbn [bindr] in E. injection E as <-.
    exists m. split; [|split; [exact Ho|reflexivity]]. apply inv_matrix, inv_matrix. exact H.
  - unfold needle_in_source in E.
    destruct (inverse N (matrix N s)) as [iv|]; [|discriminate]. cbn [bindr] in E.
    destruct (inverse N iv) as [bk|]; [|discriminate]. cbn [bindr] in E. injection E as <-.
    exists m. split; [|split; [exact Ho|reflexivity]]. apply inv_matrix, inv_matrix. exact H.
  - injection E as <-. exists m. split; [|split; [exact Ho|reflexivity]]. apply inv_matrix. exact H.
Qed.

(** The final output: a monitored body and one END. *)
Lemma end_here_out : forall s m, Inv s m ->
  exists e, out N (end_here N s) = out N s ++ [e] /\ cmd_of (scmd e) = END /\
    othreads N (end_here N s) = othreads N s /\ order_index N (end_here N s) = order_index N s.
Proof.
  intros s m H. eexists. split; [reflexivity|]. split; [|split; reflexivity].
  cbn [scmd]. apply cmd_lor_high; [unfold END; lia|apply (i_high _ _ H)].
Qed.

Definition source_ok (l : list (stitch F)) : Prop :=
  Forall (fun a => classify (cmd_of (scmd a)) = OpEnd \/ op_ok (classify (cmd_of (scmd a)))) l.

Lemma classify_end : forall f, classify f = OpEnd <-> f = END.
Proof.
  intros f. split; [|intros ->; reflexivity]. unfold classify. intros H.
  repeat match type of H with
  | (if ?a =? ?b then _ else _) = _ => destruct (Z.eqb_spec a b); [first [assumption|discriminate H]|]
  end. discriminate.
Qed.

Lemma main_loop_inv : forall src rest pos s s' m, Inv s m -> open_ok s m -> source_ok rest ->
  main_loop N c seq src pos rest s = Ok s' ->
  exists body e s1 m1, out N s' = body ++ [e] /\ cmd_of (scmd e) = END /\ Inv s1 m1 /\ out N s1 = body /\
    othreads N s' = othreads N s1 /\ order_index N s' = order_index N s1.
Proof.
  intros src. induction rest as [|a rest IH]; intros pos s s' m H Ho Hs E; cbn [main_loop] in E.
  - injection E as <-. destruct (end_here_out s m H) as (e & A & B & C & D).
    exists (out N s), e, s, m. auto 8.
  - destruct (placed N c s a) as [[x y]|]; [|discriminate]. cbn [bindr] in E.
    apply Forall_cons_iff in Hs. destruct Hs as [Ha Hr].
    pose proof (inv_high s m (scmd a) H) as H1.
    set (s0 := set_high N s (Z.land (scmd a) FLAGS_MASK)) in *.
    assert (Ho1 : open_ok s0 m) by exact Ho.
    destruct (Z.eqb_spec (cmd_of (scmd a)) END) as [Ee|Ee].
    + rewrite Ee in E. change (classify END) with OpEnd in E. cbn [exec bindr] in E. injection E as <-.
      destruct (end_here_out s0 m H1) as (e & A & B & C & D). exists (out N s0), e, s0, m. auto 8.
    + destruct (exec N c seq src pos (a :: rest) a x y _ s0) as [s1|] eqn:E1; [|discriminate].
      cbn [bindr] in E.
      assert (Hop : op_ok (classify (cmd_of (scmd a)))).
      { destruct Ha as [Ha|Ha]; [|exact Ha]. apply classify_end in Ha. contradiction. }
      destruct (exec_inv _ _ _ _ _ _ _ _ _ _ H1 Ho1 Hop E1) as (m1 & H2 & O2 & _).
      apply (IH _ _ _ _ H2 O2 Hr E).
Qed.
End Inv.
