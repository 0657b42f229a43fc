(** An encoded design settles: after a cut the needle is jumped to where it goes down. *)
From Coq Require Import ZArith List Bool Lia QArith Qabs Qround Lqa.
From Verif Require Import PyBase EmbConst FunctionsModel ThreadModel NumModel MatrixModel EncoderModel
  BitLemmas EncoderProofs NumQ MetricSpec EncoderMetricProofs ResaveSpec.
Import ListNotations.
Open Scope Z_scope.

Fixpoint cut_after {C} (cut : bool) (l : list (stitch C)) : bool :=
  match l with [] => cut | a :: r => cut_after (cut_by cut (scmd a)) r end.
Lemma cut_snoc : forall C (l : list (stitch C)) a cut, cut_after cut (l ++ [a]) = cut_by (cut_after cut l) (scmd a).
Proof. induction l as [|b l IH]; intros a cut; [reflexivity|]. cbn [app cut_after]. apply IH. Qed.
Lemma end_snoc : forall C (l : list (stitch C)) a x y, end_pos x y (l ++ [a]) = (sx a, sy a).
Proof. induction l as [|b l IH]; intros a x y; [reflexivity|]. cbn [app end_pos]. apply IH. Qed.
Lemma settles_snoc : forall C (same : C -> C -> Prop) l a cut x y, settles same cut x y l ->
  (cut_after cut l = true -> cmd_of (scmd a) = STITCH -> same (sx a) (fst (end_pos x y l)) /\ same (sy a) (snd (end_pos x y l))) ->
  (cut_after cut l = true -> cmd_of (scmd a) <> TRIM) -> settles same cut x y (l ++ [a]).
Proof.
  induction l as [|b l IH]; intros a cut x y H H1 H2.
  - cbn [app settles cut_after end_pos fst snd] in *. auto.
  - cbn [app settles cut_after end_pos] in *. destruct H as (A & B & D). split; [exact A|]. split; [exact B|]. apply IH; assumption.
Qed.

Section Settle.
Variables (qcos qsin : Q -> Q) (qorient : Q -> Q -> Q -> Q -> Q -> Q * Q).
Notation N := (QNum qcos qsin qorient).
Notation st := (st N).

Definition cut (s : st) : bool := cut_after true (out N s).
Record Se (s : st) : Prop := mkSe {
  e_out : settles Qeq true 0%Q 0%Q (out N s);
  e_x : (fst (end_pos 0%Q 0%Q (out N s)) == nx N s)%Q;
  e_y : (snd (end_pos 0%Q 0%Q (out N s)) == ny N s)%Q;
  e_high : Z.land (high_flags N s) FLAGS_MASK = high_flags N s;
  e_sequins : In (sequin_contingency N s) [CONTINGENCY_SEQUIN_REMOVE; CONTINGENCY_SEQUIN_UTILIZE; CONTINGENCY_SEQUIN_JUMP; CONTINGENCY_SEQUIN_STITCH] }.
(** When the thread is cut the encoder knows. *)
Definition knows (s : st) : Prop := cut s = true -> trimmed N s = true.
Definition Sk (s : st) : Prop := Se s /\ knows s.

Ltac se H := destruct H as [? ? ? ? ?]; constructor; attrs; assumption.
Ltac code := unfold STITCH, JUMP, TRIM, STOP, END, SLOW, FAST, COLOR_CHANGE, NEEDLE_SET, SEQUIN_MODE, SEQUIN_EJECT; lia.

(** A command at (x, y), the needle now there. *)
Lemma se_put : forall s x y c, Se s ->
  (cut s = true -> cmd_of c = STITCH -> (x == nx N s /\ y == ny N s)%Q) -> (cut s = true -> cmd_of c <> TRIM) ->
  let s' := update_needle_position N (append N s (mkS x y c)) x y in
  Se s' /\ cut s' = cut_by (cut s) c /\ trimmed N s' = trimmed N s.
Proof.
  intros s x y c [H1 H2 H3 H4 H5] A B. cbv zeta. split; [|split; [unfold cut; attrs; apply cut_snoc|reflexivity]].
  constructor; attrs; try assumption.
  - apply settles_snoc; [exact H1| |exact B]. cbn [scmd sx sy]. intros E1 E2. destruct (A E1 E2) as [Ax Ay].
    rewrite H2, H3. auto.
  - rewrite end_snoc. reflexivity.
  - rewrite end_snoc. reflexivity.
Qed.
(** A command where the needle is. *)
Lemma se_here : forall s c, Se s -> (cut s = true -> cmd_of c <> TRIM) ->
  let s' := append N s (mkS (nx N s) (ny N s) c) in Se s' /\ cut s' = cut_by (cut s) c /\ trimmed N s' = trimmed N s.
Proof.
  intros s c [H1 H2 H3 H4 H5] B. cbv zeta. split; [|split; [unfold cut; attrs; apply cut_snoc|reflexivity]].
  constructor; attrs; try assumption.
  - apply settles_snoc; [exact H1| |exact B]. cbn [scmd sx sy]. intros _ _. rewrite H2, H3. split; reflexivity.
  - rewrite end_snoc. reflexivity.
  - rewrite end_snoc. reflexivity.
Qed.
Lemma cut_code : forall b k h, 0 <= k < 256 -> Z.land h FLAGS_MASK = h -> cut_by b (Z.lor k h) = cut_by b k.
Proof.
  intros b k h Hk Hh. unfold cut_by. rewrite cmd_lor_high by assumption.
  replace (cmd_of k) with k; [reflexivity|]. unfold cmd_of, COMMAND_MASK. rewrite land_ff. symmetry. apply Z.mod_small. exact Hk.
Qed.
Lemma se_add : forall s k, Se s -> 0 <= k < 256 -> (cut s = true -> k <> TRIM) ->
  Se (add N s k) /\ cut (add N s k) = cut_by (cut s) k /\ trimmed N (add N s k) = trimmed N s.
Proof.
  intros s k H Hk Ht. pose proof (se_here s (Z.lor k (high_flags N s)) H) as A. cbv zeta in A.
  rewrite cmd_lor_high, cut_code in A by (try exact (e_high _ H); exact Hk). apply A. exact Ht.
Qed.
Lemma se_toggle : forall s, Se s -> let s' := toggle_sequins N s in
  Se s' /\ cut s' = cut s /\ trimmed N s' = trimmed N s /\ nx N s' = nx N s /\ ny N s' = ny N s.
Proof.
  intros s H. unfold toggle_sequins. destruct (_ =? _); cbv zeta; [|auto 8].
  destruct (se_add s SEQUIN_MODE H ltac:(code) ltac:(discriminate)) as (A & B & D). split; [se A|]. auto 8.
Qed.
Lemma se_leave : forall s (b : bool), Se s -> let s' := if b then toggle_sequins N s else s in
  Se s' /\ cut s' = cut s /\ trimmed N s' = trimmed N s /\ nx N s' = nx N s /\ ny N s' = ny N s.
Proof. intros s b H. destruct b; [apply se_toggle; exact H|cbv zeta; auto 8]. Qed.

Lemma gap_se : forall k s qx qy ax ay c, Se s -> (cmd_of c = JUMP \/ cmd_of c = STITCH /\ cut s = false) ->
  let s' := gap_loop N k qx qy ax ay c s in Se s' /\ (cmd_of c = JUMP \/ cut s = false -> cut s' = cut s) /\ trimmed N s' = trimmed N s.
Proof.
  induction k as [|k IH]; intros s qx qy ax ay c H Hc; cbn [gap_loop]; cbv zeta; [auto|].
  set (x := fadd N qx ax). set (y := fadd N qy ay).
  destruct (se_put s x y c H) as (A & B & D).
  { intros E1 E2. exfalso. destruct Hc as [Hc|[_ Hc]]; [rewrite Hc in E2; discriminate E2|congruence]. }
  { intros _. destruct Hc as [Hc|[Hc _]]; rewrite Hc; discriminate. }
  assert (B' : cut_by (cut s) c = cut s).
  { unfold cut_by. destruct Hc as [Hc|[Hc Ec]]; rewrite Hc; [reflexivity|]. rewrite Ec. reflexivity. }
  rewrite B' in B.
  destruct (IH _ x y ax ay c A) as (A1 & A2 & A3).
  { rewrite B. exact Hc. }
  split; [exact A1|]. split; [|exact (eq_trans A3 D)]. intros G. refine (eq_trans (A2 _) B). rewrite B. exact G.
Qed.
Lemma interpolate_se : forall s s' x0 y0 x y l data, Se s -> data = JUMP \/ data = STITCH /\ cut s = false ->
  interpolate_gap_stitches N s x0 y0 x y l data = Ok s' -> Se s' /\ cut s' = cut s /\ trimmed N s' = trimmed N s.
Proof.
  intros s s' x0 y0 x y l data H HD E. destruct l as [l|]; [|injection E as <-; auto].
  unfold interpolate_gap_stitches in E. destruct (_ || _) in E; [|injection E as <-; auto].
  destruct (se_leave s ((data =? JUMP) && sequin_mode N s) H) as (A & B1 & B2 & B3 & B4).
  set (s1 := if (data =? JUMP) && sequin_mode N s then toggle_sequins N s else s) in *.
  apply bind_ok in E. destruct E as (rx & _ & E). apply bind_ok in E. destruct E as (stx & _ & E).
  apply bind_ok in E. destruct E as (ry & _ & E). apply bind_ok in E. destruct E as (sty & _ & E).
  cbv zeta in E. apply bind_ok in E. destruct E as (ax & Ex & E). apply bind_ok in E. destruct E as (ay & Ey & E).
  injection E as <-.
  assert (Hc : cmd_of (Z.lor data (high_flags N s1)) = data).
  { apply cmd_lor_high; [|exact (e_high _ A)]. destruct HD as [-> | [-> _]]; code. }
  match goal with |- context [gap_loop N ?k ?qx ?qy ?ux ?uy ?c s1] => destruct (gap_se k s1 qx qy ux uy c A) as (A1 & A2 & A3) end.
  { rewrite Hc. destruct HD as [-> | [-> HD]]; [auto|right]. rewrite B1. auto. }
  split; [exact A1|]. split; [|exact (eq_trans A3 B2)]. refine (eq_trans (A2 _) B1). rewrite Hc.
  destruct HD as [-> | [-> HD]]; [auto|right]. rewrite B1. exact HD.
Qed.
Lemma jump_at_se : forall s x y, Se s -> let s' := jump_at N s x y in
  Se s' /\ cut s' = cut s /\ trimmed N s' = trimmed N s /\ nx N s' = x /\ ny N s' = y.
Proof.
  intros s x y H. unfold jump_at. destruct (se_leave s (sequin_mode N s) H) as (A & B1 & B2 & B3 & B4).
  set (s1 := if sequin_mode N s then toggle_sequins N s else s) in *. unfold add_at. cbv zeta.
  assert (Hc : cmd_of (Z.lor JUMP (high_flags N s1)) = JUMP) by (apply cmd_lor_high; [code|exact (e_high _ A)]).
  destruct (se_put s1 x y (Z.lor JUMP (high_flags N s1)) A) as (D1 & D2 & D3); [rewrite Hc; discriminate|rewrite Hc; discriminate|].
  split; [exact D1|]. split; [refine (eq_trans D2 _); rewrite cut_code by (try exact (e_high _ A); code); exact B1|].
  split; [exact (eq_trans D3 B2)|]. auto.
Qed.
(** A stitch, the thread not being cut or the needle being there. *)
Lemma stitch_at_se : forall s x y, Se s -> (cut s = true -> (x == nx N s /\ y == ny N s)%Q) ->
  Se (stitch_at N s x y) /\ cut (stitch_at N s x y) = false.
Proof.
  intros s x y H Hc. unfold stitch_at, add_at.
  assert (Hk : cmd_of (Z.lor STITCH (high_flags N s)) = STITCH) by (apply cmd_lor_high; [code|exact (e_high _ H)]).
  destruct (se_put s x y (Z.lor STITCH (high_flags N s)) H) as (D1 & D2 & D3); [intros E _; exact (Hc E)|rewrite Hk; discriminate|].
  split; [exact D1|]. refine (eq_trans D2 _). rewrite cut_code by (try exact (e_high _ H); code). reflexivity.
Qed.
Lemma uncut_knows : forall s, cut s = false -> knows s.
Proof. intros s E E'. congruence. Qed.

Section Methods.
Variables (c : config) (seq : dict change) (src : list (stitch Q)).
Hypothesis (Hfull : full_jump c = true).

Lemma jump_within_se : forall s s' x y, Se s -> jump_to_within_stitchrange N c s x y = Ok s' -> Se s' /\ (x == nx N s' /\ y == ny N s')%Q.
Proof.
  intros s s' x y H E. unfold jump_to_within_stitchrange in E. apply bind_ok in E. destruct E as (s1 & E1 & E2).
  destruct (interpolate_se s s1 _ _ x y _ JUMP H (or_introl eq_refl) E1) as (A & _). rewrite Hfull in E2.
  cbn [feqb QNum] in E2. destruct (Qeq_bool (nx N s1) x) eqn:Ex, (Qeq_bool (ny N s1) y) eqn:Ey; cbn [negb orb] in E2; injection E2 as <-.
  1:{ apply Qeq_bool_iff in Ex, Ey. split; [exact A|]. split; symmetry; assumption. }
  all: destruct (jump_at_se s1 x y A) as (D1 & _ & _ & D4 & D5); split; [exact D1|]; rewrite D4, D5; split; reflexivity.
Qed.
Lemma jump_to_se : forall s s' x y, Sk s -> jump_to N s x y = Ok s' -> Sk s'.
Proof.
  intros s s' x y [H K] E. unfold jump_to in E. apply bind_ok in E. destruct E as (s1 & E1 & E2). injection E2 as <-.
  destruct (interpolate_se s s1 _ _ x y _ JUMP H (or_introl eq_refl) E1) as (A & A2 & A3).
  destruct (jump_at_se s1 x y A) as (D1 & D2 & D3 & _). split; [exact D1|]. unfold knows. rewrite D2, D3, A2, A3. exact K.
Qed.
Lemma needle_to_se : forall s s' x y, Se s -> cut s = false -> needle_to N s x y = Ok s' -> Se s' /\ cut s' = false.
Proof.
  intros s s' x y H K E. unfold needle_to in E. apply bind_ok in E. destruct E as (s1 & E1 & E2). injection E2 as <-.
  destruct (interpolate_se s s1 _ _ x y _ JUMP H (or_introl eq_refl) E1) as (A & A2 & A3). apply stitch_at_se; [exact A|]. congruence.
Qed.
Lemma sew_to_se : forall s s' x y, Se s -> cut s = false -> sew_to N s x y = Ok s' -> Se s' /\ cut s' = false.
Proof.
  intros s s' x y H K E. unfold sew_to in E. apply bind_ok in E. destruct E as (s1 & E1 & E2). injection E2 as <-.
  destruct (interpolate_se s s1 _ _ x y _ STITCH H (or_intror (conj eq_refl K)) E1) as (A & A2 & A3). apply stitch_at_se; [exact A|]. congruence.
Qed.
Lemma contingency_se : forall s s' x y, Se s -> cut s = false -> stitch_with_contingency N s x y = Ok s' -> Se s' /\ cut s' = false.
Proof.
  intros s s' x y H K E. unfold stitch_with_contingency in E. destruct (_ =? _) in E; [exact (sew_to_se _ _ _ _ H K E)|].
  destruct (_ =? _) in E; [exact (needle_to_se _ _ _ _ H K E)|]. injection E as <-. apply stitch_at_se; [exact H|]. congruence.
Qed.
Lemma sequin_at_se : forall s s' x y, Se s -> cut s = false -> sequin_at N s x y = Ok s' -> Se s' /\ cut s' = false.
Proof.
  intros s s' x y H K E. unfold sequin_at in E. destruct (Z.eqb_spec (sequin_contingency N s) CONTINGENCY_SEQUIN_REMOVE) as [e|e]; [injection E as <-; auto|].
  apply bind_ok in E. destruct E as (s1 & E1 & E2). injection E2 as <-.
  destruct (interpolate_se s s1 _ _ x y _ STITCH H (or_intror (conj eq_refl K)) E1) as (A & A2 & A3).
  assert (G : forall k, 0 <= k < 256 -> k <> TRIM -> cut_by false k = false ->
    Se (update_needle_position N (add_at N s1 k x y) x y) /\ cut (update_needle_position N (add_at N s1 k x y) x y) = false).
  { intros k H1 H2 H3. unfold add_at.
    destruct (se_put s1 x y (Z.lor k (high_flags N s1)) A) as (D1 & D2 & D3).
    - congruence.
    - intros _. rewrite cmd_lor_high by (try exact (e_high _ A); exact H1). exact H2.
    - split; [exact D1|]. refine (eq_trans D2 _). rewrite cut_code by (try exact (e_high _ A); exact H1). rewrite A2, K. exact H3. }
  destruct (e_sequins _ H) as [Hk|Hk]; [congruence|]. destruct Hk as [<-|[<-|[<-|[]]]]; cbn [Z.eqb]; apply G; try (code || discriminate || reflexivity).
Qed.

(** ** Lock stitches *)
Lemma lock_se : forall s ax ay l, Se s -> cut s = false -> let s' := lock_stitch N s (nx N s) (ny N s) ax ay l in
  Se s' /\ cut s' = false /\ trimmed N s' = trimmed N s.
Proof.
  intros s ax ay l H K. unfold lock_stitch. destruct (match l with Fin _ _ => _ | Inf _ => _ end) as [bx by']. cbv zeta.
  assert (P : forall s x y, Se s -> cut s = false ->
    settles Qeq true 0%Q 0%Q (out N s ++ [mkS x y STITCH]) /\ cut_after true (out N s ++ [mkS x y STITCH]) = false).
  { intros s0 x y H0 K0. rewrite cut_snoc. split; [|reflexivity]. apply settles_snoc; [exact (e_out _ H0)| |]; unfold cut in K0; congruence. }
  assert (Q4 : forall l (a b d e : stitch Q), settles Qeq true 0%Q 0%Q l -> cut_after true l = false ->
    scmd a = STITCH -> scmd b = STITCH -> scmd d = STITCH -> scmd e = STITCH ->
    settles Qeq true 0%Q 0%Q ((((l ++ [a]) ++ [b]) ++ [d]) ++ [e]) /\ cut_after true ((((l ++ [a]) ++ [b]) ++ [d]) ++ [e]) = false).
  { assert (Q1 : forall l (a : stitch Q), settles Qeq true 0%Q 0%Q l -> cut_after true l = false -> scmd a = STITCH ->
      settles Qeq true 0%Q 0%Q (l ++ [a]) /\ cut_after true (l ++ [a]) = false).
    { intros l0 a S0 C0 E0. rewrite cut_snoc, E0. split; [|reflexivity]. apply settles_snoc; [exact S0| |]; congruence. }
    intros l0 a b d e S0 C0 Ea Eb Ed Ee. destruct (Q1 _ a S0 C0 Ea) as [S1 C1]. destruct (Q1 _ b S1 C1 Eb) as [S2 C2].
    destruct (Q1 _ d S2 C2 Ed) as [S3 C3]. exact (Q1 _ e S3 C3 Ee). }
  match goal with |- Se (append N (append N (append N (append N s ?a) ?b) ?d) ?e) /\ _ =>
    destruct (Q4 (out N s) a b d e (e_out _ H) K eq_refl eq_refl eq_refl eq_refl) as [S4 C4] end.
  split; [|split; [exact C4|reflexivity]]. destruct H as [H1 H2 H3 H4 H5]. constructor; attrs; try assumption.
  - rewrite end_snoc. cbn [fst sx]. unfold towards. cbn [fadd fmul fsub f0 QNum]. repeat match goal with v : F _ |- _ => change Q in v end. ring.
  - rewrite end_snoc. cbn [snd sy]. unfold towards. cbn [fadd fmul fsub f0 QNum]. repeat match goal with v : F _ |- _ => change Q in v end. ring.
Qed.
Lemma lock_towards_se : forall s b, Se s -> cut s = false -> let s' := lock_towards N s b in
  Se s' /\ cut s' = false /\ trimmed N s' = trimmed N s.
Proof.
  intros s b H K. unfold lock_towards. destruct b as [b|]; [|cbv zeta; auto].
  destruct (point_in_matrix_space N (matrix N s) (sx b) (sy b)) as [bx by'].
  destruct (is_anchor (scmd b)); [|cbv zeta; auto]. apply lock_se; assumption.
Qed.
Lemma tie_off_se : forall pos s, Se s -> cut s = false -> let s' := tie_off N src pos s in Se s' /\ cut s' = false /\ trimmed N s' = trimmed N s.
Proof. intros pos s H K. unfold tie_off. destruct (_ =? _); [apply lock_towards_se; assumption|cbv zeta; auto]. Qed.
Lemma tie_on_se : forall pos s, Se s -> cut s = false -> let s' := tie_on N src pos s in Se s' /\ cut s' = false /\ trimmed N s' = trimmed N s.
Proof. intros pos s H K. unfold tie_on. destruct (_ =? _); [apply lock_towards_se; assumption|cbv zeta; auto]. Qed.

Lemma se_trimmed : forall s b, Se s -> Se (set_trimmed N s b). Proof. intros s b H. se H. Qed.
Lemma se_order : forall s b, Se s -> Se (set_order N s b). Proof. intros s b H. se H. Qed.
Lemma se_thread : forall s b, Se s -> Se (add_thread N s b). Proof. intros s b H. se H. Qed.
Lemma se_jumping : forall s b, Se s -> Se (set_jumping N s b). Proof. intros s b H. se H. Qed.
Lemma sk_trimmed : forall s, Se s -> Sk (set_trimmed N s true). Proof. intros s H. split; [se H|]. intros _. reflexivity. Qed.
Lemma uncut : forall s, knows s -> trimmed N s = false -> cut s = false.
Proof. intros s K E. destruct (cut s) eqn:Ec; [|reflexivity]. rewrite (K Ec) in E. discriminate. Qed.

Lemma trim_here_se : forall s, Se s -> cut s = false -> Sk (trim_here N s).
Proof.
  intros s H K. unfold trim_here. destruct (se_leave s (sequin_mode N s) H) as (A & B1 & _).
  set (s1 := if sequin_mode N s then toggle_sequins N s else s) in *. apply sk_trimmed.
  apply (se_add s1 TRIM A); [code|]. congruence.
Qed.
Lemma close_se : forall pos s, Sk s -> Sk (close_section N src pos s).
Proof.
  intros pos s [H K]. unfold close_section. destruct (trimmed N s) eqn:Et; cbn [negb]; [split; assumption|].
  destruct (tie_off_se pos s H (uncut s K Et)) as (A & B & D). cbv zeta.
  destruct (explicit_trim N (tie_off N src pos s)); [apply trim_here_se; assumption|]. split; [exact A|apply uncut_knows; exact B].
Qed.
Lemma trim_if_needed_se : forall pos s, Sk s -> Sk (tie_off_and_trim_if_needed N src pos s).
Proof.
  intros pos s [H K]. unfold tie_off_and_trim_if_needed. destruct (trimmed N s) eqn:Et; cbn [negb]; [split; assumption|].
  destruct (tie_off_se pos s H (uncut s K Et)) as (A & B & D). apply trim_here_se; assumption.
Qed.
Lemma next_change_se : forall s s', Se s -> next_change_sequence N c seq s = Ok s' -> Sk s'.
Proof.
  intros s s' H E. unfold next_change_sequence in E. set (s1 := set_order N s (order_index N s + 1)) in *.
  assert (A : Se s1) by (apply se_order; exact H).
  destruct (dict_get (order_index N s1) seq) as [ch|]; [|discriminate]. injection E as <-. apply sk_trimmed.
  assert (G : forall s k, Se s -> k = COLOR_CHANGE \/ k = NEEDLE_SET \/ k = STOP -> Se (add_thread_change N s k (c_thread ch) (c_needle ch))).
  { intros s0 k H0 Hk. unfold add_thread_change. apply se_here; [exact H0|]. intros _.
    rewrite cmd_thread_change by (destruct Hk as [-> | [-> | ->]]; code). destruct Hk as [-> | [-> | ->]]; discriminate. }
  destruct (thread_change_command c =? COLOR_CHANGE).
  - cbv zeta. destruct (negb _); [apply G; [apply se_thread; exact A|auto]|apply se_thread; exact A].
  - destruct (thread_change_command c =? NEEDLE_SET); [apply G; [exact A|auto]|].
    destruct (thread_change_command c =? STOP); [apply G; [apply se_thread; exact A|auto]|exact A].
Qed.
Lemma open_section_se : forall pos x y s s', Se s -> open_section N c seq src pos x y s = Ok s' -> Se s' /\ cut s' = false.
Proof.
  intros pos x y s s' H E. unfold open_section in E. apply bind_ok in E. destruct E as (s1 & E1 & E2).
  assert (A : Se s1).
  { unfold declare_not_trimmed in E1. apply bind_ok in E1. destruct E1 as (s0 & E0 & E1). injection E1 as <-. apply se_trimmed.
    destruct (order_index N s =? -1); [|injection E0 as <-; exact H]. exact (proj1 (next_change_se _ _ H E0)). }
  apply bind_ok in E2. destruct E2 as (s2 & E2 & E3). injection E3 as <-.
  destruct (jump_within_se _ _ _ _ A E2) as [D1 D2]. destruct (stitch_at_se s2 x y D1 (fun _ => D2)) as [F1 F2].
  destruct (tie_on_se pos _ F1 F2) as (G1 & G2 & _). split; assumption.
Qed.
Lemma color_break_se : forall pos rest s s', Sk s -> color_break N c seq src pos rest s = Ok s' -> Sk s'.
Proof.
  intros pos rest s s' H E. unfold color_break in E. destruct (order_index N s <? 0); [injection E as <-; exact H|].
  pose proof (close_se pos s H) as A. destruct (negb _) in E; [injection E as <-; exact A|].
  apply bind_ok in E. destruct E as (s1 & E1 & E2). injection E2 as <-. apply sk_trimmed. exact (proj1 (next_change_se _ _ (proj1 A) E1)).
Qed.
Lemma change_se : forall pos s s', Sk s -> tie_off_trim_color_change N c seq src pos s = Ok s' -> Sk s'.
Proof.
  intros pos s s' H E. unfold tie_off_trim_color_change in E. apply bind_ok in E. destruct E as (s1 & E1 & E2). injection E2 as <-.
  apply sk_trimmed. exact (proj1 (next_change_se _ _ (proj1 (close_se pos s H)) E1)).
Qed.
Lemma sew_exec_se : forall pos x y s s' (f : st -> res st), Sk s ->
  (forall s', cut s = false -> f s = Ok s' -> Se s' /\ cut s' = false) ->
  (if trimmed N s then open_section N c seq src pos x y s
   else if jumping N s then do s <- needle_to N s x y; Ok (set_jumping N s false)
   else f s) = Ok s' -> Sk s'.
Proof.
  intros pos x y s s' f [H K] Hf E. destruct (trimmed N s) eqn:Et.
  - destruct (open_section_se _ _ _ _ _ H E). split; [assumption|apply uncut_knows; assumption].
  - destruct (jumping N s).
    + apply bind_ok in E. destruct E as (s1 & E1 & E2). injection E2 as <-.
      destruct (needle_to_se _ _ _ _ H (uncut s K Et) E1). split; [apply se_jumping; assumption|apply uncut_knows; assumption].
    + destruct (Hf s' (uncut s K Et) E). split; [assumption|apply uncut_knows; assumption].
Qed.
Definition op_unties (o : op) : Prop := match o with OpTieOn | OpTieOff => False | _ => True end.
Lemma classify_sequins : forall k v, classify k = OpSequinContingency v ->
  In v [CONTINGENCY_SEQUIN_REMOVE; CONTINGENCY_SEQUIN_UTILIZE; CONTINGENCY_SEQUIN_JUMP; CONTINGENCY_SEQUIN_STITCH].
Proof.
  intros k v E. unfold classify in E. cbn [In].
  repeat match type of E with (if ?b then _ else _) = _ => destruct b; [try discriminate E; try (injection E as <-; tauto)|] end. discriminate E.
Qed.
Lemma exec_se : forall pos rest a x y o s s', Sk s -> op_unties o ->
  (forall v, o = OpSequinContingency v -> In v [CONTINGENCY_SEQUIN_REMOVE; CONTINGENCY_SEQUIN_UTILIZE; CONTINGENCY_SEQUIN_JUMP; CONTINGENCY_SEQUIN_STITCH]) ->
  exec N c seq src pos rest a x y o s = Ok s' -> Sk s'.
Proof.
  intros pos rest a x y o s s' H Ho Hv E. assert (H' := H). destruct H' as [F K].
  destruct o; cbn [exec] in E; cbn [op_unties] in Ho; try contradiction;
    try (injection E as <-; split; [se F|exact K]).
  - exact (sew_exec_se pos x y s s' (fun s => stitch_with_contingency N s x y) H (fun s' H0 E => contingency_se s s' x y F H0 E) E).
  - exact (sew_exec_se pos x y s s' (fun s => needle_to N s x y) H (fun s' H0 E => needle_to_se s s' x y F H0 E) E).
  - exact (sew_exec_se pos x y s s' (fun s => sew_to N s x y) H (fun s' H0 E => sew_to_se s s' x y F H0 E) E).
  - apply bind_ok in E. destruct E as (s1 & E1 & E2). injection E2 as <-.
    pose proof (jump_to_se _ _ _ _ (trim_if_needed_se pos s H) E1) as [D _].
    apply sk_trimmed. apply (se_add s1 STOP D); [code|discriminate].
  - injection E as <-. apply trim_if_needed_se. exact H.
  - exact (color_break_se _ _ _ _ H E).
  - injection E as <-. apply trim_if_needed_se. exact H.
  - destruct (jumping N s); [injection E as <-; exact H|]. exact (jump_to_se _ _ _ _ H E).
  - injection E as <-. destruct (se_toggle s F) as (A & B1 & B2 & _). split; [exact A|]. unfold knows. rewrite B1, B2. exact K.
  - apply bind_ok in E. destruct E as (s1 & E1 & E2).
    assert (A : Se s1 /\ cut s1 = false).
    { destruct (trimmed N s) eqn:Et; [exact (open_section_se _ _ _ _ _ F E1)|injection E1 as <-; split; [exact F|exact (uncut s K Et)]]. }
    destruct A as [A A0]. cbv zeta in E2.
    assert (D : Se (if sequin_mode N s1 then s1 else toggle_sequins N s1) /\ cut (if sequin_mode N s1 then s1 else toggle_sequins N s1) = false).
    { destruct (sequin_mode N s1); [auto|]. destruct (se_toggle s1 A) as (D & B1 & _). rewrite B1. auto. }
    destruct (sequin_at_se _ _ _ _ (proj1 D) (proj2 D) E2). split; [assumption|apply uncut_knows; assumption].
  - exact (change_se _ _ _ H E).
  - injection E as <-. apply sk_trimmed. apply (se_add s STOP F); [code|discriminate].
  - injection E as <-. destruct (writes_speeds c); [|exact H]. destruct (se_add s SLOW F ltac:(code) ltac:(discriminate)) as (A & B & D).
    split; [exact A|]. unfold knows. rewrite B, D. exact K.
  - injection E as <-. destruct (writes_speeds c); [|exact H]. destruct (se_add s FAST F ltac:(code) ltac:(discriminate)) as (A & B & D).
    split; [exact A|]. unfold knows. rewrite B, D. exact K.
  - injection E as <-. apply sk_trimmed. apply (se_add s END F); [code|discriminate].
  - injection E as <-.
    destruct (se_leave s (negb (c0 =? CONTINGENCY_SEQUIN_UTILIZE) && sequin_mode N s) F) as (A & B1 & B2 & _).
    set (s1 := if negb (c0 =? CONTINGENCY_SEQUIN_UTILIZE) && sequin_mode N s then toggle_sequins N s else s) in *. cbv zeta.
    split; [|unfold knows in *; rewrite <- B1, <- B2 in K; exact K].
    destruct A as [? ? ? ? ?]. constructor; attrs; try assumption. exact (Hv c0 eq_refl).
  - apply bind_ok in E. destruct E as ([s1 q] & E1 & E2). injection E2 as <-. unfold needle_in_source in E1.
    apply bind_ok in E1. destruct E1 as (i & _ & E1). apply bind_ok in E1. destruct E1 as (b & _ & E1). injection E1 as <- _.
    split; [se F|exact K].
  - apply bind_ok in E. destruct E as ([s1 q] & E1 & E2). injection E2 as <-. unfold needle_in_source in E1.
    apply bind_ok in E1. destruct E1 as (i & _ & E1). apply bind_ok in E1. destruct E1 as (b & _ & E1). injection E1 as <- _.
    split; [se F|exact K].
Qed.
Lemma main_loop_se : forall rest pos s s', Sk s -> Forall (fun a => op_unties (classify (cmd_of (scmd a)))) rest ->
  main_loop N c seq src pos rest s = Ok s' -> Sk s'.
Proof.
  induction rest as [|a rest IH]; intros pos s s' H Ho E; cbn [main_loop] in E.
  - injection E as <-. apply sk_trimmed. apply (se_add s END (proj1 H)); [code|discriminate].
  - apply bind_ok in E. destruct E as ([x y] & E1 & E2). inversion Ho as [|? ? Ha Hr]; subst.
    apply bind_ok in E2. destruct E2 as (s1 & E2 & E3).
    assert (A : Sk s1).
    { refine (exec_se _ _ _ _ _ _ _ _ _ Ha (fun v => classify_sequins _ v) E2). destruct H as [[? ? ? ? ?] K].
      split; [constructor; attrs; try assumption; apply high_flags_mask|exact K]. }
    destruct (_ =? END); [injection E3 as <-; exact A|]. exact (IH _ _ _ A Hr E3).
Qed.
End Methods.

Theorem transcode_settles : forall (set : settings N) (p : pattern N) o ths, transcode N set p = Ok (o, ths) ->
  s_full_jump N set = Some true ->
  (s_sequin_contingency N set = None \/ exists v, s_sequin_contingency N set = Some v /\
     In v [CONTINGENCY_SEQUIN_REMOVE; CONTINGENCY_SEQUIN_UTILIZE; CONTINGENCY_SEQUIN_JUMP; CONTINGENCY_SEQUIN_STITCH]) ->
  Forall (fun a => cmd_of (scmd a) <> TIE_ON /\ cmd_of (scmd a) <> TIE_OFF) (p_stitches N p) ->
  settles Qeq true 0%Q 0%Q o.
Proof.
  intros set p o ths E Hf Hs Ht. unfold transcode in E. apply bind_ok in E. destruct E as (seq & _ & E).
  apply bind_ok in E. destruct E as (s & E & E'). injection E' as <- <-.
  refine (e_out _ (proj1 (main_loop_se _ seq (p_stitches N p) _ _ _ _ _ _ _ E))).
  - cbn [init_config full_jump]. rewrite Hf. reflexivity.
  - assert (I0 : In (sequin_contingency N (init_state N set)) [CONTINGENCY_SEQUIN_REMOVE; CONTINGENCY_SEQUIN_UTILIZE; CONTINGENCY_SEQUIN_JUMP; CONTINGENCY_SEQUIN_STITCH]).
    { cbn [init_state sequin_contingency]. unfold get. destruct Hs as [-> | (v & -> & Hv)]; [|exact Hv].
      destruct (match s_strip_sequins N set with Some a => a | None => true end); cbn [In]; tauto. }
    destruct (_ =? NEEDLE_SET); (split; [constructor|]); try exact I0; try reflexivity; try (intros _; reflexivity).
  - eapply Forall_impl; [|exact Ht]. intros a [H1 H2]. cbn beta in *. generalize dependent (cmd_of (scmd a)). intros k H1 H2. unfold classify.
    repeat match goal with
    | |- context [if ?c =? ?k then _ else _] => destruct (Z.eqb_spec c k) as [?|?]; [first [exact I|contradiction]|]
    end. exact I.
Qed.
End Settle.
