(** Where the encoder goes: between places that the source names, and the origin. *)
From Coq Require Import ZArith List Bool Lia QArith Qabs Qround Lqa.
From Verif Require Import PyBase EmbConst FunctionsModel ThreadModel NumModel MatrixModel EncoderModel
  BitLemmas EncoderProofs NumQ FrameSpec EncoderMetricProofs.
Import ListNotations.
Open Scope Z_scope.

Definition pierces_code (c : Z) : Prop := cmd_of c = STITCH \/ cmd_of c = SEQUIN_EJECT.

Lemma zero_part : forall x d n : Q, (0 < n)%Q -> (x == x + inject_Z 0 / n * d)%Q.
Proof. intros x d n H. change (inject_Z 0) with 0%Q. field. lra. Qed.

Section Frame.
Variables (qcos qsin : Q -> Q) (qorient : Q -> Q -> Q -> Q -> Q -> Q * Q).
Notation N := (QNum qcos qsin qorient).
Notation st := (st N).
(** [B] is where the machine may go, [P] where it may pierce. *)
Variables (B P : Q -> Q -> Prop) (m0 : mat N).
Hypothesis (Beq : forall x y x' y', (x == x')%Q -> (y == y')%Q -> B x y -> B x' y')
           (Peq : forall x y x' y', (x == x')%Q -> (y == y')%Q -> P x y -> P x' y').
Hypothesis (Bmid : forall x y x' y' t, (0 <= t /\ t <= 1)%Q -> B x y -> B x' y' -> B (x + t * (x' - x))%Q (y + t * (y' - y))%Q)
           (Pmid : forall x y x' y' t, (0 <= t /\ t <= 1)%Q -> P x y -> P x' y' -> P (x + t * (x' - x))%Q (y + t * (y' - y))%Q).
Hypothesis (PB : forall x y, P x y -> B x y).
(** A point at a given distance in the direction of another one farther away is between them. *)
Hypothesis (Horient : forall x0 y0 x1 y1 l, (0 < l)%Q -> (l * l < (x1 - x0) * (x1 - x0) + (y1 - y0) * (y1 - y0))%Q ->
  exists t, (0 <= t /\ t <= 1)%Q /\ (fst (qorient x0 y0 x1 y1 l) == x0 + t * (x1 - x0))%Q /\
    (snd (qorient x0 y0 x1 y1 l) == y0 + t * (y1 - y0))%Q).

Definition fine (a : stitch Q) : Prop := B (sx a) (sy a) /\ (pierces_code (scmd a) -> P (sx a) (sy a)).
Definition positive (l : limit N) : Prop := match l with Fin _ l => (0 < l)%Q | Inf _ => True end.

Record Fr (s : st) : Prop := mkFr {
  f_out : Forall fine (out N s);
  f_needle : B (nx N s) (ny N s);
  f_ms : positive (max_stitch N s);
  f_matrix : matrix N s = m0;
  f_high : Z.land (high_flags N s) FLAGS_MASK = high_flags N s }.
(** While sewing, the needle is where it may pierce. *)
Definition sewing_home (s : st) : Prop := trimmed N s = false -> P (nx N s) (ny N s).

Ltac fr H := destruct H as [? ? ? ? ?]; constructor; attrs; assumption.

Lemma fr_append : forall s a, Fr s -> fine a -> Fr (append N s a).
Proof.
  intros s a [H1 H2 H3 H4 H5] Ha. constructor; attrs; try assumption. apply Forall_app. split; [exact H1|constructor; [exact Ha|constructor]].
Qed.
Lemma fr_move : forall s x y, Fr s -> B x y -> Fr (update_needle_position N s x y).
Proof. intros s x y [H1 H2 H3 H4 H5] Hb. constructor; attrs; assumption. Qed.
Lemma fr_trimmed : forall s b, Fr s -> Fr (set_trimmed N s b). Proof. intros s b H. fr H. Qed.
Lemma fr_mode : forall s b, Fr s -> Fr (set_sequin_mode N s b). Proof. intros s b H. fr H. Qed.
Lemma fr_order : forall s b, Fr s -> Fr (set_order N s b). Proof. intros s b H. fr H. Qed.
Lemma fr_thread : forall s b, Fr s -> Fr (add_thread N s b). Proof. intros s b H. fr H. Qed.
Lemma fr_jumping : forall s b, Fr s -> Fr (set_jumping N s b). Proof. intros s b H. fr H. Qed.
Lemma fr_set_high : forall s v, Fr s -> Fr (set_high N s (Z.land v FLAGS_MASK)).
Proof. intros s v [? ? ? ? ?]. constructor; attrs; try assumption. apply high_flags_mask. Qed.

Lemma quiet_code : forall k h, Z.land h FLAGS_MASK = h -> 0 <= k < 256 -> k <> STITCH -> k <> SEQUIN_EJECT -> ~ pierces_code (Z.lor k h).
Proof. intros k h Hh Hk H1 H2 [H|H]; rewrite cmd_lor_high in H by assumption; congruence. Qed.
Lemma fr_add : forall s k, Fr s -> 0 <= k < 256 -> k <> STITCH -> k <> SEQUIN_EJECT -> Fr (add N s k).
Proof.
  intros s k H Hk H1 H2. apply fr_append; [exact H|]. split; [exact (f_needle _ H)|]. cbn [scmd]. intros D. exfalso.
  exact (quiet_code k _ (f_high _ H) Hk H1 H2 D).
Qed.
Ltac code := unfold STITCH, JUMP, TRIM, STOP, END, SLOW, FAST, COLOR_CHANGE, NEEDLE_SET, SEQUIN_MODE, SEQUIN_EJECT; lia.
Lemma fr_toggle : forall s, Fr s ->
  Fr (toggle_sequins N s) /\ nx N (toggle_sequins N s) = nx N s /\ ny N (toggle_sequins N s) = ny N s
  /\ trimmed N (toggle_sequins N s) = trimmed N s.
Proof.
  intros s H. unfold toggle_sequins. destruct (_ =? _); [|auto 8]. split; [|attrs; auto 8].
  apply fr_mode, fr_add; [exact H|code|code|code].
Qed.
Lemma fr_leave : forall s (b : bool), Fr s -> let s' := if b then toggle_sequins N s else s in
  Fr s' /\ nx N s' = nx N s /\ ny N s' = ny N s /\ trimmed N s' = trimmed N s.
Proof. intros s b H. destruct b; [apply fr_toggle; exact H|auto 8]. Qed.

(** Steps of one [n]th of the way. *)
Lemma gap_loop_fr : forall k s qx qy x0 y0 x1 y1 cmd (n i : Z), Fr s -> 0 < n -> 0 <= i -> i + Z.of_nat k <= n ->
  B x0 y0 -> B x1 y1 -> (pierces_code cmd -> P x0 y0 /\ P x1 y1) ->
  (qx == x0 + inject_Z i / inject_Z n * (x1 - x0))%Q -> (qy == y0 + inject_Z i / inject_Z n * (y1 - y0))%Q ->
  let s' := gap_loop N k qx qy ((x1 - x0) / inject_Z n)%Q ((y1 - y0) / inject_Z n)%Q cmd s in
  Fr s' /\ trimmed N s' = trimmed N s /\ (P (nx N s) (ny N s) -> P x0 y0 -> P x1 y1 -> P (nx N s') (ny N s')).
Proof.
  induction k as [|k IH]; intros s qx qy x0 y0 x1 y1 cmd n i H Hn Hi Hk B0 B1 Hc Ex Ey; cbn [gap_loop]; cbv zeta.
  { auto. }
  cbn [fadd QNum]. assert (Pn : (0 < inject_Z n)%Q) by (apply inject_pos; exact Hn).
  set (x := (qx + (x1 - x0) / inject_Z n)%Q). set (y := (qy + (y1 - y0) / inject_Z n)%Q).
  assert (Ex' : (x == x0 + inject_Z (i + 1) / inject_Z n * (x1 - x0))%Q).
  { unfold x. rewrite Ex, inject_Z_plus. change (inject_Z 1) with 1%Q. field. lra. }
  assert (Ey' : (y == y0 + inject_Z (i + 1) / inject_Z n * (y1 - y0))%Q).
  { unfold y. rewrite Ey, inject_Z_plus. change (inject_Z 1) with 1%Q. field. lra. }
  assert (T : (0 <= inject_Z (i + 1) / inject_Z n /\ inject_Z (i + 1) / inject_Z n <= 1)%Q).
  { split.
    - apply Qle_shift_div_l; [exact Pn|]. rewrite Qmult_0_l. change 0%Q with (inject_Z 0). rewrite <- Zle_Qle. lia.
    - apply Qle_shift_div_r; [exact Pn|]. rewrite Qmult_1_l. rewrite <- Zle_Qle. lia. }
  assert (Bq : B x y) by (eapply Beq; [symmetry; exact Ex'|symmetry; exact Ey'|apply Bmid; assumption]).
  assert (Pq : P x0 y0 -> P x1 y1 -> P x y) by (intros P0 P1; eapply Peq; [symmetry; exact Ex'|symmetry; exact Ey'|apply Pmid; assumption]).
  assert (H1 : Fr (update_needle_position N (append N s (mkS x y cmd)) x y)).
  { apply fr_move; [|exact Bq]. apply fr_append; [exact H|]. split; [exact Bq|]. cbn [scmd sx sy]. intros D. destruct (Hc D). auto. }
  destruct (IH _ x y x0 y0 x1 y1 cmd n (i + 1) H1 Hn ltac:(lia) ltac:(lia) B0 B1 Hc Ex' Ey') as (A1 & A2 & A3).
  split; [exact A1|]. split; [exact A2|]. intros _ P0 P1. exact (A3 (Pq P0 P1) P0 P1).
Qed.

Lemma interpolate_fr : forall s s' x y l data, Fr s -> B x y -> data = JUMP \/ data = STITCH /\ P (nx N s) (ny N s) /\ P x y ->
  interpolate_gap_stitches N s (nx N s) (ny N s) x y l data = Ok s' ->
  Fr s' /\ trimmed N s' = trimmed N s /\ (P (nx N s) (ny N s) -> P x y -> P (nx N s') (ny N s')).
Proof.
  intros s s' x y l data H Hb HD E. destruct l as [l|]; [|injection E as <-; auto].
  unfold interpolate_gap_stitches in E. destruct (_ || _) in E; [|injection E as <-; auto].
  destruct (fr_leave s ((data =? JUMP) && sequin_mode N s) H) as (A & B1 & B2 & B3).
  set (s1 := if (data =? JUMP) && sequin_mode N s then toggle_sequins N s else s) in *.
  apply bind_ok in E. destruct E as (rx & _ & E). apply bind_ok in E. destruct E as (stx & _ & E).
  apply bind_ok in E. destruct E as (ry & _ & E). apply bind_ok in E. destruct E as (sty & _ & E).
  set (n := if sty <? stx then stx else sty) in *. cbv zeta in E.
  apply bind_ok in E. destruct E as (ax & Ex & E). apply bind_ok in E. destruct E as (ay & Ey & E).
  injection E as <-. cbn [fsub fdivz QNum] in Ex, Ey. unfold q_div in Ex, Ey.
  destruct (Qeq_bool (inject_Z n) 0); [discriminate|]. injection Ex as <-. injection Ey as <-.
  destruct (Z_lt_le_dec 0 n) as [Hn|Hn].
  2:{ replace (Z.to_nat (n - 1)) with 0%nat by lia. cbn [gap_loop]. rewrite B1, B2. auto. }
  assert (Hc : pierces_code (Z.lor data (high_flags N s1)) -> P (nx N s) (ny N s) /\ P x y).
  { intros D. destruct HD as [-> | (_ & HP)]; [|exact HP]. exfalso. revert D. apply quiet_code; [exact (f_high _ A)|code|code|code]. }
  assert (Pn : (0 < inject_Z n)%Q) by (apply inject_pos; exact Hn).
  destruct (gap_loop_fr (Z.to_nat (n - 1)) s1 (nx N s) (ny N s) (nx N s) (ny N s) x y _ n 0 A Hn (Z.le_refl _) ltac:(lia)
    (f_needle _ H) Hb Hc) as (A1 & A2 & A3).
  { apply zero_part. exact Pn. }
  { apply zero_part. exact Pn. }
  split; [exact A1|]. split; [rewrite A2; exact B3|]. intros P0 P1. apply A3; [rewrite B1, B2; exact P0|exact P0|exact P1].
Qed.

Lemma stitch_at_fr : forall s x y, Fr s -> P x y -> Fr (stitch_at N s x y) /\ P (nx N (stitch_at N s x y)) (ny N (stitch_at N s x y)).
Proof.
  intros s x y H Hp. unfold stitch_at, add_at. split; [|attrs; exact Hp]. apply fr_move; [|apply PB; exact Hp].
  apply fr_append; [exact H|]. split; cbn [sx sy]; auto.
Qed.
Lemma jump_at_fr : forall s x y, Fr s -> B x y -> Fr (jump_at N s x y) /\ nx N (jump_at N s x y) = x /\ ny N (jump_at N s x y) = y
  /\ trimmed N (jump_at N s x y) = trimmed N s.
Proof.
  intros s x y H Hb. unfold jump_at. destruct (fr_leave s (sequin_mode N s) H) as (A & B1 & B2 & B3).
  set (s1 := if sequin_mode N s then toggle_sequins N s else s) in *. split; [|attrs; auto].
  apply fr_move; [|exact Hb]. apply fr_append; [exact A|]. split; [exact Hb|]. cbn [scmd]. intros D. exfalso.
  revert D. apply quiet_code; [exact (f_high _ A)|code|code|code].
Qed.

Section Methods.
Variables (c : config) (seq : dict change).

Lemma jump_within_fr : forall s s' x y, Fr s -> P x y -> jump_to_within_stitchrange N c s x y = Ok s' -> Fr s' /\ trimmed N s' = trimmed N s.
Proof.
  intros s s' x y H Hp E. unfold jump_to_within_stitchrange in E. apply bind_ok in E. destruct E as (s1 & E1 & E2).
  destruct (interpolate_fr s s1 x y _ JUMP H (PB _ _ Hp) (or_introl eq_refl) E1) as (A & A2 & _).
  destruct (full_jump c); [|injection E2 as <-; auto]. destruct (_ || _) in E2; injection E2 as <-; [|auto].
  destruct (jump_at_fr s1 x y A (PB _ _ Hp)) as (D1 & _ & _ & D4). split; [exact D1|]. rewrite D4. exact A2.
Qed.
Lemma jump_to_fr : forall s s' x y, Fr s -> P x y -> jump_to N s x y = Ok s' -> Fr s' /\ sewing_home s' /\ P (nx N s') (ny N s').
Proof.
  intros s s' x y H Hp E. unfold jump_to in E. apply bind_ok in E. destruct E as (s1 & E1 & E2). injection E2 as <-.
  destruct (interpolate_fr s s1 x y _ JUMP H (PB _ _ Hp) (or_introl eq_refl) E1) as (A & A2 & _).
  destruct (jump_at_fr s1 x y A (PB _ _ Hp)) as (D1 & D2 & D3 & D4). split; [exact D1|].
  split; [intros _|]; rewrite D2, D3; exact Hp.
Qed.
Lemma needle_to_fr : forall s s' x y, Fr s -> P x y -> needle_to N s x y = Ok s' -> Fr s' /\ P (nx N s') (ny N s').
Proof.
  intros s s' x y H Hp E. unfold needle_to in E. apply bind_ok in E. destruct E as (s1 & E1 & E2). injection E2 as <-.
  destruct (interpolate_fr s s1 x y _ JUMP H (PB _ _ Hp) (or_introl eq_refl) E1) as (A & A2 & _). apply stitch_at_fr; assumption.
Qed.
Lemma sew_to_fr : forall s s' x y, Fr s -> P (nx N s) (ny N s) -> P x y -> sew_to N s x y = Ok s' -> Fr s' /\ P (nx N s') (ny N s').
Proof.
  intros s s' x y H H0 Hp E. unfold sew_to in E. apply bind_ok in E. destruct E as (s1 & E1 & E2). injection E2 as <-.
  destruct (interpolate_fr s s1 x y _ STITCH H (PB _ _ Hp) (or_intror (conj eq_refl (conj H0 Hp))) E1) as (A & A2 & _).
  apply stitch_at_fr; assumption.
Qed.
Lemma contingency_fr : forall s s' x y, Fr s -> P (nx N s) (ny N s) -> P x y -> stitch_with_contingency N s x y = Ok s' ->
  Fr s' /\ P (nx N s') (ny N s').
Proof.
  intros s s' x y H H0 Hp E. unfold stitch_with_contingency in E. destruct (_ =? _) in E; [exact (sew_to_fr _ _ _ _ H H0 Hp E)|].
  destruct (_ =? _) in E; [exact (needle_to_fr _ _ _ _ H Hp E)|]. injection E as <-. apply stitch_at_fr; assumption.
Qed.
Lemma sequin_at_fr : forall s s' x y, Fr s -> P (nx N s) (ny N s) -> P x y -> sequin_at N s x y = Ok s' -> Fr s' /\ P (nx N s') (ny N s').
Proof.
  intros s s' x y H H0 Hp E. unfold sequin_at in E. destruct (_ =? CONTINGENCY_SEQUIN_REMOVE) in E; [injection E as <-; auto|].
  apply bind_ok in E. destruct E as (s1 & E1 & E2). injection E2 as <-.
  destruct (interpolate_fr s s1 x y _ STITCH H (PB _ _ Hp) (or_intror (conj eq_refl (conj H0 Hp))) E1) as (A & A2 & _).
  assert (D : forall k, Fr (add_at N s1 k x y)).
  { intros k. apply fr_append; [exact A|]. split; cbn [sx sy]; auto. }
  split; [|attrs; exact Hp]. apply fr_move; [|apply PB; exact Hp].
  destruct (_ =? _); [apply D|]. destruct (_ =? _); [apply D|]. destruct (_ =? _); [apply D|exact A].
Qed.

(** ** Lock stitches *)
Lemma lock_fr : forall s ax ay l, Fr s -> P (nx N s) (ny N s) -> P ax ay -> positive l -> Fr (lock_stitch N s (nx N s) (ny N s) ax ay l).
Proof.
  intros s ax ay l H H0 Ha L. unfold lock_stitch.
  set (p := match l with Fin _ l => _ | Inf _ => _ end).
  assert (Pp : P (fst p) (snd p)).
  { unfold p. destruct l as [l|]; [|exact Ha]. cbn [positive] in L. cbn [fdist_gt foriented QNum].
    destruct (Qle_bool 0 l) eqn:E0; [|exfalso; assert (Qle_bool 0 l = true) by (apply Qle_bool_iff; lra); congruence].
    pose proof (gt_spec ((ax - nx N s) * (ax - nx N s) + (ay - ny N s) * (ay - ny N s)) (l * l)) as G.
    destruct (q_gt _ _); [|exact Ha].
    destruct (Horient (nx N s) (ny N s) ax ay l L G) as (t & Ht & E1 & E2).
    eapply Peq; [symmetry; exact E1|symmetry; exact E2|apply Pmid; assumption]. }
  destruct p as [bx by']. cbn [fst snd] in Pp. unfold towards. cbn [fadd fmul fsub f33 f66 f0 QNum].
  assert (T : forall t, (0 <= t /\ t <= 1)%Q -> fine (mkS (t * (bx - nx N s) + nx N s)%Q (t * (by' - ny N s) + ny N s)%Q STITCH)).
  { intros t Ht. assert (P (t * (bx - nx N s) + nx N s)%Q (t * (by' - ny N s) + ny N s)%Q).
    { eapply Peq; [| |apply (Pmid (nx N s) (ny N s) bx by' t Ht H0 Pp)]; ring. }
    split; cbn [sx sy]; auto. }
  repeat (apply fr_append; [|apply T; split; lra]). exact H.
Qed.
Lemma lock_keeps : forall s x y ax ay l, nx N (lock_stitch N s x y ax ay l) = nx N s /\
  ny N (lock_stitch N s x y ax ay l) = ny N s /\ trimmed N (lock_stitch N s x y ax ay l) = trimmed N s.
Proof. intros s x y ax ay l. unfold lock_stitch. destruct (match l with Fin _ _ => _ | Inf _ => _ end) as [bx by']. attrs. auto. Qed.

(** The places of the source, with the matrix in force, are where the needle may pierce. *)
Variable (src : list (stitch Q)).
Hypothesis (Hsrc : forall a, In a src -> is_anchor (scmd a) = true ->
  P (fst (point_in_matrix_space N m0 (sx a) (sy a))) (snd (point_in_matrix_space N m0 (sx a) (sy a)))).

Lemma at_index_in : forall i b, at_index N src i = Some b -> In b src.
Proof.
  intros i b E. unfold at_index in E. cbv zeta in E. destruct (_ || _) in E; [discriminate|]. eapply nth_error_In; exact E.
Qed.
Lemma lock_towards_fr : forall s i, Fr s -> P (nx N s) (ny N s) ->
  Fr (lock_towards N s (at_index N src i)) /\ nx N (lock_towards N s (at_index N src i)) = nx N s /\
  ny N (lock_towards N s (at_index N src i)) = ny N s /\ trimmed N (lock_towards N s (at_index N src i)) = trimmed N s.
Proof.
  intros s i H H0. unfold lock_towards. destruct (at_index N src i) as [b|] eqn:Eb; [|auto].
  apply at_index_in in Eb. pose proof (Hsrc b Eb) as K. rewrite (f_matrix _ H). revert K. change (F N) with Q in *.
  destruct (point_in_matrix_space N m0 (sx b) (sy b)) as [bx by']. cbn [fst snd]. intros K.
  destruct (is_anchor (scmd b)); [|auto]. split; [apply lock_fr; [exact H|exact H0|apply K; reflexivity|exact (f_ms _ H)]|].
  apply lock_keeps.
Qed.
Definition Ok_ (s : st) : Prop := Fr s /\ sewing_home s.
Lemma tie_off_fr : forall pos s, Fr s -> P (nx N s) (ny N s) ->
  Fr (tie_off N src pos s) /\ nx N (tie_off N src pos s) = nx N s /\ ny N (tie_off N src pos s) = ny N s /\
  trimmed N (tie_off N src pos s) = trimmed N s.
Proof. intros pos s H H0. unfold tie_off. destruct (_ =? _); [apply lock_towards_fr; assumption|auto]. Qed.
Lemma tie_on_fr : forall pos s, Fr s -> P (nx N s) (ny N s) ->
  Fr (tie_on N src pos s) /\ nx N (tie_on N src pos s) = nx N s /\ ny N (tie_on N src pos s) = ny N s /\
  trimmed N (tie_on N src pos s) = trimmed N s.
Proof. intros pos s H H0. unfold tie_on. destruct (_ =? _); [apply lock_towards_fr; assumption|auto]. Qed.

Lemma trim_here_fr : forall s, Fr s -> Ok_ (trim_here N s).
Proof.
  intros s H. unfold trim_here. destruct (fr_leave s (sequin_mode N s) H) as (A & B1 & B2 & B3).
  split; [|intros E; discriminate E]. apply fr_trimmed, fr_add; [exact A|code|code|code].
Qed.
Lemma close_fr : forall pos s, Ok_ s -> Ok_ (close_section N src pos s).
Proof.
  intros pos s [H Hh]. unfold close_section. destruct (trimmed N s) eqn:Et; cbn [negb]; [split; assumption|].
  destruct (tie_off_fr pos s H (Hh Et)) as (A & B1 & B2 & B3).
  destruct (explicit_trim N (tie_off N src pos s)); [apply trim_here_fr; exact A|]. split; [exact A|]. intros _. rewrite B1, B2. auto.
Qed.
Lemma trim_if_needed_fr : forall pos s, Ok_ s -> Ok_ (tie_off_and_trim_if_needed N src pos s).
Proof.
  intros pos s [H Hh]. unfold tie_off_and_trim_if_needed. destruct (trimmed N s) eqn:Et; cbn [negb]; [split; assumption|].
  destruct (tie_off_fr pos s H (Hh Et)) as (A & _). apply trim_here_fr. exact A.
Qed.
Lemma change_code : forall k t n, k = COLOR_CHANGE \/ k = NEEDLE_SET \/ k = STOP -> ~ pierces_code (encode_thread_change k (Some t) (Some n) None).
Proof.
  intros k t n Hk. unfold pierces_code. intros D.
  assert (X : cmd_of (encode_thread_change k (Some t) (Some n) None) = k).
  { apply cmd_thread_change. destruct Hk as [-> | [-> | ->]]; code. }
  rewrite X in D. destruct Hk as [-> | [-> | ->]], D as [D|D]; discriminate D.
Qed.
Lemma next_change_fr : forall s s', Fr s -> next_change_sequence N c seq s = Ok s' -> Ok_ s' /\ nx N s' = nx N s /\ ny N s' = ny N s.
Proof.
  intros s s' H E. unfold next_change_sequence in E. set (s1 := set_order N s (order_index N s + 1)) in *.
  assert (A : Fr s1) by (apply fr_order; exact H).
  destruct (dict_get (order_index N s1) seq) as [ch|]; [|discriminate]. injection E as <-.
  assert (G : forall s k, Fr s -> k = COLOR_CHANGE \/ k = NEEDLE_SET \/ k = STOP -> Fr (add_thread_change N s k (c_thread ch) (c_needle ch))).
  { intros s0 k H0 Hk. unfold add_thread_change. apply fr_append; [exact H0|]. split; [exact (f_needle _ H0)|]. cbn [scmd]. intros D. exfalso.
    exact (change_code _ _ _ Hk D). }
  assert (K : forall s2, Fr s2 -> nx N s2 = nx N s -> ny N s2 = ny N s -> Ok_ (set_trimmed N s2 true) /\
    nx N (set_trimmed N s2 true) = nx N s /\ ny N (set_trimmed N s2 true) = ny N s).
  { intros s2 H2 E1 E2. split; [split; [apply fr_trimmed; exact H2|intros X; discriminate X]|]. attrs. auto. }
  destruct (thread_change_command c =? COLOR_CHANGE).
  - cbv zeta. destruct (negb (order_index N s + 1 =? 0)); apply K; try reflexivity; [apply G; [apply fr_thread; exact A|auto]|apply fr_thread; exact A].
  - destruct (thread_change_command c =? NEEDLE_SET); [apply K; try reflexivity; apply G; [exact A|auto]|].
    destruct (thread_change_command c =? STOP); apply K; try reflexivity; [apply G; [apply fr_thread; exact A|auto]|exact A].
Qed.
Lemma declare_fr : forall s s', Fr s -> declare_not_trimmed N c seq s = Ok s' -> Fr s'.
Proof.
  intros s s' H E. unfold declare_not_trimmed in E. apply bind_ok in E. destruct E as (s1 & E1 & E2). injection E2 as <-.
  apply fr_trimmed. destruct (order_index N s =? -1); [|injection E1 as <-; exact H].
  destruct (next_change_fr _ _ H E1) as ([A _] & _). exact A.
Qed.
Lemma open_section_fr : forall pos x y s s', Fr s -> P x y -> open_section N c seq src pos x y s = Ok s' -> Fr s' /\ P (nx N s') (ny N s').
Proof.
  intros pos x y s s' H Hp E. unfold open_section in E. apply bind_ok in E. destruct E as (s1 & E1 & E2).
  pose proof (declare_fr _ _ H E1) as A. apply bind_ok in E2. destruct E2 as (s2 & E2 & E3). injection E3 as <-.
  destruct (jump_within_fr _ _ _ _ A Hp E2) as [D1 _]. destruct (stitch_at_fr s2 x y D1 Hp) as [F1 F2].
  destruct (tie_on_fr pos _ F1 F2) as (G1 & G2 & G3 & _). split; [exact G1|]. rewrite G2, G3. exact F2.
Qed.
Lemma color_break_fr : forall pos rest s s', Ok_ s -> color_break N c seq src pos rest s = Ok s' -> Ok_ s'.
Proof.
  intros pos rest s s' H E. unfold color_break in E. destruct (order_index N s <? 0); [injection E as <-; exact H|].
  pose proof (close_fr pos s H) as A. destruct (negb _) in E; [injection E as <-; exact A|].
  apply bind_ok in E. destruct E as (s1 & E1 & E2). injection E2 as <-. destruct (next_change_fr _ _ (proj1 A) E1) as ([D _] & _).
  split; [apply fr_trimmed; exact D|intros X; discriminate X].
Qed.
Lemma change_fr : forall pos s s', Ok_ s -> tie_off_trim_color_change N c seq src pos s = Ok s' -> Ok_ s'.
Proof.
  intros pos s s' H E. unfold tie_off_trim_color_change in E. apply bind_ok in E. destruct E as (s1 & E1 & E2). injection E2 as <-.
  destruct (next_change_fr _ _ (proj1 (close_fr pos s H)) E1) as ([D _] & _). split; [apply fr_trimmed; exact D|intros X; discriminate X].
Qed.

Definition op_goes (o : op) : Prop :=
  match o with OpStitch | OpNeedleAt | OpSewTo | OpFrameEject | OpJump | OpSequinEject => True | _ => False end.
Definition op_allowed (a : stitch Q) (o : op) : Prop :=
  match o with
  | OpMaxStitch => (0 < sx a)%Q
  | OpTieOn | OpTieOff => forall x y, B x y -> P x y
  | OpTranslate | OpScaleOrigin | OpRotateOrigin | OpScale | OpRotate | OpReset => False
  | _ => True
  end.
Lemma sew_exec_fr : forall pos x y s s' (f : st -> res st), Ok_ s -> P x y ->
  (forall s', P (nx N s) (ny N s) -> f s = Ok s' -> Fr s' /\ P (nx N s') (ny N s')) ->
  (if trimmed N s then open_section N c seq src pos x y s
   else if jumping N s then do s <- needle_to N s x y; Ok (set_jumping N s false)
   else f s) = Ok s' -> Ok_ s'.
Proof.
  intros pos x y s s' f [H Hh] Hp Hf E. destruct (trimmed N s) eqn:Et.
  - destruct (open_section_fr _ _ _ _ _ H Hp E). split; [assumption|intros _; assumption].
  - destruct (jumping N s).
    + apply bind_ok in E. destruct E as (s1 & E1 & E2). injection E2 as <-.
      destruct (needle_to_fr _ _ _ _ H Hp E1). split; [apply fr_jumping; assumption|intros _; assumption].
    + destruct (Hf s' (Hh Et) E). split; [assumption|intros _; assumption].
Qed.
Lemma exec_fr : forall pos rest a x y o s s', Ok_ s -> (op_goes o -> P x y) -> op_allowed a o ->
  exec N c seq src pos rest a x y o s = Ok s' -> Ok_ s'.
Proof.
  intros pos rest a x y o s s' H Hp Ho E. assert (H' := H). destruct H' as [F Hh].
  destruct o; cbn [exec] in E; cbn [op_goes op_allowed] in Hp, Ho; try contradiction;
    try (injection E as <-; split; [fr F|exact Hh]).
  - exact (sew_exec_fr pos x y s s' (fun s => stitch_with_contingency N s x y) H (Hp I)
      (fun s' H0 E => contingency_fr s s' x y F H0 (Hp I) E) E).
  - exact (sew_exec_fr pos x y s s' (fun s => needle_to N s x y) H (Hp I)
      (fun s' H0 E => needle_to_fr s s' x y F (Hp I) E) E).
  - exact (sew_exec_fr pos x y s s' (fun s => sew_to N s x y) H (Hp I)
      (fun s' H0 E => sew_to_fr s s' x y F H0 (Hp I) E) E).
  - apply bind_ok in E. destruct E as (s1 & E1 & E2). injection E2 as <-.
    destruct (jump_to_fr _ _ _ _ (proj1 (trim_if_needed_fr pos s H)) (Hp I) E1) as (D & _ & _).
    split; [apply fr_trimmed, fr_add; [exact D|code|code|code]|intros X; discriminate X].
  - injection E as <-. apply trim_if_needed_fr. exact H.
  - exact (color_break_fr _ _ _ _ H E).
  - injection E as <-. destruct (tie_off_fr pos s F (Ho _ _ (f_needle _ F))) as (A & B1 & B2 & B3).
    split; [exact A|]. unfold sewing_home. rewrite B1, B2, B3. exact Hh.
  - injection E as <-. destruct (tie_on_fr pos s F (Ho _ _ (f_needle _ F))) as (A & B1 & B2 & B3).
    split; [exact A|]. unfold sewing_home. rewrite B1, B2, B3. exact Hh.
  - injection E as <-. apply trim_if_needed_fr. exact H.
  - destruct (jumping N s); [injection E as <-; exact H|]. destruct (jump_to_fr _ _ _ _ F (Hp I) E) as (D1 & D2 & _). split; assumption.
  - injection E as <-. destruct (fr_toggle s F) as (A & B1 & B2 & B3). split; [exact A|]. unfold sewing_home. rewrite B1, B2, B3. exact Hh.
  - apply bind_ok in E. destruct E as (s1 & E1 & E2).
    assert (A : Fr s1 /\ P (nx N s1) (ny N s1)).
    { destruct (trimmed N s) eqn:Et; [exact (open_section_fr _ _ _ _ _ F (Hp I) E1)|injection E1 as <-; auto]. }
    destruct A as [A A0]. cbv zeta in E2.
    assert (D : Fr (if sequin_mode N s1 then s1 else toggle_sequins N s1) /\
      P (nx N (if sequin_mode N s1 then s1 else toggle_sequins N s1)) (ny N (if sequin_mode N s1 then s1 else toggle_sequins N s1))).
    { destruct (sequin_mode N s1); [auto|]. destruct (fr_toggle s1 A) as (D & B1 & B2 & _). rewrite B1, B2. auto. }
    destruct (sequin_at_fr _ _ _ _ (proj1 D) (proj2 D) (Hp I) E2). split; [assumption|intros _; assumption].
  - exact (change_fr _ _ _ H E).
  - injection E as <-. split; [apply fr_trimmed, fr_add; [exact F|code|code|code]|intros X; discriminate X].
  - injection E as <-. destruct (writes_speeds c); [|exact H]. split; [apply fr_add; [exact F|code|code|code]|exact Hh].
  - injection E as <-. destruct (writes_speeds c); [|exact H]. split; [apply fr_add; [exact F|code|code|code]|exact Hh].
  - injection E as <-. split; [apply fr_trimmed, fr_add; [exact F|code|code|code]|intros X; discriminate X].
  - injection E as <-.
    destruct (fr_leave s (negb (c0 =? CONTINGENCY_SEQUIN_UTILIZE) && sequin_mode N s) F) as (A & B1 & B2 & B3).
    split; [fr A|]. unfold sewing_home. attrs. rewrite B1, B2, B3. exact Hh.
Qed.

Lemma main_loop_fr : forall rest pos s s', Ok_ s ->
  (forall a x y s, In a rest -> matrix N s = m0 -> placed N c s a = Ok (x, y) -> op_goes (classify (cmd_of (scmd a))) -> P x y) ->
  Forall (fun a => op_allowed a (classify (cmd_of (scmd a)))) rest ->
  main_loop N c seq src pos rest s = Ok s' -> Ok_ s'.
Proof.
  induction rest as [|a rest IH]; intros pos s s' H Hp Ho E; cbn [main_loop] in E.
  - injection E as <-. split; [apply fr_trimmed, fr_add; [exact (proj1 H)|code|code|code]|intros X; discriminate X].
  - apply bind_ok in E. destruct E as ([x y] & E1 & E2). inversion Ho as [|? ? Ha Hr]; subst.
    apply bind_ok in E2. destruct E2 as (s1 & E2 & E3).
    assert (A : Ok_ s1).
    { refine (exec_fr _ _ _ _ _ _ _ _ _ _ Ha E2); [split; [apply fr_set_high; exact (proj1 H)|exact (proj2 H)]|].
      intros G. exact (Hp a x y s (or_introl eq_refl) (f_matrix _ (proj1 H)) E1 G). }
    destruct (_ =? END); [injection E3 as <-; exact A|].
    refine (IH _ _ _ A _ Hr E3). intros b u v t Ib. apply Hp. right. exact Ib.
Qed.
End Methods.
End Frame.
