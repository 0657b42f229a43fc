(** C160, C161: where an encoded pattern goes. *)
From Coq Require Import ZArith List Bool Lia QArith Qabs Qround Lqa.
From Verif Require Import PyBase EmbConst FunctionsModel ThreadModel NumModel NumQ MatrixModel EncoderModel BitLemmas EncoderProofs
  FrameSpec EncoderMetricProofs EncoderFrameProofs QuantProofs.
Import ListNotations.
Open Scope Z_scope.

Section Frame.
(** cos and sin in degrees, and the point at distance l from (x0, y0) in the direction of (x1, y1), of which only this is
    used: if (x1, y1) is farther than that, the point is between the two. *)
Variables (qcos qsin : Q -> Q) (qorient : Q -> Q -> Q -> Q -> Q -> Q * Q).
Notation N := (QNum qcos qsin qorient).
Definition direction_between : Prop := forall x0 y0 x1 y1 l, (0 < l)%Q ->
  (l * l < (x1 - x0) * (x1 - x0) + (y1 - y0) * (y1 - y0))%Q ->
  exists t, (0 <= t /\ t <= 1)%Q /\ (fst (qorient x0 y0 x1 y1 l) == x0 + t * (x1 - x0))%Q /\
    (snd (qorient x0 y0 x1 y1 l) == y0 + t * (y1 - y0))%Q.

(** Where the settings put a command of the source. *)
Definition settings_place (set : settings N) (a : stitch Q) : Q * Q :=
  place (match s_translate N set with Some t => t | None => (0, 0) end)%Q
    (match s_scale N set with Some (ScaleXY _ u v) => (u, v) | Some (ScaleOne _ u) => (u, u) | None => (1, 1) end)%Q
    (match s_rotate N set with Some t => qcos t | None => 1 end)%Q (match s_rotate N set with Some t => qsin t | None => 0 end)%Q
    (sx a) (sy a).

(** The entries of the matrix of the settings. *)
Lemma settings_point : forall set a, let p := point_in_matrix_space N (init_matrix N set) (sx a) (sy a) in
  (fst p == fst (settings_place set a))%Q /\ (snd p == snd (settings_place set a))%Q.
Proof.
  intros set [x y k]. unfold settings_place, init_matrix, place, post_scale, post_rotate, post_translate. cbn [sx sy].
  destruct (s_translate N set) as [[tx ty]|], (s_scale N set) as [[u v|u]|], (s_rotate N set) as [t|];
  cbn [point_in_matrix_space matrix_multiply get_identity get_scale get_translate get_rotate m0 m1 m2 m3 m4 m5 m6 m7 m8
       f0 f1 fadd fmul fopp fcos fsin feqb QNum fst snd Qeq_bool andb];
  change (Qeq_bool 0 0) with true; cbn [andb m0 m1 m2 m3 m4 m5 m6 m7 m8 matrix_multiply get_scale get_translate get_rotate get_identity f0 f1 fadd fmul fopp fcos fsin QNum];
  repeat match goal with v : F _ |- _ => change Q in v end; split; ring.
Qed.

Lemma frame_eq : forall f x y x' y', (x == x')%Q -> (y == y')%Q -> in_frame f x y -> in_frame f x' y'.
Proof. intros f x y x' y' Ex Ey. unfold in_frame. rewrite Ex, Ey. auto. Qed.
Lemma mid_between : forall l h a b t : Q, (0 <= t /\ t <= 1 -> l <= a /\ a <= h -> l <= b /\ b <= h -> l <= a + t * (b - a) /\ a + t * (b - a) <= h)%Q.
Proof. intros l h a b t [T1 T2] [A1 A2] [B1 B2]. split; nra. Qed.
Lemma frame_mid : forall f x y x' y' t, (0 <= t /\ t <= 1)%Q -> in_frame f x y -> in_frame f x' y' ->
  in_frame f (x + t * (x' - x))%Q (y + t * (y' - y))%Q.
Proof.
  intros f x y x' y' t T (A1 & A2 & A3 & A4) (B1 & B2 & B3 & B4).
  destruct (mid_between _ _ x x' t T (conj A1 A2) (conj B1 B2)). destruct (mid_between _ _ y y' t T (conj A3 A4) (conj B3 B4)).
  split; [|split; [|split]]; assumption.
Qed.
Lemma frame_wider : forall f x y, in_frame f x y -> in_frame (with_origin f) x y.
Proof.
  intros f x y (A1 & A2 & A3 & A4). unfold in_frame, with_origin. cbn [left_ right_ top_ bottom_].
  assert (L : forall a b, a <= b -> (inject_Z a <= inject_Z b)%Q) by (intros; rewrite <- Zle_Qle; assumption).
  split; [|split; [|split]]; (eapply Qle_trans; [|eassumption] || (eapply Qle_trans; [eassumption|])); apply L; lia.
Qed.
Lemma frame_origin : forall f, in_frame (with_origin f) 0 0.
Proof.
  intros f. unfold in_frame, with_origin. cbn [left_ right_ top_ bottom_]. change 0%Q with (inject_Z 0). rewrite <- !Zle_Qle. lia.
Qed.
Lemma round_frame : forall f x y, in_frame f x y -> in_frame f (inject_Z (q_round x)) (inject_Z (q_round y)).
Proof.
  intros f x y (A1 & A2 & A3 & A4). unfold in_frame. rewrite <- !Zle_Qle.
  split; [apply q_round_ge; lra|]. split; [apply q_round_le; lra|]. split; [apply q_round_ge; lra|apply q_round_le; lra].
Qed.

Lemma goes_op : forall a, op_goes (classify (cmd_of (scmd a))) -> goes_somewhere a.
Proof.
  intros a. unfold goes_somewhere. change (Z.land (scmd a) 255) with (cmd_of (scmd a)). generalize (cmd_of (scmd a)). intros k H.
  unfold classify in H.
  repeat match type of H with context[if ?k =? ?v then _ else _] => let e := fresh in destruct (Z.eqb_spec k v) as [e|]; [cbn [op_goes] in H; try contradiction; rewrite e; cbn [In]; tauto|] end.
  destruct H.
Qed.
Lemma allowed_op : forall (B P : Q -> Q -> Prop) (a : stitch Q), ~ transforms a -> positive_lengths a -> (forall x y, B x y -> P x y) \/ ~ ties_here a ->
  op_allowed B P a (classify (cmd_of (scmd a))).
Proof.
  intros B P a. unfold transforms, positive_lengths, ties_here. change (Z.land (scmd a) 255) with (cmd_of (scmd a)). generalize (cmd_of (scmd a)).
  intros k T L E. unfold classify.
  repeat match goal with |- context[if ?k =? ?v then _ else _] => let e := fresh in destruct (Z.eqb_spec k v) as [e|];
    [rewrite ?e in T, L, E; cbn [op_allowed]; try exact I; try (apply L; reflexivity); try (exfalso; apply T; cbn [In]; tauto);
     try (destruct E as [E|E]; [exact E|exfalso; apply E; cbn [In]; tauto])|] end.
  exact I.
Qed.
Lemma anchor_goes : forall (a : stitch Q), is_anchor (scmd a) = true -> goes_somewhere a.
Proof.
  intros a H. unfold is_anchor in H. unfold goes_somewhere. apply orb_true_iff in H. destruct H as [H|H]; [|apply Z.eqb_eq in H; rewrite H; cbn; tauto].
  apply orb_true_iff in H. destruct H as [H|H]; [|apply Z.eqb_eq in H; rewrite H; cbn; tauto].
  apply orb_true_iff in H. destruct H as [H|H]; apply Z.eqb_eq in H; rewrite H; cbn; tauto.
Qed.

Section Use.
Hypothesis (Hdir : direction_between).
Variables (set : settings N) (p : pattern N) (encoded : list (stitch Q)) (threads : list tref) (f : frame).
Hypothesis (Hlen : match s_max_stitch N set with Some (Fin _ l) => (0 < l)%Q | _ => True end)
           (Hsrc : Forall (fun a => ~ transforms a /\ positive_lengths a) (p_stitches N p))
           (Hin : forall a, In a (p_stitches N p) -> goes_somewhere a -> in_frame f (fst (settings_place set a)) (snd (settings_place set a)))
           (E : transcode N set p = Ok (encoded, threads)).

Lemma encoded_inside : forall (B P : Q -> Q -> Prop),
  (forall x y x' y', (x == x')%Q -> (y == y')%Q -> B x y -> B x' y') -> (forall x y x' y', (x == x')%Q -> (y == y')%Q -> P x y -> P x' y') ->
  (forall x y x' y' t, (0 <= t /\ t <= 1)%Q -> B x y -> B x' y' -> B (x + t * (x' - x))%Q (y + t * (y' - y))%Q) ->
  (forall x y x' y' t, (0 <= t /\ t <= 1)%Q -> P x y -> P x' y' -> P (x + t * (x' - x))%Q (y + t * (y' - y))%Q) ->
  (forall x y, P x y -> B x y) -> B 0%Q 0%Q -> (forall x y, in_frame f x y -> P x y) ->
  (forall x y, B x y -> P x y) \/ Forall (fun a => ~ ties_here a) (p_stitches N p) ->
  Forall (fine B P) encoded.
Proof.
  intros B P Beq Peq Bmid Pmid PB B0 FP Ties. revert E. unfold transcode. intros E0. apply bind_ok in E0. destruct E0 as (seq & _ & E0).
  cbv zeta in E0. apply bind_ok in E0. destruct E0 as (s & E1 & E2). injection E2 as <- _.
  assert (Hp : forall a, In a (p_stitches N p) -> goes_somewhere a ->
    in_frame f (fst (point_in_matrix_space N (init_matrix N set) (sx a) (sy a))) (snd (point_in_matrix_space N (init_matrix N set) (sx a) (sy a)))).
  { intros a Ia Ga. destruct (settings_point set a) as [X Y]. eapply frame_eq; [symmetry; exact X|symmetry; exact Y|apply Hin; assumption]. }
  refine (f_out _ _ _ _ _ _ _ (proj1 (main_loop_fr qcos qsin qorient B P (init_matrix N set) Beq Peq Bmid Pmid PB Hdir
    (init_config N set) seq (p_stitches N p) _ (p_stitches N p) 0 _ s _ _ _ E1))).
  - intros a Ia Ha. apply FP, Hp; [exact Ia|apply anchor_goes; exact Ha].
  - assert (K : forall ths, Ok_ qcos qsin qorient B P (init_matrix N set) (mkSt N (out N (init_state N set)) ths (nx N (init_state N set)) (ny N (init_state N set)) (order_index N (init_state N set)) (trimmed N (init_state N set))
                  (sequin_mode N (init_state N set)) (jumping N (init_state N set)) (high_flags N (init_state N set)) (max_stitch N (init_state N set)) (max_jump N (init_state N set))
                  (explicit_trim N (init_state N set)) (tie_on_contingency N (init_state N set)) (tie_off_contingency N (init_state N set))
                  (long_stitch_contingency N (init_state N set)) (sequin_contingency N (init_state N set)) (matrix N (init_state N set)))).
    { intros ths. split; [|intros X; discriminate X]. constructor; cbn; try reflexivity; [constructor|exact B0|].
      destruct (s_max_stitch N set) as [[l|]|]; cbn; try exact I. exact Hlen. }
    destruct (_ =? NEEDLE_SET); apply K.
  - intros a x y s0 Ia Hm Hpl G. unfold placed in Hpl. rewrite Hm in Hpl. specialize (Hp a Ia (goes_op a G)). apply FP.
    change (F N) with Q in *.
    destruct (point_in_matrix_space N (init_matrix N set) (sx a) (sy a)) as [u v]. cbn [fst snd] in Hp.
    destruct (rounding (init_config N set)); [|injection Hpl as <- <-; exact Hp].
    cbn [fround QNum bindr] in Hpl. injection Hpl as <- <-. apply round_frame. exact Hp.
  - apply Forall_forall. intros a Ia. rewrite Forall_forall in Hsrc. destruct (Hsrc a Ia) as [S1 S2]. apply allowed_op; [exact S1|exact S2|].
    destruct Ties as [T|T]; [left; exact T|right; rewrite Forall_forall in T; exact (T a Ia)].
Qed.

(** Every command of the encoded pattern is in the frame of the places of the source, with the origin. *)
Theorem C160_stays_in_frame : Forall (fun a => in_frame (with_origin f) (sx a) (sy a)) encoded.
Proof.
  eapply Forall_impl; [|apply (encoded_inside (in_frame (with_origin f)) (in_frame (with_origin f)))].
  - intros a [H _]. exact H.
  - apply frame_eq.
  - apply frame_eq.
  - apply frame_mid.
  - apply frame_mid.
  - auto.
  - apply frame_origin.
  - apply frame_wider.
  - left. auto.
Qed.

(** And pierces the cloth only in the frame of the places of the source, if it is not told to tie before it is there. *)
Theorem C161_pierces_in_frame_partial : Forall (fun a => ~ ties_here a) (p_stitches N p) ->
  Forall (fun a => pierces a -> in_frame f (sx a) (sy a)) encoded.
Proof.
  intros T. eapply Forall_impl; [|apply (encoded_inside (in_frame (with_origin f)) (in_frame f))].
  - intros a [_ H] D. apply H. unfold pierces in D. destruct D as [D|[D|[]]]; [left|right]; symmetry; exact D.
  - apply frame_eq.
  - apply frame_eq.
  - apply frame_mid.
  - apply frame_mid.
  - apply frame_wider.
  - apply frame_origin.
  - auto.
  - right. exact T.
Qed.
End Use.
End Frame.
Print Assumptions C160_stays_in_frame.
Print Assumptions C161_pierces_in_frame_partial.

(** A direction to compute with: between the two points, with the sum norm. *)
Definition between_orient (x0 y0 x1 y1 l : Q) : Q * Q :=
  let d := (Qabs (x1 - x0) + Qabs (y1 - y0))%Q in (x0 + l / d * (x1 - x0), y0 + l / d * (y1 - y0))%Q.
Lemma abs_square : forall v : Q, (v * v == Qabs v * Qabs v)%Q.
Proof. intros v. apply (Qabs_case v (fun w => (v * v == w * w)%Q)); intros _; ring. Qed.
Lemma between_direction : direction_between between_orient.
Proof.
  intros x0 y0 x1 y1 l Hl H. unfold between_orient. cbn [fst snd]. set (d := (Qabs (x1 - x0) + Qabs (y1 - y0))%Q).
  assert (A : (0 <= Qabs (x1 - x0))%Q) by apply Qabs_nonneg. assert (B : (0 <= Qabs (y1 - y0))%Q) by apply Qabs_nonneg.
  rewrite (abs_square (x1 - x0)), (abs_square (y1 - y0)) in H. unfold d in *. clear d. revert H A B. generalize (Qabs (x1 - x0)), (Qabs (y1 - y0)). intros a b H A B.
  assert (D : (l < a + b)%Q) by nra. exists (l / (a + b))%Q. split; [|split; reflexivity]. split.
  - apply Qle_shift_div_l; [|rewrite Qmult_0_l]; lra.
  - apply Qle_shift_div_r; [|rewrite Qmult_1_l]; lra.
Qed.

(** Turned by 90 degrees, doubled and moved, tied on and off, with stitches of at most 30: some of them split. *)
Definition c160_num : Num := QNum ex_cos ex_sin between_orient.
Definition c160_settings : settings c160_num :=
  mkSettings c160_num (Some (Fin c160_num 30%Q)) (Some (Fin c160_num 50%Q)) (Some true) (Some true) None None None None None None
    (Some (TieBool true)) (Some (TieBool true)) (Some CONTINGENCY_LONG_STITCH_SEW_TO)
    (Some (100, 200)%Q) (Some (ScaleOne c160_num 2%Q)) (Some 90%Q).
Definition c160_source : list (stitch Q) :=
  [mkS 10 0 STITCH; mkS 50 10 STITCH; mkS 50 60 STITCH; mkS 0 0 TRIM; mkS 80 60 JUMP; mkS 80 (121 # 2) STITCH; mkS 81 62 STITCH; mkS 0 0 END]%Q.
Definition c160_frame : frame := mkFrame (-24) 100 220 362.
Definition in_frame_b (f : frame) (x y : Q) : bool :=
  Qle_bool (inject_Z (left_ f)) x && Qle_bool x (inject_Z (right_ f)) && Qle_bool (inject_Z (top_ f)) y && Qle_bool y (inject_Z (bottom_ f)).
Lemma in_frame_true : forall f x y, in_frame_b f x y = true -> in_frame f x y.
Proof.
  intros f x y H. unfold in_frame_b in H. apply andb_true_iff in H. destruct H as [H H4]. apply andb_true_iff in H. destruct H as [H H3].
  apply andb_true_iff in H. destruct H as [H1 H2]. apply Qle_bool_iff in H1, H2, H3, H4. split; [|split; [|split]]; assumption.
Qed.
Example C160_case : direction_between between_orient /\
  Forall (fun a => ~ transforms a /\ positive_lengths a) c160_source /\ Forall (fun a => ~ ties_here a) c160_source /\
  (forall a, In a c160_source -> goes_somewhere a ->
     in_frame c160_frame (fst (settings_place ex_cos ex_sin between_orient c160_settings a)) (snd (settings_place ex_cos ex_sin between_orient c160_settings a))) /\
  match transcode c160_num c160_settings (mkP c160_num c160_source []) with
  | Ok (l, _) => List.length l = 32%nat
  | Err _ => False end.
Proof.
  split; [exact between_direction|]. split; [|split; [|split]].
  - repeat (constructor; [split; [intros H; cbn in H; repeat (destruct H as [H|H]; [discriminate H|]); exact H|intros H; discriminate H]|]). constructor.
  - repeat (constructor; [intros H; cbn in H; repeat (destruct H as [H|H]; [discriminate H|]); exact H|]). constructor.
  - intros a H. cbn [c160_source In] in H.
    repeat (destruct H as [<-|H]; [intros G; first [apply in_frame_true; vm_compute; reflexivity|exfalso; cbn in G; repeat (destruct G as [G|G]; [discriminate G|]); exact G]|]).
    destruct H.
  - vm_compute. reflexivity.
Qed.

(** Told to tie before it is there: the first four stitches are on the way from the origin. *)
Definition c161_settings : settings c160_num :=
  mkSettings c160_num None None None None None None None None None None (Some (TieBool true)) None None None None None.
Definition c161_source : list (stitch Q) := [mkS 0 0 TIE_ON; mkS 100 100 STITCH; mkS 110 100 STITCH; mkS 0 0 END]%Q.
Theorem C161_pierces_in_frame_refuted : exists set p encoded threads f a,
  Forall (fun a => ~ transforms a /\ positive_lengths a) (p_stitches c160_num p) /\
  (forall a, In a (p_stitches c160_num p) -> goes_somewhere a ->
     in_frame f (fst (settings_place ex_cos ex_sin between_orient set a)) (snd (settings_place ex_cos ex_sin between_orient set a))) /\
  transcode c160_num set p = Ok (encoded, threads) /\ In a encoded /\ pierces a /\ ~ in_frame f (sx a) (sy a).
Proof.
  pose (e := transcode c160_num c161_settings (mkP c160_num c161_source [])).
  exists c161_settings, (mkP c160_num c161_source []), (match e with Ok (l, _) => l | Err _ => [] end),
    (match e with Ok (_, t) => t | Err _ => [] end), (mkFrame 100 110 100 100),
    (match e with Ok (a :: _, _) => a | _ => mkS 0 0 END end)%Q.
  split.
  { cbn [p_stitches c161_source]. change (F c160_num) with Q.
    repeat (constructor; [split; [intros H; cbn in H; repeat (destruct H as [H|H]; [discriminate H|]); exact H|intros H; discriminate H]|]). constructor. }
  split.
  { intros a H. cbn [p_stitches c161_source In] in H.
    repeat (destruct H as [<-|H]; [intros G; first [apply in_frame_true; vm_compute; reflexivity|exfalso; cbn in G; repeat (destruct G as [G|G]; [discriminate G|]); exact G]|]).
    destruct H. }
  split; [vm_compute; reflexivity|]. split; [vm_compute; left; reflexivity|]. split; [vm_compute; left; reflexivity|].
  intros (H & _). vm_compute in H. apply H. reflexivity.
Qed.
Print Assumptions C161_pierces_in_frame_refuted.
