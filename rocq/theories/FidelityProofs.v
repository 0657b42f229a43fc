(** Needle points through encoding, rounding and the views of the formats. *)
From Coq Require Import ZArith QArith Qabs List Bool Lia Lqa.
From Verif Require Import PyBase EmbConst StreamModel StreamSpec StreamProofs FunctionsModel ThreadModel NumModel NumQ
  MatrixModel EncoderModel EncoderProofs EncoderSpec MetricSpec EncoderMetricProofs QuantModel QuantProofs
  DstModel DstSpec DstFileProofs JefSpec PecSpec PropertiesEncoder FidelitySpec.
Import ListNotations.
Open Scope Z_scope.

(** ** Needle points of lists *)
Lemma points_cons : forall C (a : stitch C) l,
  needle_points (a :: l) = (if cmd_of (scmd a) =? STITCH then [(sx a, sy a)] else []) ++ needle_points l.
Proof.
  intros C a l. unfold needle_points. cbn [filter]. change (is_cmd STITCH a) with (cmd_of (scmd a) =? STITCH).
  destruct (_ =? _); reflexivity.
Qed.
Lemma points_nil : forall C, needle_points (C := C) [] = []. Proof. reflexivity. Qed.
Lemma points_app : forall C (a b : list (stitch C)), needle_points (a ++ b) = needle_points a ++ needle_points b.
Proof. intros C a b. unfold needle_points. rewrite filter_app, map_app. reflexivity. Qed.

Lemma points_closed : forall l, needle_points (closed l) = needle_points l.
Proof.
  intros l. unfold closed. destruct (needle_after 0 0 l) as [x y]. rewrite points_app. cbn. apply app_nil_r.
Qed.

Lemma points_before_end : forall A (l : list (stitch A)), (exists a, l = before_end l ++ [a]) ->
  Exists (fun s => cmd_of (scmd s) = END) l -> needle_points (before_end l) = needle_points l.
Proof.
  intros A l (a & E) X.
  assert (Ca : cmd_of (scmd a) = END).
  { apply Exists_exists in X. destruct X as (s & I & Cs). rewrite E in I. apply in_app_or in I as [I|[->|[]]]; [|exact Cs].
    exfalso. clear E a. induction l as [|b l IH]; [exact I|]. cbn [before_end] in I.
    destruct (cmd_of (scmd b) =? END) eqn:Eb; [exact I|]. destruct I as [->|I]; [rewrite Cs in Eb; discriminate|exact (IH I)]. }
  rewrite E at 2. rewrite points_app, points_cons, Ca. cbn. rewrite app_nil_r. reflexivity.
Qed.

Lemma points_dst_view : forall ex l, needle_points (dst_view ex l) = needle_points l.
Proof.
  intros ex. induction l as [|s l IH]; [reflexivity|]. cbn [dst_view]. rewrite points_app, IH, points_cons. f_equal.
  destruct (Z.eqb_spec (cmd_of (scmd s)) TRIM) as [E|E].
  - rewrite E. change (TRIM =? STITCH) with false. cbn iota. clear IH. induction ex as [|d ex IHe]; [reflexivity|].
    cbn [map]. rewrite points_cons, IHe. reflexivity.
  - rewrite points_cons. cbn [scmd sx sy]. rewrite points_nil, app_nil_r.
    unfold dst_name. destruct (Z.eqb_spec (cmd_of (scmd s)) STOP) as [Es|Es].
    + rewrite Es. reflexivity.
    + unfold cmd_of. rewrite <- Z.land_assoc, Z.land_diag. reflexivity.
Qed.

Lemma points_renamed : forall l : list (stitch Z),
  needle_points (renamed (as_color_change [END]) l) = needle_points l.
Proof.
  induction l as [|s l IH]; [reflexivity|]. cbn [renamed]. unfold as_color_change at 1. cbn [existsb].
  rewrite points_cons. destruct (Z.eqb_spec (cmd_of (scmd s)) END) as [E|E].
  - cbn [orb]. rewrite E. exact IH.
  - cbn [orb]. destruct (Z.eqb_spec (cmd_of (scmd s)) STOP) as [Es|Es]; rewrite points_cons, IH; cbn [scmd sx sy].
    + rewrite Es. reflexivity.
    + unfold cmd_of. rewrite <- Z.land_assoc, Z.land_diag. reflexivity.
Qed.

Lemma points_jef_view : forall n l odd, needle_points (jef_view n odd l) = needle_points l.
Proof.
  intros n. induction l as [|s l IH]; intros odd; [reflexivity|]. cbn [jef_view]. rewrite points_cons.
  destruct (Z.eqb_spec (cmd_of (scmd s)) STOP) as [E|E].
  { rewrite points_cons, IH, E. cbn [scmd]. destruct odd; reflexivity. }
  destruct (Z.eqb_spec (cmd_of (scmd s)) COLOR_CHANGE) as [E1|E1].
  { rewrite points_cons, IH, E1. reflexivity. }
  destruct (Z.eqb_spec (cmd_of (scmd s)) TRIM) as [E2|E2].
  { rewrite points_app, IH, E2. change (TRIM =? STITCH) with false. cbn iota. f_equal. clear IH.
    induction n as [|n IHn]; [reflexivity|]. cbn [repeat]. rewrite points_cons. exact IHn. }
  rewrite points_cons, IH. cbn [scmd sx sy]. unfold cmd_of. rewrite <- Z.land_assoc, Z.land_diag. reflexivity.
Qed.

Lemma subseq_nil_l : forall A (l : list A), EncoderSpec.subseq [] l.
Proof. induction l; constructor; assumption. Qed.
Lemma subseq_refl : forall A (l : list A), EncoderSpec.subseq l l.
Proof. induction l; constructor; assumption. Qed.
Lemma subseq_trans : forall A (b c : list A), EncoderSpec.subseq b c -> forall a, EncoderSpec.subseq a b -> EncoderSpec.subseq a c.
Proof.
  induction 1 as [|x b c _ IH|x b c _ IH]; intros a H.
  - exact H.
  - constructor. apply IH. exact H.
  - inversion H; subst; constructor; apply IH; assumption.
Qed.
Lemma subseq_skips : forall A (p q l : list A), EncoderSpec.subseq q l -> EncoderSpec.subseq q (p ++ l).
Proof. induction p as [|a p IH]; intros q l H; [exact H|]. cbn [app]. constructor. apply IH. exact H. Qed.

Lemma points_pec_view : forall l jumped first px py,
  EncoderSpec.subseq (needle_points l) (needle_points (pec_view jumped first px py l)).
Proof.
  induction l as [|s l IH]; intros jumped first px py; [constructor|]. cbn [pec_view]. rewrite points_cons.
  destruct (Z.eqb_spec (cmd_of (scmd s)) STITCH) as [E|E].
  { rewrite points_app, points_cons. apply subseq_skips. cbn [scmd sx sy].
    change (cmd_of STITCH =? STITCH) with true. cbn iota. cbn [app]. apply sub_take. apply IH. }
  destruct (Z.eqb_spec (cmd_of (scmd s)) JUMP) as [E1|E1].
  { rewrite points_app, points_cons. apply subseq_skips. cbn [scmd]. apply IH. }
  destruct (Z.eqb_spec (cmd_of (scmd s)) COLOR_CHANGE) as [E2|E2].
  { rewrite points_app, points_cons. apply subseq_skips. cbn [scmd]. apply IH. }
  apply IH.
Qed.

(** ** Rounding *)
Definition near_point (p : Q * Q) (z : Z * Z) : Prop := near (fst p) (fst z) /\ near (snd p) (snd z).

Lemma points_quantised : forall l xx yy,
  Forall2 near_point (needle_points l) (needle_points (apply_rel xx yy (quantise qz_q xx yy l))).
Proof.
  induction l as [|s l IH]; intros xx yy; [constructor|]. cbn [quantise apply_rel sx sy scmd]. rewrite !points_cons. cbn [scmd sx sy].
  apply Forall2_app; [|apply IH]. destruct (_ =? _); constructor; [|constructor]. split; cbn [fst snd]; apply near_next.
Qed.
Lemma points_written : forall l, Forall2 near_point (needle_points l) (needle_points (written l)).
Proof. intros l. apply points_quantised. Qed.

Definition whole_point (p : Q * Q) : Prop := integral (fst p) /\ integral (snd p).
Definition same_point (p : Q * Q) (z : Z * Z) : Prop := (fst p == inject_Z (fst z) /\ snd p == inject_Z (snd z))%Q.

Lemma near_whole : forall p z, near_point p z -> whole_point p -> same_point p z.
Proof. intros p z [[_ H1] [_ H2]] [W1 W2]. split; auto. Qed.

Lemma subseq_near : forall qs ps, EncoderSpec.subseq qs ps -> forall zs, Forall2 near_point ps zs -> Forall whole_point qs ->
  exists ws, EncoderSpec.subseq ws zs /\ Forall2 same_point qs ws.
Proof.
  induction 1 as [|p q l _ IH|p q l _ IH]; intros zs F W.
  - inversion F; subst. exists []. split; constructor.
  - inversion F as [|? z ? zs' Hz Fz]; subst. destruct (IH _ Fz W) as (ws & A & B). exists ws. split; [constructor; exact A|exact B].
  - inversion F as [|? z ? zs' Hz Fz]; subst. inversion W as [|? ? Wp Wq]; subst. destruct (IH _ Fz Wq) as (ws & A & B).
    exists (z :: ws). split; [constructor; exact A|]. constructor; [apply near_whole; assumption|exact B].
Qed.

Lemma forall2_near : forall ps zs, Forall2 near_point ps zs -> Forall whole_point ps -> Forall2 same_point ps zs.
Proof.
  induction 1 as [|p z ps zs H _ IH]; intros W; constructor; inversion W; subst; [apply near_whole; assumption|apply IH; assumption].
Qed.

(** ** The source *)
Section Source.
Variables (qcos qsin : Q -> Q) (qorient : Q -> Q -> Q -> Q -> Q -> Q * Q).
Notation N := (QNum qcos qsin qorient).

(** No transformation asked for by the settings. *)
Definition untransformed (set : settings N) : Prop :=
  s_translate N set = None /\ s_scale N set = None /\ s_rotate N set = None.

Lemma sewn_rounded : forall set (a : stitch Q) q, untransformed set -> s_round N set = Some true ->
  sewn_at (N := N) set a = Ok q ->
  whole_point q /\ (Qabs (fst q - sx a) <= 1 # 2 /\ Qabs (snd q - sy a) <= 1 # 2)%Q.
Proof.
  intros set a q (U1 & U2 & U3) R. unfold sewn_at. unfold init_matrix. rewrite U1, U2, U3, R.
  cbn [point_in_matrix_space get_identity m0 m1 m2 m3 m4 m5 m6 m7 m8 f0 f1 fadd fmul fround QNum bindr].
  intros E. injection E as <-. cbn [fst snd].
  set (x := (sx a * 1 + sy a * 0 + 1 * 0)%Q). set (y := (sx a * 0 + sy a * 1 + 1 * 0)%Q).
  assert (Ex : (x == sx a)%Q) by (unfold x; ring). assert (Ey : (y == sy a)%Q) by (unfold y; ring).
  clearbody x y. pose proof (q_round_half x) as Hx. pose proof (q_round_half y) as Hy.
  split; [split; apply integral_Z|]. split; apply Qabs_le; lra.
Qed.

Lemma close_half : forall (a : stitch Q) q z, (Qabs (fst q - sx a) <= 1 # 2 /\ Qabs (snd q - sy a) <= 1 # 2)%Q -> same_point q z ->
  half_unit a z.
Proof.
  intros a q z [H1 H2] [E1 E2]. apply Qabs_le in H1, H2. unfold half_unit. rewrite <- E1, <- E2. lra.
Qed.

Lemma forall2_compose : forall A B C (P : A -> B -> Prop) (R : B -> C -> Prop) (S : A -> C -> Prop),
  (forall a b c, P a b -> R b c -> S a c) -> forall l m n, Forall2 P l m -> Forall2 R m n -> Forall2 S l n.
Proof.
  intros A B C P R S H l m n F. revert n. induction F as [|a b l m Hab _ IH]; intros n G; inversion G; subst; constructor; eauto.
Qed.

Lemma sewn_points : forall set (l : list (stitch Q)) qs, untransformed set -> s_round N set = Some true ->
  Forall2 (fun a q => sewn_at (N := N) set a = Ok q) l qs ->
  Forall whole_point qs /\ Forall2 (fun a q => (Qabs (fst q - sx a) <= 1 # 2 /\ Qabs (snd q - sy a) <= 1 # 2)%Q) l qs.
Proof.
  intros set l qs U R F. induction F as [|a q l qs H _ [IH1 IH2]]; [split; constructor|].
  destruct (sewn_rounded set a q U R H) as [W A]. split; constructor; assumption.
Qed.

(** The needle points written for a design. *)
Lemma encoded_points : forall (set : settings N) (p : pattern N) out threads,
  untransformed set -> s_round N set = Some true ->
  Forall (fun a => has_command matrix_commands a = false) (until_end (p_stitches N p)) ->
  transcode N set p = Ok (out, threads) ->
  stitches_kept (p_stitches N p) (needle_points (written out)) /\
  (plain_settings set ->
   Forall (fun a => has_command (matrix_commands ++ stitching_commands) a = false) (until_end (p_stitches N p)) ->
   stitches_exact (p_stitches N p) (needle_points (written out))).
Proof.
  intros set p out threads U R Hm E. split.
  - destruct (C24_penetrations_kept N set p out threads E Hm) as (qs & Q & S).
    destruct (sewn_points set _ qs U R Q) as [W A].
    destruct (subseq_near _ _ S _ (points_written out) W) as (zs & B & D). exists zs. split; [|exact B].
    eapply forall2_compose; [|exact A|exact D]. intros a b c. apply close_half.
  - intros Hp Hs. pose proof (C24_no_other_penetrations N set p out threads E Hp Hs) as Q.
    destruct (sewn_points set _ _ U R Q) as [W A]. unfold stitches_exact.
    eapply forall2_compose; [|exact A|exact (forall2_near _ _ (points_written out) W)]. intros a b c. apply close_half.
Qed.
End Source.
