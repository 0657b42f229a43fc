(** Step lengths: quantisation, gap filling, lock stitches, and what the formats receive. *)
From Coq Require Import ZArith QArith Qabs List Bool Lia Lqa.
From Verif Require Import PyBase EmbConst StreamModel StreamSpec StreamProofs FunctionsModel ThreadModel NumModel NumQ
  MatrixModel EncoderModel EncoderProofs EncoderSpec MetricSpec EncoderMetricProofs QuantModel QuantProofs
  DstModel DstSpec DstFileProofs ExpModel EightBitProofs PecModel PecSpec PecProofs PropertiesEncoder.
Import ListNotations.
Open Scope Z_scope.

(** ** C19 *)
(** Adding up the written displacements gives a position within half a unit of the exact one, for
    every command; whole coordinates are exact; commands are kept. *)
Theorem C19_no_drift : forall l : list (stitch Q),
  Forall2 (fun s w =>
    (Qabs (sx s - inject_Z (sx w)) <= 1 # 2)%Q /\ (Qabs (sy s - inject_Z (sy w)) <= 1 # 2)%Q /\
    (integral (sx s) -> sx s == inject_Z (sx w))%Q /\ (integral (sy s) -> sy s == inject_Z (sy w))%Q /\
    scmd w = scmd s) l (apply_rel 0 0 (quantise qz_q 0 0 l)).
Proof.
  intros l. generalize 0 at 1 3. generalize 0 at 1 2.
  induction l as [|s l IH]; intros y x; cbn [quantise apply_rel sx sy scmd]; constructor; [|apply IH].
  destruct (near_next (sx s) x) as [A1 A2]. destruct (near_next (sy s) y) as [B1 B2].
  split; [apply Qabs_le; exact A1|]. split; [apply Qabs_le; exact B1|].
  split; [exact A2|]. split; [exact B2|reflexivity].
Qed.
Print Assumptions C19_no_drift.

(** A command at the position of the one before is written without displacement. *)
Theorem C19_no_displacement : forall (pre : list (stitch Q)) a b post,
  (sx b == sx a)%Q -> (sy b == sy a)%Q ->
  exists wpre da wpost, quantise qz_q 0 0 (pre ++ a :: b :: post) = wpre ++ da :: mkS 0 0 (scmd b) :: wpost /\
    length wpre = length pre.
Proof.
  intros pre a b post Ex Ey. generalize 0 at 1. generalize 0 at 1.
  induction pre as [|s pre IH]; intros y x; cbn [app quantise].
  - rewrite (near_stay _ _ (near_next (sx a) x) _ Ex), (near_stay _ _ (near_next (sy a) y) _ Ey).
    exists [], (mkS (qz_q (sx a) x) (qz_q (sy a) y) (scmd a)). eexists. split; reflexivity.
  - destruct (IH (y + qz_q (sy s) y) (x + qz_q (sx s) x)) as (w & d & q & -> & L).
    exists (mkS (qz_q (sx s) x) (qz_q (sy s) y) (scmd s) :: w), d, q. split; [reflexivity|].
    cbn [length]. rewrite L. reflexivity.
Qed.
Print Assumptions C19_no_displacement.

Example C19_case : map (fun s => (sx s, sy s)) (quantise qz_q 0 0
    [mkS (1 # 2) (3 # 2) STITCH; mkS (1 # 2) (3 # 2) TRIM; mkS (7 # 3) (-5 # 2) STITCH])
  = [(0, 2); (0, 0); (2, -4)].
Proof. reflexivity. Qed.

(** ** C21 *)
Section C21.
Variables (qcos qsin : Q -> Q) (qorient : Q -> Q -> Q -> Q -> Q -> Q * Q).
Notation N := (QNum qcos qsin qorient).

Lemma gap_loop_points : forall n i s qx qy ax ay cmd x0 y0 x1 y1 (k : positive),
  (qx == x0 + (i # k) * (x1 - x0))%Q -> (qy == y0 + (i # k) * (y1 - y0))%Q ->
  (ax == (1 # k) * (x1 - x0))%Q -> (ay == (1 # k) * (y1 - y0))%Q ->
  exists pts, out N (gap_loop N n qx qy ax ay cmd s) = out N s ++ pts /\ length pts = n /\
    Forall (fun p => scmd p = cmd) pts /\ evenly x0 y0 x1 y1 k (i + 1) pts.
Proof.
  induction n as [|n IH]; intros i s qx qy ax ay cmd x0 y0 x1 y1 k Hx Hy Ax Ay.
  - exists []. cbn [gap_loop]. rewrite app_nil_r. repeat split; constructor.
  - cbn [gap_loop fadd QNum].
    assert (E : (i + 1 # k == (i # k) + (1 # k))%Q) by (unfold Qeq; cbn; lia).
    destruct (IH (i + 1) (update_needle_position N (append N s (mkS (qx + ax)%Q (qy + ay)%Q cmd)) (qx + ax)%Q (qy + ay)%Q)
                (qx + ax)%Q (qy + ay)%Q ax ay cmd x0 y0 x1 y1 k) as (pts & O & L & C & Ev).
    + rewrite E, Hx, Ax. ring.
    + rewrite E, Hy, Ay. ring.
    + exact Ax.
    + exact Ay.
    + exists (mkS (qx + ax)%Q (qy + ay)%Q cmd :: pts).
      split; [etransitivity; [exact O|]; attrs; rewrite <- app_assoc; reflexivity|]. split; [cbn [length]; rewrite L; reflexivity|].
      split; [constructor; [reflexivity|exact C]|]. cbn [evenly sx sy].
      split; [|exact Ev]. split; rewrite E; [rewrite Hx, Ax|rewrite Hy, Ay]; ring.
Qed.

(** The points put into a gap: none if the move fits; otherwise evenly spaced on the segment, as
    few as possible, and every step, the last one to the target included, fits.  A sequin mode
    switch may come first. *)
Theorem C21_gap_filling : forall (s : st N) (x0 y0 x1 y1 l : Q) data, (0 < l)%Q ->
  exists s' pre pts n,
    interpolate_gap_stitches N s x0 y0 x1 y1 (Fin N l) data = Ok s' /\
    out N s' = out N s ++ pre ++ pts /\
    (pre = [] \/ data = JUMP /\ sequin_mode N s = true /\ exists m, pre = [m] /\ (sx m, sy m) = (nx N s, ny N s)) /\
    Z.of_nat (length pts) + 1 = Zpos n /\
    evenly x0 y0 x1 y1 n 1 pts /\
    Forall (fun p => scmd p = Z.lor data (high_flags N s)) pts /\
    ((Qabs (x1 - x0) <= l)%Q -> (Qabs (y1 - y0) <= l)%Q -> pre = [] /\ pts = []) /\
    ((1 # n) * Qabs (x1 - x0) <= l)%Q /\ ((1 # n) * Qabs (y1 - y0) <= l)%Q /\
    (forall k, (1 <= k)%positive -> ((1 # k) * Qabs (x1 - x0) <= l)%Q -> ((1 # k) * Qabs (y1 - y0) <= l)%Q -> (n <= k)%positive).
Proof.
  intros s x0 y0 x1 y1 l data Hl.
  pose proof (interpolate_eq qcos qsin qorient s x0 y0 x1 y1 l data Hl) as E.
  pose proof (gt_spec (Qabs (x1 - x0)) l) as G1. pose proof (gt_spec (Qabs (y1 - y0)) l) as G2.
  destruct (q_gt (Qabs (x1 - x0)) l || q_gt (Qabs (y1 - y0)) l) eqn:G.
  - assert (G' : (l < Qabs (x1 - x0) \/ l < Qabs (y1 - y0))%Q).
    { apply orb_true_iff in G. destruct G as [G|G]; rewrite G in *; tauto. }
    pose proof (gap_steps_pos _ _ _ Hl G') as P. cbv zeta in E.
    destruct (gap_steps_fit (x1 - x0) (y1 - y0) l Hl) as [F1 F2].
    pose proof (fun n => gap_steps_least (x1 - x0) (y1 - y0) l n Hl) as Least.
    destruct (gap_steps (x1 - x0) (y1 - y0) l) as [|n|n]; [lia| |lia].
    set (s1 := if (data =? JUMP) && sequin_mode N s then toggle_sequins N s else s) in *.
    destruct (gap_loop_points (Z.to_nat (Z.pos n - 1)) 0 s1 x0 y0 ((x1 - x0) / inject_Z (Z.pos n))%Q
      ((y1 - y0) / inject_Z (Z.pos n))%Q (Z.lor data (high_flags N s1)) x0 y0 x1 y1 n) as (pts & O & L & C & Ev).
    { setoid_replace (0 # n)%Q with 0%Q by reflexivity. ring. }
    { setoid_replace (0 # n)%Q with 0%Q by reflexivity. ring. }
    { setoid_replace (1 # n)%Q with (/ inject_Z (Z.pos n))%Q by reflexivity. unfold Qdiv. ring. }
    { setoid_replace (1 # n)%Q with (/ inject_Z (Z.pos n))%Q by reflexivity. unfold Qdiv. ring. }
    assert (S : exists pre, out N s1 = out N s ++ pre /\ high_flags N s1 = high_flags N s /\
      (pre = [] \/ data = JUMP /\ sequin_mode N s = true /\ exists m, pre = [m] /\ (sx m, sy m) = (nx N s, ny N s))).
    { unfold s1. destruct (Z.eqb_spec data JUMP) as [Hj|]; cbn [andb];
        [|exists []; rewrite app_nil_r; auto].
      destruct (sequin_mode N s) eqn:Em; [|exists []; rewrite app_nil_r; auto].
      unfold toggle_sequins. destruct (_ =? _); [|exists []; rewrite app_nil_r; auto].
      attrs. eexists. split; [reflexivity|]. split; [reflexivity|]. right. split; [exact Hj|]. split; [reflexivity|].
      eexists. split; [reflexivity|]. reflexivity. }
    destruct S as (pre & Os & Hs & Pre).
    assert (K : forall k d, ((1 # k) * Qabs d <= l)%Q <-> (Qabs d <= inject_Z (Z.pos k) * l)%Q).
    { intros k d. assert (Pk : (0 < inject_Z (Z.pos k))%Q) by reflexivity.
      setoid_replace (1 # k)%Q with (/ inject_Z (Z.pos k))%Q by reflexivity. split; intros H.
      - setoid_replace (Qabs d) with (inject_Z (Z.pos k) * (/ inject_Z (Z.pos k) * Qabs d))%Q by (field; lra).
        rewrite Qmult_comm, (Qmult_comm (inject_Z (Z.pos k)) l). apply Qmult_le_compat_r; lra.
      - apply Qmult_lt_0_le_reg_r with (inject_Z (Z.pos k)); [exact Pk|].
        setoid_replace (/ inject_Z (Z.pos k) * Qabs d * inject_Z (Z.pos k))%Q with (Qabs d) by (field; lra).
        rewrite Qmult_comm. exact H. }
    eexists. exists pre, pts, n. split; [exact E|]. split; [rewrite O, Os, <- app_assoc; reflexivity|].
    split; [exact Pre|]. split; [rewrite L; lia|]. split; [exact Ev|]. rewrite Hs in C. split; [exact C|].
    split; [intros Q1 Q2; exfalso; lra|]. split; [apply K; exact F1|]. split; [apply K; exact F2|].
    intros k _ Q1 Q2. apply K in Q1. apply K in Q2. pose proof (Least _ Q1 Q2). lia.
  - apply orb_false_iff in G. destruct G as [Gx Gy]. rewrite Gx in G1. rewrite Gy in G2.
    exists s, [], [], 1%positive. split; [exact E|]. split; [rewrite !app_nil_r; reflexivity|].
    split; [left; reflexivity|]. split; [reflexivity|]. split; [exact I|]. split; [constructor|].
    split; [auto|]. change (1 # 1)%Q with 1%Q. split; [lra|]. split; [lra|]. intros k Hk _ _. exact Hk.
Qed.
End C21.
Print Assumptions C21_gap_filling.
