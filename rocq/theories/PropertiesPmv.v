(** Properties of PMV files: C92 to C94. *)
From Coq Require Import ZArith QArith Qabs List Bool Lia Lqa.
From Verif Require Import PyBase EmbConst PmvModel PmvSpec PmvProofs.
Import ListNotations.
Open Scope Z_scope.

(** ** C92 *)
(** [ps]: the points; [rest]: what follows them, without points unless 100 were seen. *)
Theorem C92_pmv_round_trip : forall ps rest lo hi,
  Forall (fun s => scmd s = STITCH \/ scmd s = JUMP) ps ->
  Forall (fun s => scmd s <> STITCH /\ scmd s <> JUMP) rest \/ List.length ps = 100%nat -> (List.length ps <= 100)%nat ->
  y_range lo hi ps -> (-200000000 < lo)%Q -> (hi < 200000000)%Q -> steps_within 0 ps ->
  exists l, pmv_read (pmv_write (ps ++ rest)) = Ok (l ++ [let '(x, y) := last_at l in mkS x y END]) /\
    Forall2 (fun s t => scmd t = STITCH /\ near (sx t) (sx s) /\ near (sy t) ((sy s - (lo + hi) / 2) * shrink lo hi)%Q) ps l.
Proof. exact pmv_round_trip. Qed.
Definition sample_points : list (stitch Q) := [mkS 3%Q 10%Q JUMP; mkS (-50)%Q 100%Q STITCH; mkS 20%Q 40%Q STITCH].
Example C92_case : y_range 10 100 sample_points /\ steps_within 0 sample_points /\ (shrink 10 100 == 7 # 9)%Q /\
  pmv_read (pmv_write (sample_points ++ [mkS 20%Q 40%Q END]))
  = Ok [mkS (5 # 2)%Q (-70 # 2)%Q STITCH; mkS (-200 # 4)%Q (70 # 2)%Q STITCH; mkS (160 # 8)%Q (-25 # 2)%Q STITCH; mkS (160 # 8)%Q (-25 # 2)%Q END].
Proof.
  split; [|split; [|split]].
  - unfold y_range, sample_points. split; [repeat (apply Forall_cons; [cbn [sy]; lra|]); constructor|].
    split; [apply Exists_cons_hd; reflexivity|apply Exists_cons_tl, Exists_cons_hd; reflexivity].
  - cbn. repeat split; discriminate.
  - reflexivity.
  - vm_compute. reflexivity.
Qed.

(** ** C93 *)
(** A trim or colour change before the last of the first 100 points is counted as a point when the points are written, but not in the number
    announced. *)
Theorem C93_refuted : exists l, l = [mkS 0%Q 0%Q STITCH; mkS 0%Q 0%Q TRIM; mkS 25%Q 0%Q STITCH; mkS 50%Q 0%Q STITCH; mkS 50%Q 0%Q END] /\
  pmv_read (pmv_write l) = Err TypeError.
Proof. eexists. split; [reflexivity|]. vm_compute. reflexivity. Qed.
Theorem C93_invented_refuted : exists l r, pmv_read (pmv_write l) = Ok r /\
  List.length (filter (fun s => scmd s =? STITCH) l) = 3%nat /\ List.length (filter (fun s => scmd s =? STITCH) r) = 8%nat.
Proof.
  exists [mkS 0%Q 0%Q STITCH; mkS 0%Q 0%Q COLOR_CHANGE; mkS 0%Q 0%Q COLOR_CHANGE; mkS 25%Q 0%Q STITCH; mkS 50%Q 10%Q STITCH; mkS 50%Q 0%Q TRIM; mkS 50%Q 0%Q END].
  eexists. split; [vm_compute; reflexivity|]. split; reflexivity.
Qed.

(** ** C94 *)
Theorem C94_pmv_any : forall f, match pmv_read f with
  | Ok l => exists sewn, Forall (fun s => scmd s = STITCH) sewn /\ (l = sewn \/ l = sewn ++ [let '(x, y) := last_at sewn in mkS x y END])
  | Err e => e = TypeError end.
Proof. exact pmv_any. Qed.
Example C94_cases : pmv_read [] = Ok [] /\ pmv_read (repeat 0 100 ++ [1; 0; 2; 0; 5]) = Err TypeError /\
  pmv_read (repeat 0 100 ++ [1; 0; 2; 0; 2; 0]) = Ok [mkS (10 # 2)%Q (0 # 2)%Q STITCH].
Proof. split; [|split]; vm_compute; reflexivity. Qed.

Print Assumptions C92_pmv_round_trip.
Print Assumptions C93_refuted.
Print Assumptions C93_invented_refuted.
Print Assumptions C94_pmv_any.
