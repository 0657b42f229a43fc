(** Properties C04-C08: the DST format. *)
From Coq Require Import ZArith List Bool Lia.
From Verif Require Import PyBase EmbConst StreamModel StreamSpec StreamProofs DstModel DstSpec DstProofs DstFileProofs.
Import ListNotations.
Open Scope Z_scope.

(** ** C04 *)
(** Reading one encoded record in front of any further data gives back the displacement
    and the kind of command; jump records are ejects while sequin mode is on. *)
Theorem C04_dst_record_round_trip : forall dx dy,
  -121 <= dx <= 121 -> -121 <= dy <= 121 ->
  (forall command, command = STITCH \/ command = JUMP \/ command = SEQUIN_EJECT ->
     exists bs, encode_record dx dy command = Ok bs /\ length bs = 3%nat /\ bytes_ok bs /\
       forall sequin rest, dst_read_loop sequin (bs ++ rest)
         = mkS dx dy (if command =? STITCH then STITCH else if sequin then SEQUIN_EJECT else JUMP)
           :: dst_read_loop sequin rest) /\
  (exists bs, encode_record 0 0 SEQUIN_MODE = Ok bs /\ length bs = 3%nat /\ bytes_ok bs /\
       forall sequin rest, dst_read_loop sequin (bs ++ rest)
         = mkS 0 0 SEQUIN_MODE :: dst_read_loop (negb sequin) rest).
Proof.
  intros dx dy Hx Hy. split.
  - intros c Hc.
    assert (Hm : is_move c = true) by (destruct Hc as [-> | [-> | ->]]; reflexivity).
    destruct (encode_record_ok dx dy c Hm Hx Hy) as (b0 & b1 & b2 & E & B0 & B1 & B2 & Dx & Dy & K).
    exists [b0; b1; b2]. split; [exact E|]. split; [reflexivity|].
    split; [repeat (apply Forall_cons; [assumption|]); apply Forall_nil|].
    intros sq rest. cbn [app dst_read_loop]. rewrite Dx, Dy, K.
    destruct Hc as [-> | [-> | ->]]; destruct sq; reflexivity.
  - exists [0; 0; 67]. split; [reflexivity|]. split; [reflexivity|].
    split; [repeat (apply Forall_cons; [unfold byte_ok; lia|]); apply Forall_nil|].
    intros sq rest. reflexivity.
Qed.
Print Assumptions C04_dst_record_round_trip.

Example C04_case : encode_record (-121) 40 JUMP = Ok [90; 90; 139]
  /\ dst_read_loop false [90; 90; 139] = [mkS (-121) 40 JUMP].
Proof. vm_compute. split; reflexivity. Qed.

(** ** C05 *)
Theorem C05_dst_record_rejects_exactly : forall dx dy command,
  (encode_record dx dy command = Err ValueError <->
     (command = STITCH \/ command = JUMP \/ command = SEQUIN_EJECT)
     /\ ~ (-121 <= dx <= 121 /\ -121 <= dy <= 121))
  /\ (forall e, encode_record dx dy command = Err e -> e = ValueError).
Proof.
  intros dx dy c.
  assert (M : is_move c = true <-> c = STITCH \/ c = JUMP \/ c = SEQUIN_EJECT).
  { unfold is_move. rewrite !orb_true_iff, !Z.eqb_eq. tauto. }
  assert (A : forall e, encode_record dx dy c = Err e -> e = ValueError).
  { intros e He. assert (X : exists e, encode_record dx dy c = Err e) by (exists e; exact He).
    apply encode_record_err_iff in X. destruct X as [X1 X2].
    rewrite (encode_record_err dx dy c X1 X2) in He. congruence. }
  split; [|exact A]. rewrite <- M, <- encode_record_err_iff. split.
  - intros H. exists ValueError. exact H.
  - intros [e He]. rewrite (A e He) in He. exact He.
Qed.
Print Assumptions C05_dst_record_rejects_exactly.

Example C05_case : encode_record 122 0 STITCH = Err ValueError
  /\ is_ok (encode_record 121 (-121) STITCH) = true /\ is_ok (encode_record 5000 0 END) = true.
Proof. vm_compute. repeat split; reflexivity. Qed.

(** ** C06 *)
Theorem C06_dst_write_read : forall trim_at p,
  dst_representable false false 0 0 p ->
  exists bs, dst_body qz_int trim_at p = Ok bs /\ bytes_ok bs /\
    dst_read_raw bs = closed (relabel dst_name (before_end p)).
Proof. exact dst_roundtrip. Qed.
Print Assumptions C06_dst_write_read.

Definition C06_pattern : list (stitch Z) :=
  [mkS 100 (-20) JUMP; mkS 105 (-20) STITCH; mkS 105 (-20) STOP; mkS 60 101 STITCH;
   mkS 60 101 SEQUIN_MODE; mkS 61 99 SEQUIN_EJECT; mkS 61 99 SEQUIN_MODE; mkS 61 99 COLOR_CHANGE;
   mkS 0 0 STITCH; mkS 0 0 END; mkS 7 7 STITCH].
Example C06_case : dst_representable false false 0 0 C06_pattern
  /\ exists bs, dst_body qz_int 3 C06_pattern = Ok bs /\ length bs = 33%nat.
Proof.
  split; [|eexists; split; [vm_compute; reflexivity|reflexivity]].
  unfold C06_pattern. cbn [dst_representable scmd sx sy].
  repeat (split; [vm_compute; intuition discriminate|]). exact I.
Qed.

(** ** C07 *)
(** Trims become max(2, trim_at) jumps around the trim point, the last one exactly on
    it; everything else is read back where it was. *)
Theorem C07_dst_trim_no_displacement : forall trim_at,
  exists offsets : list Z,
    Z.of_nat (length offsets) = Z.max 2 trim_at /\
    last offsets 1 = 0 /\ Forall (fun d => -2 <= d <= 2) offsets /\
    forall p, dst_representable true false 0 0 p ->
      exists bs, dst_body qz_int trim_at p = Ok bs /\ bytes_ok bs /\
        dst_read_raw bs = closed (dst_view offsets (before_end p)).
Proof.
  intros t. exists (trim_offsets t). destruct (trim_offsets_facts t) as (L & H0 & Hne).
  split; [exact L|]. split.
  { rewrite <- H0. destruct (trim_offsets t) as [|z q]; [congruence|].
    clear. revert z. induction q as [|z' q IH]; intros z; [reflexivity|]. cbn [last] in *. apply IH. }
  split; [apply trim_offsets_small|].
  intros p Hp. apply (dst_roundtrip_gen true). exact Hp.
Qed.
Print Assumptions C07_dst_trim_no_displacement.

Example C07_case :
  let p := [mkS 10 0 STITCH; mkS 10 0 TRIM; mkS 20 5 JUMP; mkS 21 5 STITCH; mkS 21 5 END] in
  dst_representable true false 0 0 p /\
  (exists bs, dst_body qz_int 5 p = Ok bs /\
    dst_read_raw bs = [mkS 10 0 STITCH; mkS 12 2 JUMP; mkS 8 (-2) JUMP; mkS 12 2 JUMP; mkS 8 (-2) JUMP;
      mkS 10 0 JUMP; mkS 20 5 JUMP; mkS 21 5 STITCH; mkS 21 5 END]).
Proof.
  cbv zeta. split.
  - cbn [dst_representable scmd sx sy].
    repeat (split; [vm_compute; intuition discriminate|]). exact I.
  - eexists. split; vm_compute; reflexivity.
Qed.

(** ** C08 *)
(** [dst_read_raw] is a total function without an error case: reading never raises.
    Cutting the stitch data anywhere keeps an initial segment of the commands. *)
Theorem C08_dst_truncated_prefix : forall bs n,
  exists short full, dst_read_raw (firstn n bs) = closed short
    /\ dst_read_raw bs = closed full /\ prefix_of short full.
Proof.
  intros bs n.
  exists (apply_rel 0 0 (dst_read_loop false (firstn n bs))), (apply_rel 0 0 (dst_read_loop false bs)).
  unfold dst_read_raw. rewrite !apply_rel_end. split; [reflexivity|]. split; [reflexivity|].
  apply apply_rel_prefix. apply (dst_read_prefix (length bs)). lia.
Qed.
Print Assumptions C08_dst_truncated_prefix.

Example C08_case : dst_read_raw (firstn 8 [1; 0; 3; 255; 255; 255; 2; 0; 3])
  = [mkS 1 0 STITCH; mkS 1 0 END].
Proof. vm_compute. reflexivity. Qed.
