(** Properties C17, C18, C64: the VP3 format. *)
From Coq Require Import ZArith List Bool Lia.
From Verif Require Import PyBase EmbConst HelperModel StreamModel ThreadModel JefSpec Vp3Model Vp3Spec Vp3Proofs.
Import ListNotations.
Open Scope Z_scope.

(** ** C17 *)
(** The stitch bytes of a block, with the closing zero byte, decode to displacements that
    lead from the block's start through the same penetrations with the same trims. *)
Theorem C17_vp3_block_stitches : forall px py block, block_ok px py block ->
  exists events, vp3_decode (map signed8 (vp3_stitches px py block ++ [0])) = Ok events /\
    apply_rel px py events = block_view px py block.
Proof.
  intros px py block H. exists (block_events px py block).
  split; [apply decode_closed; exact H|apply block_events_rel; exact H].
Qed.
Print Assumptions C17_vp3_block_stitches.

Definition C17_block : list (stitch Z) :=
  [mkS 127 (-127) STITCH; mkS (-1) (-127) STITCH; mkS (-1) (-127) TRIM; mkS 9 9 JUMP;
   mkS (-32769) 32640 STITCH; mkS (-32768) 32641 (STITCH + ALTERNATIVE)].
Example C17_case : block_ok 0 0 C17_block /\ length (vp3_stitches 0 0 C17_block) = 28%nat.
Proof.
  split; [|vm_compute; reflexivity]. cbn [C17_block block_ok scmd sx sy].
  assert (S0 : cmd_of STITCH = STITCH) by reflexivity.
  left. split; [reflexivity|]. split; [unfold step_16; lia|].
  left. split; [reflexivity|]. split; [unfold step_16; lia|].
  right. split; [left; reflexivity|].
  right. split; [right; left; reflexivity|].
  left. split; [reflexivity|]. split; [unfold step_16; lia|].
  left. split; [reflexivity|]. split; [unfold step_16; lia|]. exact I.
Qed.

(** ** C18 *)
(** A whole file.  Missing from the full claim: patterns whose extents have no integer
    middle, and colour changes on an axis away from the last penetration. *)
Theorem C18_vp3_write_read_partial : forall filler threads p cx cy,
  vp3_ok 0 0 p -> small_coordinates p -> centred sx cx p -> centred sy cy p ->
  Z.of_nat (color_changes p) < 65535 ->
  Forall plain_texts threads -> (forall i, plain_texts (filler i)) ->
  exists file, vp3_write filler p threads = Ok file /\
    (Z.of_nat (length file) < 2 ^ 32 ->
     exists read_threads, vp3_read file = Ok (in_hundredths (vp3_view 0 0 p), read_threads)).
Proof.
  intros filler threads p cx cy H1 H2 H3 H4 H5 H6 H7.
  destruct (vp3_roundtrip filler threads p cx cy H1 H2 H3 H4 H5 H6 H7) as (file & W & R).
  exists file. split; [exact W|]. intros Hl. eexists. apply R. exact Hl.
Qed.
Print Assumptions C18_vp3_write_read_partial.

Definition C18_pattern : list (stitch Z) :=
  [mkS 10 (-20) STITCH; mkS 200 (-20) STITCH; mkS 200 (-20) TRIM; mkS 200 (-20) COLOR_CHANGE;
   mkS 0 30 JUMP; mkS 0 40 STITCH; mkS 7 40 COLOR_CHANGE; mkS 8 41 STITCH; mkS 8 40 END].
Definition C18_threads := [mkT 0xFF8000 (Some [79; 114]) (Some [49; 50]) None None None None].
Example C18_case : vp3_ok 0 0 C18_pattern /\ small_coordinates C18_pattern /\
  centred sx 100 C18_pattern /\
  Forall plain_texts C18_threads /\
  vp3_view 0 0 C18_pattern =
   [mkS 10 (-20) STITCH; mkS 200 (-20) STITCH; mkS 200 (-20) TRIM; mkS 200 (-20) COLOR_CHANGE;
    mkS 200 (-20) JUMP; mkS 0 40 STITCH; mkS 0 40 COLOR_CHANGE; mkS 7 40 JUMP; mkS 8 41 STITCH;
    mkS 8 41 TRIM; mkS 8 41 END].
Proof.
  split; [|split; [|split; [|split; [|vm_compute; reflexivity]]]].
  - cbn [C18_pattern vp3_ok scmd sx sy].
    left. split; [reflexivity|]. split; [unfold step_16; lia|].
    left. split; [reflexivity|]. split; [unfold step_16; lia|].
    right; left. split; [left; reflexivity|].
    right; right; left. split; [reflexivity|]. split; [right; split; reflexivity|].
    right; left. split; [right; left; reflexivity|].
    left. split; [reflexivity|]. split; [unfold step_16; lia|].
    right; right; left. split; [reflexivity|]. split; [left; reflexivity|].
    left. split; [reflexivity|]. split; [unfold step_16; lia|].
    right; right; right. split; reflexivity.
  - intros s H. cbn in H. repeat (destruct H as [<-|H]; [cbn; lia|]). destruct H.
  - exists 100. split; [|split].
    + intros s H. cbn in H. repeat (destruct H as [<-|H]; [cbn; lia|]). destruct H.
    + exists (mkS 0 30 JUMP). split; [cbn; tauto|reflexivity].
    + exists (mkS 200 (-20) STITCH). split; [cbn; tauto|reflexivity].
  - constructor; [|constructor]. repeat split; cbn; repeat constructor; lia.
Qed.

(** The penetrations of a command list. *)
Definition penetrations (l : list (stitch Z)) : list (Z * Z) :=
  map (fun s => (sx s, sy s)) (filter (fun s => cmd_of (scmd s) =? STITCH) l).

(** Refuted: a colour block that starts on an axis, away from the last penetration, is
    sewn from the wrong place. *)
Theorem C18_start_on_axis_refuted : exists p threads file l ths,
  centred sx 10 p /\ centred sy 10 p /\
  vp3_write plain_thread p threads = Ok file /\ vp3_read file = Ok (l, ths) /\
  penetrations l <> penetrations (in_hundredths p).
Proof.
  exists [mkS 10 10 STITCH; mkS 20 20 STITCH; mkS 0 0 JUMP; mkS 0 20 COLOR_CHANGE; mkS 5 20 STITCH], [].
  do 3 eexists. split; [|split].
  - exists 10. split; [|split].
    + intros s H. cbn in H. repeat (destruct H as [<-|H]; [cbn; lia|]). destruct H.
    + exists (mkS 0 0 JUMP). split; [cbn; tauto|reflexivity].
    + exists (mkS 20 20 STITCH). split; [cbn; tauto|reflexivity].
  - exists 10. split; [|split].
    + intros s H. cbn in H. repeat (destruct H as [<-|H]; [cbn; lia|]). destruct H.
    + exists (mkS 0 0 JUMP). split; [cbn; tauto|reflexivity].
    + exists (mkS 20 20 STITCH). split; [cbn; tauto|reflexivity].
  - split; [vm_compute; reflexivity|]. split; [vm_compute; reflexivity|]. vm_compute. discriminate.
Qed.
Print Assumptions C18_start_on_axis_refuted.

(** Refuted: with an odd width the blocks after the first are displaced by one unit,
    although every colour change is off the axes and at the last penetration. *)
Theorem C18_odd_extents_refuted : exists p threads file l ths,
  vp3_ok 0 0 p /\ vp3_write plain_thread p threads = Ok file /\ vp3_read file = Ok (l, ths) /\
  penetrations l <> penetrations (in_hundredths p).
Proof.
  exists [mkS 0 0 STITCH; mkS 3 3 STITCH; mkS 3 3 COLOR_CHANGE; mkS 1 1 STITCH], [].
  do 3 eexists. split.
  - cbn [vp3_ok scmd sx sy].
    left. split; [reflexivity|]. split; [unfold step_16; lia|].
    left. split; [reflexivity|]. split; [unfold step_16; lia|].
    right; right; left. split; [reflexivity|]. split; [left; reflexivity|].
    left. split; [reflexivity|]. split; [unfold step_16; lia|]. exact I.
  - split; [vm_compute; reflexivity|]. split; [vm_compute; reflexivity|]. vm_compute. discriminate.
Qed.
Print Assumptions C18_odd_extents_refuted.

(** ** C64 *)
(** Under the same conditions every colour block gets its thread back: 24-bit colour,
    catalogue number, brand ("" if missing) and description (the colour as #rrggbb if
    missing).  Missing from the full claim: texts that are not ASCII. *)
Theorem C64_vp3_threads_partial : forall filler threads p cx cy,
  vp3_ok 0 0 p -> small_coordinates p -> centred sx cx p -> centred sy cy p ->
  Z.of_nat (color_changes p) < 65535 ->
  Forall plain_texts threads -> (forall i, plain_texts (filler i)) ->
  exists file, vp3_write filler p threads = Ok file /\
    (Z.of_nat (length file) < 2 ^ 32 ->
     exists l read, vp3_read file = Ok (l, read) /\ length read = S (color_changes p) /\
     forall k t, (k <= color_changes p)%nat -> nth_error threads k = Some t ->
       exists r, nth_error read k = Some r /\
         vt_color r = Some (t_color t mod 2 ^ 24) /\
         vt_catalog r = Some (match t_catalog t with Some s => s | None => [] end) /\
         vt_description r = Some (match t_description t with Some s => s | None => hex_color (t_color t) end) /\
         vt_brand r = Some (match t_brand t with Some s => s | None => [] end)).
Proof.
  intros filler threads p cx cy H1 H2 H3 H4 H5 H6 H7.
  destruct (vp3_roundtrip filler threads p cx cy H1 H2 H3 H4 H5 H6 H7) as (file & W & R).
  exists file. split; [exact W|]. intros Hl. do 2 eexists. split; [apply R; exact Hl|].
  split; [unfold block_threads; rewrite !map_length, seq_length; reflexivity|].
  intros k t Hk Ht. exists (thread_kept t). split; [|repeat split].
  unfold block_threads. rewrite map_map.
  rewrite nth_error_map, (nth_error_nth' _ 0%nat) by (rewrite seq_length; lia).
  rewrite seq_nth by lia. cbn [option_map Nat.add]. rewrite Ht. reflexivity.
Qed.
Print Assumptions C64_vp3_threads_partial.

(** Refuted: a description with one non-ASCII character, and with one colour block nothing
    of the block's stitches survives. *)
Theorem C64_non_ascii_refuted : exists p t file l ths,
  vp3_ok 0 0 p /\ centred sx 10 p /\ centred sy 10 p /\
  t_description t = Some [0xE9] /\ vp3_write plain_thread p [t] = Ok file /\
  vp3_read file = Ok (l, ths) /\
  map vt_description ths = [None] /\ penetrations l <> penetrations (in_hundredths p).
Proof.
  exists [mkS 0 0 STITCH; mkS 20 20 STITCH], (mkT 0xFF0000 (Some [0xE9]) None None None None None).
  do 3 eexists. split; [|split; [|split]].
  - cbn [vp3_ok scmd sx sy].
    left. split; [reflexivity|]. split; [unfold step_16; lia|].
    left. split; [reflexivity|]. split; [unfold step_16; lia|]. exact I.
  - exists 10. split; [|split].
    + intros s H. cbn in H. repeat (destruct H as [<-|H]; [cbn; lia|]). destruct H.
    + exists (mkS 0 0 STITCH). split; [cbn; tauto|reflexivity].
    + exists (mkS 20 20 STITCH). split; [cbn; tauto|reflexivity].
  - exists 10. split; [|split].
    + intros s H. cbn in H. repeat (destruct H as [<-|H]; [cbn; lia|]). destruct H.
    + exists (mkS 0 0 STITCH). split; [cbn; tauto|reflexivity].
    + exists (mkS 20 20 STITCH). split; [cbn; tauto|reflexivity].
  - split; [reflexivity|]. split; [vm_compute; reflexivity|]. split; [vm_compute; reflexivity|].
    split; [reflexivity|]. vm_compute. discriminate.
Qed.
Print Assumptions C64_non_ascii_refuted.
