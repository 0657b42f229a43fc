(** Properties C09-C16, C51, C53, C54: the EXP, TBF, XXX, U01, PEC and JEF formats. *)
From Coq Require Import ZArith List Bool Lia.
From Verif Require Import PyBase EmbConst FunctionsModel StreamModel StreamSpec StreamProofs HelperModel
  ExpModel TbfModel XxxModel U01Model PecModel PecSpec PecProofs JefModel JefSpec JefProofs EightBitProofs FormatSpec.
Import ListNotations.
Open Scope Z_scope.

Ltac all_steps := repeat (split; [vm_compute; intuition discriminate|]); exact I.

(** ** C09 *)
(** The three readers without an error case: cutting the data anywhere keeps an initial
    segment of the commands (before the closing END). *)
Theorem C09_truncated_prefix : forall bs n,
  (exists short full, exp_read (firstn n bs) = closed short /\ exp_read bs = closed full /\ prefix_of short full) /\
  (exists short full, u01_read (firstn n bs) = closed short /\ u01_read bs = closed full /\ prefix_of short full) /\
  (exists short full, pec_read (firstn n bs) = closed short /\ pec_read bs = closed full /\ prefix_of short full).
Proof.
  intros bs n. repeat split.
  - exists (apply_rel 0 0 (exp_read_loop (firstn n bs))), (apply_rel 0 0 (exp_read_loop bs)).
    unfold exp_read. rewrite !apply_rel_end. repeat split.
    apply apply_rel_prefix. apply (exp_read_prefix (length bs)). lia.
  - exists (apply_rel 0 0 (u01_read_loop (firstn n bs))), (apply_rel 0 0 (u01_read_loop bs)).
    unfold u01_read. rewrite !apply_rel_end. repeat split.
    apply apply_rel_prefix. apply (u01_read_prefix (length bs)). lia.
  - exists (apply_rel 0 0 (pec_read_loop (firstn n bs))), (apply_rel 0 0 (pec_read_loop bs)).
    unfold pec_read. rewrite !apply_rel_end. repeat split.
    apply apply_rel_prefix. apply (pec_read_prefix (length bs)). lia.
Qed.
Print Assumptions C09_truncated_prefix.

(** TBF and JEF: the same whenever the complete data can be read, and it can be read if
    the colour table has an entry for every colour control. Not covered by the claim as
    stated: data with more colour controls than table entries (refuted below). *)
Theorem C09_truncated_prefix_partial :
  (forall bs n order full0, tbf_read order bs = Ok full0 ->
     exists short full, tbf_read order (firstn n bs) = Ok (closed short) /\
       full0 = closed full /\ prefix_of short full) /\
  (forall T bs n (threads : list (option T)) full0 th, jef_read_stitches threads bs = Ok (full0, th) ->
     exists short full th', jef_read_stitches threads (firstn n bs) = Ok (closed short, th') /\
       full0 = closed full /\ prefix_of short full) /\
  (forall bs order, (tbf_needle_records bs <= length order)%nat -> exists l, tbf_read order bs = Ok l) /\
  (forall T bs (threads : list (option T)), (S (jef_color_records bs) <= length threads)%nat ->
     exists l, jef_read_stitches threads bs = Ok l).
Proof.
  split; [|split; [|split]].
  - intros bs n order full0 H. unfold tbf_read in *.
    destruct (tbf_read_loop order bs) as [l|] eqn:E; cbn [bindr] in H; [|discriminate].
    destruct (tbf_read_prefix (length bs) bs n order ltac:(lia) l E) as (x & -> & Hx).
    cbn [bindr]. exists (apply_rel 0 0 x), (apply_rel 0 0 l). rewrite apply_rel_end in *.
    injection H as <-. repeat split. apply apply_rel_prefix. exact Hx.
  - intros T bs n threads full0 th H. unfold jef_read_stitches in *.
    destruct (jef_read_loop threads 1 bs) as [[l th0]|] eqn:E; cbn [bindr] in H; [|discriminate].
    destruct (jef_read_prefix T (length bs) bs n threads 1 ltac:(lia) l th0 E) as (x & th' & -> & Hx).
    cbn [bindr]. exists (apply_rel 0 0 x), (apply_rel 0 0 l), th'. rewrite apply_rel_end in *.
    injection H as <- <-. repeat split. apply apply_rel_prefix. exact Hx.
  - intros bs order H. destruct (tbf_read_total (length bs) bs order ltac:(lia) H) as [l E].
    unfold tbf_read. rewrite E. eexists; reflexivity.
  - intros T bs threads H. destruct (jef_read_total T (length bs) bs threads 1 ltac:(lia) ltac:(lia)) as [[l th] E].
    unfold jef_read_stitches. rewrite E. eexists; reflexivity.
Qed.
Print Assumptions C09_truncated_prefix_partial.

(** A JEF file that declares one colour and then changes colour raises IndexError, and so
    does TBF data with more needle changes than table entries. *)
Theorem C09_never_raises_refuted :
  (exists bs, bytes_ok bs /\ jef_read_stitches [Some tt] bs = Err IndexError) /\
  (exists order bs, length order = 256%nat /\ bytes_ok bs /\ tbf_read order bs = Err IndexError).
Proof.
  split.
  - exists [0x80; 0x01; 0; 0]. split; [|reflexivity].
    repeat (apply Forall_cons; [unfold byte_ok; lia|]). apply Forall_nil.
  - exists (repeat 1 256), (concat (repeat [0; 0; 0x81] 257)). split; [reflexivity|]. split.
    + apply Forall_concat. apply Forall_forall. intros x Hx. apply repeat_spec in Hx. subst x.
      repeat (apply Forall_cons; [unfold byte_ok; lia|]). apply Forall_nil.
    + vm_compute. reflexivity.
Qed.
Print Assumptions C09_never_raises_refuted.

Example C09_case : exp_read (firstn 5 [1; 255; 128; 4; 9; 9; 3; 3]) = closed [mkS 1 1 STITCH]
  /\ exp_read [1; 255; 128; 4; 9; 9; 3; 3] = closed [mkS 1 1 STITCH; mkS 10 (-8) JUMP; mkS 13 (-11) STITCH].
Proof. vm_compute. split; reflexivity. Qed.

(** ** C10 *)
Theorem C10_exp_write_read : forall p,
  representable 127 [STITCH; JUMP] [TRIM; COLOR_CHANGE; STOP; END] 0 0 p ->
  bytes_ok (exp_write qz_int p) /\
  exp_read (exp_write qz_int p) = closed (renamed (as_color_change [END]) p).
Proof.
  intros p H. split; [|apply exp_roundtrip; exact H].
  unfold exp_write. apply Forall_flat_map. apply Forall_forall. intros e _. apply exp_emit_bytes.
Qed.
Print Assumptions C10_exp_write_read.

Definition C10_pattern : list (stitch Z) :=
  [mkS 100 (-20) JUMP; mkS 105 (-20) STITCH; mkS 105 (-20) STOP; mkS 5 101 STITCH; mkS 5 101 TRIM;
   mkS (-122) 101 JUMP; mkS (-122) 101 COLOR_CHANGE; mkS 0 0 STITCH; mkS 0 0 END].
Example C10_case : representable 127 [STITCH; JUMP] [TRIM; COLOR_CHANGE; STOP; END] 0 0 C10_pattern
  /\ length (exp_write qz_int C10_pattern) = 26%nat.
Proof. split; [cbn [C10_pattern representable scmd sx sy]; all_steps|vm_compute; reflexivity]. Qed.

(** ** C11 *)
(** A JEF file, written and read back, gives the commands of [jef_view] at the same positions;
    the thread list read is the colours written. [near]/[near2] is the palette search (never
    index 0, which the palette leaves empty), [date] the 14-character date of the header. *)
Theorem C11_jef_write_read : forall T (teq : T -> T -> bool) near near2 (thread_of : Z -> T)
    trims m date w h hw hh threads p,
  (forall t, 1 <= near t < 2 ^ 32) -> (forall t i, 1 <= near2 t i < 2 ^ 32) ->
  length date = 14%nat ->
  jef_representable p -> starts_sewing p -> end_last p ->
  (S (color_changes p) <= length threads)%nat -> Z.of_nat (thread_commands p) < 2 ^ 27 ->
  exists palette file,
    jef_write qz_int teq near near2 trims m date w h hw hh threads p = Ok file /\
    jef_write_palette teq near near2 threads p = Ok palette /\
    jef_read thread_of file
    = Ok (closed (jef_view (if trims then Z.to_nat m else 0) false (before_end p)),
          map (fun i => Some (thread_of i)) (filter (fun i => negb (i =? 0)) palette)).
Proof.
  intros T teq near near2 thread_of trims m date w h hw hh threads p H1 H2 H3 H4 H5 H6 H7 H8.
  destruct (jef_roundtrip T teq near near2 thread_of trims m date w h hw hh threads p H1 H2 H3 H4 H5 H6 H7 H8)
    as (pal & file & A & B & _ & C).
  exists pal, file. split; [exact A|]. split; [exact B|exact C].
Qed.
Print Assumptions C11_jef_write_read.

(** Without stops and trims the commands are unchanged. *)
Theorem C11_jef_view_plain : forall n odd p,
  Forall (fun s => cmd_of (scmd s) <> STOP /\ cmd_of (scmd s) <> TRIM) p ->
  jef_view n odd p = relabel cmd_of p.
Proof.
  intros n odd p. revert odd. induction p as [|s p IH]; intros odd H; [reflexivity|].
  inversion H as [|? ? [H1 H2] Hp]; subst. cbn [jef_view relabel map].
  destruct (Z.eqb_spec (cmd_of (scmd s)) STOP); [contradiction|].
  destruct (Z.eqb_spec (cmd_of (scmd s)) TRIM); [contradiction|].
  destruct (cmd_of (scmd s) =? COLOR_CHANGE); rewrite IH by assumption; reflexivity.
Qed.
Print Assumptions C11_jef_view_plain.

Definition C11_pattern : list (stitch Z) :=
  [mkS 100 (-20) JUMP; mkS 105 (-20) STITCH; mkS 105 (-20) STOP; mkS 5 101 STITCH; mkS 5 101 TRIM;
   mkS (-122) 101 JUMP; mkS (-122) 101 COLOR_CHANGE; mkS 0 0 STITCH; mkS 0 0 END].
Example C11_case : jef_representable C11_pattern /\ starts_sewing C11_pattern /\ end_last C11_pattern
  /\ exists file, jef_write qz_int Z.eqb (fun t => t) (fun t _ => t + 1) false 3 (repeat 48 14) 10 10 5 5 [7; 9] C11_pattern = Ok file
     /\ jef_read (fun i => i) file
        = Ok ([mkS 100 (-20) JUMP; mkS 105 (-20) STITCH; mkS 105 (-20) STOP; mkS 5 101 STITCH;
               mkS (-122) 101 JUMP; mkS (-122) 101 COLOR_CHANGE; mkS 0 0 STITCH; mkS 0 0 END], [Some 7; Some 9]).
Proof.
  split; [unfold jef_representable; cbn [C11_pattern representable scmd sx sy]; all_steps|].
  split; [cbn; discriminate|]. split; [right; eexists; reflexivity|].
  eexists. split; vm_compute; reflexivity.
Qed.

(** ** C12 *)
(** One coded displacement in front of any further data. *)
Theorem C12_pec_displacement : forall dx dy r, -2048 <= dx <= 2047 -> -2048 <= dy <= 2047 ->
  pec_read_loop (write_stitch dx dy ++ r) = mkS dx dy STITCH :: pec_read_loop r /\
  pec_read_loop (write_jump dx dy ++ r) = mkS dx dy JUMP :: pec_read_loop r /\
  pec_read_loop (write_trimjump dx dy ++ r) = mkS 0 0 TRIM :: mkS dx dy JUMP :: pec_read_loop r /\
  (forall bs, In bs [write_stitch dx dy; write_jump dx dy; write_trimjump dx dy] ->
     bytes_ok bs /\ hd 0 bs <> 0xFF /\ hd 0 bs <> 0xFE).
Proof.
  intros dx dy r Hx Hy.
  split; [apply read_stitch; assumption|]. split; [apply read_jump; assumption|].
  split; [apply read_trimjump; assumption|].
  intros bs Hin. cbn [In] in Hin.
  destruct Hin as [<- | [<- | [<- | []]]].
  - split; [apply bytes_app; apply write_value_bytes; cbn; tauto|]. unfold write_stitch.
    destruct (stitch_value dx Hx) as [S|[_ E]].
    + destruct (short_value dx S) as (b & -> & _ & _ & N1 & N2 & _). cbn [app hd]. lia.
    + rewrite E. destruct (long_value 0 dx ltac:(cbn; tauto) Hx) as (b & c & -> & _ & _ & _ & _ & N1 & N2 & _).
      cbn [app hd]. lia.
  - split; [apply bytes_app; apply write_value_bytes; cbn; tauto|]. unfold write_jump.
    destruct (long_value JUMP_CODE dx ltac:(cbn; tauto) Hx) as (b & c & -> & _ & _ & _ & _ & N1 & N2 & _).
    cbn [app hd]. lia.
  - split; [apply bytes_app; apply write_value_bytes; cbn; tauto|]. unfold write_trimjump.
    destruct (long_value TRIM_CODE dx ltac:(cbn; tauto) Hx) as (b & c & -> & _ & _ & _ & _ & N1 & N2 & _).
    cbn [app hd]. lia.
Qed.
Print Assumptions C12_pec_displacement.

Example C12_case : write_stitch 63 (-63) = [128; 63; 65] /\ write_jump (-2047) 5 = [152; 1; 144; 5]
  /\ pec_read_loop [128; 63; 65] = [mkS 63 (-63) STITCH].
Proof. vm_compute. repeat split; reflexivity. Qed.

(** ** C13 *)
(** The byte after the block's 0xFF is the first byte of the preview picture, which is 0. *)
Theorem C13_pec_write_read : forall p q, pec_representable p ->
  Exists (fun s => cmd_of (scmd s) = END) p ->
  exists l, pec_read (pec_encode qz_int p ++ 0 :: q) = closed l /\
    l = pec_view true true 0 0 (before_end p) /\
    subseq (penetrations (before_end p)) (penetrations l) /\
    sewing 0 0 l = sewing 0 0 (before_end p).
Proof.
  intros p q H HE. eexists. split; [apply pec_roundtrip; assumption|]. split; [reflexivity|].
  split; [apply pec_view_penetrations|].
  apply pec_view_sewing. apply representable_before_end. exact H.
Qed.
Print Assumptions C13_pec_write_read.

Definition C13_pattern : list (stitch Z) :=
  [mkS 100 (-2000) JUMP; mkS 105 (-2010) STITCH; mkS 105 (-2010) COLOR_CHANGE; mkS 5 37 STITCH; mkS 5 37 TRIM;
   mkS (-122) 101 JUMP; mkS (-120) 99 STITCH; mkS (-120) 99 END].
Example C13_case : pec_representable C13_pattern
  /\ pec_read (pec_encode qz_int C13_pattern ++ [0])
     = [mkS 100 (-2000) JUMP; mkS 100 (-2000) STITCH; mkS 105 (-2010) STITCH; mkS 105 (-2010) COLOR_CHANGE;
        mkS 5 37 STITCH; mkS 5 37 TRIM; mkS (-122) 101 JUMP; mkS (-122) 101 STITCH; mkS (-120) 99 STITCH;
        mkS (-120) 99 END].
Proof.
  split; [unfold pec_representable; cbn [C13_pattern representable scmd sx sy]; all_steps|vm_compute; reflexivity].
Qed.

(** ** C14 *)
(** [u01_view]: the same commands at the same positions, a speed change being delivered
    just before the next movement. *)
Theorem C14_u01_write_read : forall p, u01_ok false 0 0 p ->
  exists bs, u01_body qz_int p = Ok bs /\ bytes_ok bs /\
    u01_read bs = closed (u01_view None 0 0 (before_end p)).
Proof. exact u01_roundtrip. Qed.
Print Assumptions C14_u01_write_read.

Theorem C14_u01_view_plain : forall p px py,
  Forall (fun s => cmd_of (scmd s) <> SLOW /\ cmd_of (scmd s) <> FAST) p ->
  u01_view None px py p = relabel u01_name p.
Proof.
  induction p as [|s p IH]; intros px py H; [reflexivity|].
  inversion H as [|? ? [H1 H2] Hp]; subst. cbn [u01_view relabel map].
  destruct (Z.eqb_spec (cmd_of (scmd s)) SLOW); [contradiction|].
  destruct (Z.eqb_spec (cmd_of (scmd s)) FAST); [contradiction|]. cbn [orb app].
  rewrite IH by assumption.
  destruct ((cmd_of (scmd s) =? STITCH) || (cmd_of (scmd s) =? JUMP)) eqn:E; [|reflexivity].
  f_equal. f_equal. unfold u01_name. rewrite orb_true_iff, !Z.eqb_eq in E.
  destruct E as [-> | ->]; reflexivity.
Qed.
Print Assumptions C14_u01_view_plain.

Definition C14_pattern : list (stitch Z) :=
  [mkS 0 0 (encode_thread_change NEEDLE_SET None (Some 3) None); mkS 200 (-255) JUMP; mkS 200 (-255) FAST;
   mkS 205 (-255) STITCH; mkS 205 (-255) TRIM; mkS 205 (-255) STOP; mkS 0 (-1) STITCH; mkS 0 (-1) END].
Example C14_case : u01_ok false 0 0 C14_pattern /\
  exists bs, u01_body qz_int C14_pattern = Ok bs /\ u01_read bs = C14_pattern.
Proof.
  split.
  - assert (Needle : forall px py c r, cmd_of c = NEEDLE_SET -> (exists n, needle_of c = Some n /\ 1 <= n <= 14) ->
      u01_ok false px py r -> u01_ok false px py (mkS px py c :: r))
      by (intros; cbn [u01_ok scmd sx sy]; right; right; right; repeat split; assumption).
    assert (Move : forall pend px py x y c r, c = STITCH \/ c = JUMP -> step_within 255 px py x y ->
      (pend = true -> x <> px \/ y <> py) -> u01_ok false x y r -> u01_ok pend px py (mkS x y c :: r)).
    { intros pend px py x y c r Hc H1 H2 H3; cbn [u01_ok scmd sx sy]; right; left.
      repeat split; try assumption; try apply H1. destruct Hc as [-> | ->]; [left|right]; reflexivity. }
    assert (Ctl : forall px py c r, c = STOP \/ c = TRIM \/ c = END ->
      u01_ok false px py r -> u01_ok false px py (mkS px py c :: r)).
    { intros px py c r Hc H; cbn [u01_ok scmd sx sy]; right; right; left. repeat split; try assumption.
      destruct Hc as [-> | [-> | ->]]; [left|right; left|right; right]; reflexivity. }
    assert (Fast : forall px py r, u01_ok true px py r -> u01_ok false px py (mkS px py FAST :: r))
      by (intros; cbn [u01_ok scmd sx sy]; left; repeat split; [right; reflexivity|assumption]).
    apply Needle; [reflexivity|exists 3; split; [reflexivity|lia]|].
    apply Move; [tauto|unfold step_within; lia|discriminate|].
    apply Fast. apply Move; [tauto|unfold step_within; lia|intros _; lia|].
    apply Ctl; [tauto|]. apply Ctl; [tauto|].
    apply Move; [tauto|unfold step_within; lia|discriminate|]. apply Ctl; [tauto|]. exact I.
  - eexists. split; vm_compute; reflexivity.
Qed.

(** ** C15 *)
Theorem C15_tbf_write_read : forall p, tbf_ok 0 0 p -> (length (tbf_needles p) <= 256)%nat ->
  exists order, tbf_thread_order p = Ok order /\ length order = 256%nat /\
    tbf_read order (tbf_body qz_int p) = Ok (closed (renamed tbf_as (before_end p))).
Proof. exact tbf_roundtrip. Qed.
Print Assumptions C15_tbf_write_read.

Definition C15_pattern : list (stitch Z) :=
  [mkS 0 0 (encode_thread_change NEEDLE_SET None (Some 200) None); mkS 100 (-127) JUMP; mkS 105 (-127) STITCH;
   mkS 105 (-127) TRIM; mkS 105 (-127) STOP; mkS 105 (-127) (encode_thread_change NEEDLE_SET None (Some 2) None);
   mkS 0 (-1) STITCH; mkS 0 (-1) END].
Example C15_case : tbf_ok 0 0 C15_pattern /\
  exists order, tbf_thread_order C15_pattern = Ok order /\
    tbf_read order (tbf_body qz_int C15_pattern) = Ok C15_pattern.
Proof.
  split.
  - cbn [C15_pattern tbf_ok scmd sx sy].
    split; [right; right; right; repeat split; exists 200; split; [reflexivity|lia]|].
    split; [right; left; split; [reflexivity|unfold step_within; lia]|].
    split; [left; split; [reflexivity|unfold step_within; lia]|].
    split; [right; right; left; split; [right; left; reflexivity|split; reflexivity]|].
    split; [right; right; left; split; [left; reflexivity|split; reflexivity]|].
    split; [right; right; right; repeat split; exists 2; split; [reflexivity|lia]|].
    split; [left; split; [reflexivity|unfold step_within; lia]|].
    split; [right; right; left; split; [right; right; reflexivity|split; reflexivity]|]. exact I.
  - eexists. split; vm_compute; reflexivity.
Qed.

(** ** C16 *)
(** Refuted: a stitch of exactly the advertised maximum of 124 units is read as a jump. *)
Theorem C16_xxx_boundary_refuted :
  exists p, (forall s, In s p -> -124 <= sx s <= 124 /\ -124 <= sy s <= 124) /\
    In (mkS 124 0 STITCH) p /\
    exists l th, xxx_read 0 (xxx_tail qz_int p []) = Ok (l, th) /\
      ~ In (mkS 124 0 STITCH) l /\ In (mkS 124 0 JUMP) l.
Proof.
  exists [mkS 124 0 STITCH; mkS 124 0 END]. split.
  { intros s [<- | [<- | []]]; cbn; lia. }
  split; [left; reflexivity|].
  do 2 eexists. split; [vm_compute; reflexivity|]. split.
  - intros [H|[H|[]]]; discriminate.
  - left. reflexivity.
Qed.
Print Assumptions C16_xxx_boundary_refuted.

(** Missing from the full claim: stitches of length exactly 124 (the long form). *)
Theorem C16_xxx_write_read_partial : forall p threads, xxx_ok 0 0 p ->
  Forall (fun c => 0 <= c < 2 ^ 24) threads ->
  xxx_read (length threads) (xxx_tail qz_int p threads)
  = Ok (closed (renamed (as_color_change []) (before_end p)), threads).
Proof. exact xxx_roundtrip. Qed.
Print Assumptions C16_xxx_write_read_partial.

Definition C16_pattern : list (stitch Z) :=
  [mkS 100 (-127) JUMP; mkS 105 (-4) STITCH; mkS 105 (-4) TRIM; mkS 105 (-4) STOP;
   mkS 100 (-1) STITCH; mkS 100 (-1) COLOR_CHANGE; mkS (-23) (-1) STITCH; mkS (-23) (-1) END].
Example C16_case : xxx_ok 0 0 C16_pattern /\
  length (xxx_tail qz_int C16_pattern [0xFF0102; 3]) = 118%nat.
Proof.
  split; [cbn [C16_pattern xxx_ok scmd sx sy]; all_steps|vm_compute; reflexivity].
Qed.

(** ** C51 *)
(** Whenever a JEF file is written, the recorded offset is where the stitch data starts
    and the recorded colour count is that of the palette and of the colour sections;
    a leading colour change (and only it) is counted as the first section. *)
Theorem C51_jef_header_partial : forall C (qz : C -> Z -> Z) T (teq : T -> T -> bool) near near2
    trims m date w h hw hh threads (p : list (stitch C)) file,
  length date = 14%nat -> Z.of_nat (thread_commands p) < 2 ^ 27 ->
  jef_write qz teq near near2 trims m date w h hw hh threads p = Ok file ->
  exists offset count,
    fst (read_int_32le file) = Some offset /\
    skipn (Z.to_nat offset) file = jef_body qz trims m p /\
    fst (read_int_32le (skipn 24 file)) = Some count /\
    count = match p with
            | [] => 0
            | s :: _ => Z.of_nat (thread_commands p) + (if cmd_of (scmd s) =? COLOR_CHANGE then 0 else 1)
            end.
Proof.
  intros C qz T teq near near2 trims m date w h hw hh threads p file Hd Hs H.
  unfold jef_write in H.
  destruct (jef_write_palette teq near near2 threads p) as [pal|] eqn:Ep; cbn [bindr] in H; [|discriminate].
  injection H as <-.
  assert (L : Z.of_nat (length pal) = match p with
            | [] => 0
            | s :: _ => Z.of_nat (thread_commands p) + (if cmd_of (scmd s) =? COLOR_CHANGE then 0 else 1)
            end).
  { unfold jef_write_palette in Ep. apply palette_length in Ep. rewrite Ep.
    destruct p as [|s p]; [reflexivity|]. cbn [map negb andb].
    assert (E : thread_cmds (cmd_of (scmd s) :: map (fun s => cmd_of (scmd s)) p) = thread_commands (s :: p)).
    { change (cmd_of (scmd s) :: map (fun s => cmd_of (scmd s)) p) with (cmds_of (s :: p)).
      unfold thread_cmds, thread_commands, cmds_of. generalize (s :: p). clear.
      induction l as [|a l IH]; [reflexivity|]. cbn [map filter].
      destruct ((cmd_of (scmd a) =? COLOR_CHANGE) || (cmd_of (scmd a) =? STOP)); cbn [length]; rewrite IH; reflexivity. }
    rewrite E. destruct (cmd_of (scmd s) =? COLOR_CHANGE); cbn [negb]; lia. }
  assert (Hp : Z.of_nat (length pal) < 2 ^ 28).
  { rewrite L. destruct p as [|s p]; [lia|]. destruct (cmd_of (scmd s) =? COLOR_CHANGE); lia. }
  exists (116 + 8 * Z.of_nat (length pal)), (Z.of_nat (length pal)).
  split; [apply jef_offset; exact Hp|].
  split; [apply jef_body_at_offset; exact Hd|].
  split; [apply jef_count; assumption|]. exact L.
Qed.
Print Assumptions C51_jef_header_partial.

(** The body has one colour section more than the header says if the pattern begins with a
    colour change, and such a file cannot be read back. *)
Theorem C51_jef_leading_color_change_refuted :
  exists (threads : list Z) (p : list (stitch Z)) file,
    (color_changes p < length threads)%nat /\
    jef_write qz_int Z.eqb (fun t => t) (fun t _ => t + 1) false 3 (repeat 48 14) 10 10 5 5 threads p = Ok file /\
    fst (read_int_32le (skipn 24 file)) = Some (Z.of_nat (thread_commands p)) /\
    jef_read (fun i => i) file = Err IndexError.
Proof.
  exists [7; 9; 11], [mkS 0 0 COLOR_CHANGE; mkS 5 5 STITCH; mkS 5 5 COLOR_CHANGE; mkS 9 9 STITCH; mkS 9 9 END].
  eexists. split; [cbn; lia|]. split; [vm_compute; reflexivity|]. split; vm_compute; reflexivity.
Qed.
Print Assumptions C51_jef_leading_color_change_refuted.

Example C51_case : exists file,
  jef_write qz_int Z.eqb (fun t => t) (fun t _ => t + 1) false 3 (repeat 48 14) 10 10 5 5 [7; 9] C11_pattern = Ok file
  /\ fst (read_int_32le (skipn 24 file)) = Some 3 /\ fst (read_int_32le file) = Some 140.
Proof. eexists. split; [vm_compute; reflexivity|]. split; vm_compute; reflexivity. Qed.

(** ** C53 *)
(** Refuted: of two stops in the same colour section the second is read as a colour change. *)
Theorem C53_jef_stops_refuted :
  exists (p : list (stitch Z)) file l th,
    jef_representable p /\ starts_sewing p /\ end_last p /\ color_changes p = 0%nat /\
    jef_write qz_int Z.eqb (fun t => t) (fun t _ => t + 1) false 3 (repeat 48 14) 10 10 5 5 [7] p = Ok file /\
    jef_read (fun i => i) file = Ok (l, th) /\ color_changes l = 1%nat.
Proof.
  exists [mkS 5 5 STITCH; mkS 5 5 STOP; mkS 9 9 STITCH; mkS 9 9 STOP; mkS 1 1 STITCH; mkS 1 1 END].
  do 3 eexists. split; [unfold jef_representable; cbn [representable scmd sx sy]; all_steps|].
  split; [cbn; discriminate|]. split; [right; eexists; reflexivity|]. split; [reflexivity|].
  split; [vm_compute; reflexivity|]. split; vm_compute; reflexivity.
Qed.
Print Assumptions C53_jef_stops_refuted.

(** At most one stop per colour section: [quiet] says no stop since the last colour change. *)
Fixpoint one_stop_per_color (quiet : bool) (l : list (stitch Z)) : Prop :=
  match l with
  | [] => True
  | s :: r =>
      let c := cmd_of (scmd s) in
      if c =? STOP then quiet = true /\ one_stop_per_color false r
      else if c =? COLOR_CHANGE then one_stop_per_color true r
      else one_stop_per_color quiet r
  end.

(** Missing from the full claim: sections with more than one stop. *)
Theorem C53_jef_stops_partial : forall p, one_stop_per_color true p ->
  Forall (fun s => cmd_of (scmd s) <> TRIM) p ->
  forall n, jef_view n false p = relabel cmd_of p.
Proof.
  assert (A : forall p quiet n, one_stop_per_color quiet p ->
    Forall (fun s => cmd_of (scmd s) <> TRIM) p -> jef_view n (negb quiet) p = relabel cmd_of p).
  { induction p as [|s p IH]; intros quiet n H Ht; [reflexivity|].
    inversion Ht as [|? ? H2 Hp]; subst. cbn [jef_view relabel map one_stop_per_color] in *.
    destruct (Z.eqb_spec (cmd_of (scmd s)) STOP) as [E|E].
    - destruct H as [-> H]. cbn [negb]. rewrite E. f_equal. apply (IH false n H Hp).
    - destruct (cmd_of (scmd s) =? COLOR_CHANGE).
      + f_equal. apply (IH true n H Hp).
      + destruct (Z.eqb_spec (cmd_of (scmd s)) TRIM); [contradiction|]. f_equal. apply (IH quiet n H Hp). }
  intros p H Ht n. apply (A p true n H Ht).
Qed.
Print Assumptions C53_jef_stops_partial.

Example C53_case : one_stop_per_color true
  [mkS 5 5 STITCH; mkS 5 5 STOP; mkS 9 9 STITCH; mkS 9 9 COLOR_CHANGE; mkS 1 1 STOP; mkS 1 1 END].
Proof. vm_compute. tauto. Qed.
