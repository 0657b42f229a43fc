(** Properties of whole TBF, U01 and XXX files: C118 to C121. *)
From Coq Require Import Ascii String ZArith QArith Qabs List Bool Lia Lqa.
From Verif Require Import PyBase EmbConst StreamModel StreamSpec StreamProofs FunctionsModel NumQ QuantModel QuantProofs ThreadModel HelperModel HelperProofs
  Utf8Model Utf8Proofs TextModel TextProofs PatternModel DstFileModel DstFileSpec DstHeaderProofs DstEntryProofs DstWholeProofs
  TbfModel U01Model XxxModel FormatSpec EightBitProofs BlockProofs BitLemmas WholeModel WholeSpec WholeProofs.
Import ListNotations.
Open Scope Z_scope.

(** ** C118: TBF *)
(** The name read back: the pattern's, or "Untitled", without the blanks around it. *)
Definition shown_name (p : tbf_info) : text := strip (match tbf_name p with Some n => n | None => text_of "Untitled" end).
(** The header as a controller reads it: how many commands and needle changes there are, the whole
    parts of the extents without their signs, and where the design ends, y upwards. *)
Definition tbf_header (file : list Z) (l : list (stitch Q)) (e : stitch Q) : Prop :=
  number_at 0x97 7 file (zlen l) /\ number_at 0xA2 3 file (needle_changes l) /\
  (exists x0 x1 n0 n1, extent sx l x0 x1 /\ whole (Qabs x0) n0 /\ whole (Qabs x1) n1 /\
     number_at 0xA9 5 file n1 /\ number_at 0xB2 5 file n0) /\
  (exists y0 y1 n0 n1, extent sy l y0 y1 /\ whole (Qabs y0) n0 /\ whole (Qabs y1) n1 /\
     number_at 0xBB 5 file n1 /\ number_at 0xC4 5 file n0) /\
  (exists ax ay, whole (sx e) ax /\ whole (sy e) (- ay) /\ signed_at 0xCD file ax /\ signed_at 0xD7 file ay).

Theorem C118_tbf_file : forall p body e, let l := body ++ [e] in
  tbf_room p l -> tbf_ok 0 0 (written l) ->
  exists file, tbf_write p l = Ok file /\ tbf_header file l e /\
    tbf_read_file file = Ok (shown_name p, map Some (tbf_colors p), closed (renamed tbf_as (before_end (written l)))).
Proof.
  intros p body e l room ok.
  assert (Hn : (List.length (tbf_needles (written l)) <= 256)%nat).
  { rewrite needles_written. pose proof (needles_length l). destruct room as (_ & _ & _ & _ & _ & _ & Rk). lia. }
  destruct (tbf_roundtrip (written l) ok Hn) as (order & E1 & E2 & E3).
  rewrite order_written in E1. rewrite tbf_body_written in E3.
  destruct (tbf_layout p body e order room E1 E2) as (file & x0 & y0 & x1 & y1 & W & X & Y & F1 & F2 & F3 & F4 & F5 & F6 & F7 & F8 & F9 & F10 & F11 & F12).
  exists file. split; [exact W|]. split.
  - split; [exact F2|]. split; [exact F3|].
    split; [exists x0, x1, (Z.abs (q_cut x0)), (Z.abs (q_cut x1)); repeat (split; [first [exact X|apply whole_abs|exact F4]|]); exact F5|].
    split; [exists y0, y1, (Z.abs (q_cut y0)), (Z.abs (q_cut y1)); repeat (split; [first [exact Y|apply whole_abs|exact F6]|]); exact F7|].
    exists (q_cut (sx e)), (- q_cut (sy e)). split; [apply whole_cut|]. split; [rewrite Z.opp_involutive; apply whole_cut|]. auto.
  - unfold tbf_read_file. unfold field in F1, F10.
    change (firstn 16 (skipn 131 file)) with (firstn 0x10 (skipn 0x83 file)) in *. rewrite F1.
    assert (A : Forall ascii (pad_right 16 (tbf_title p))).
    { destruct room as (Rn & _). apply ascii_pad_right. unfold tbf_title, short_ascii in *. destruct (tbf_name p); [apply Rn|]. asc. }
    fold l in F12. rewrite (proj2 (utf8_ascii _ A)), F10, F12, E3. cbn [bindr]. rewrite F11, strip_pad_right. reflexivity.
Qed.

(** A design that meets the hypotheses. *)
Definition st (x y c : Z) : stitch Q := mkS (inject_Z x) (inject_Z y) c.
Definition needle (n : Z) : Z := encode_thread_change NEEDLE_SET None (Some n) None.
Definition tbf_body_case : list (stitch Q) :=
  [st 0 0 (needle 3); st 5 0 STITCH; mkS (21 # 2) (7 # 2) STITCH; st 11 4 TRIM; st 100 (-20) JUMP; st 100 (-20) (needle 1); st 120 30 STITCH; st 120 30 STOP].
Definition tbf_info_case : tbf_info := mkTbf (Some (text_of " Rose ")) None [0xFF8000; 0x0000FF; 0x123456].
Lemma tbf_case_written : written (tbf_body_case ++ [st 120 30 END]) =
  [mkS 0 0 (needle 3); mkS 5 0 STITCH; mkS 11 4 STITCH; mkS 11 4 TRIM; mkS 100 (-20) JUMP; mkS 100 (-20) (needle 1); mkS 120 30 STITCH; mkS 120 30 STOP; mkS 120 30 END].
Proof. vm_compute. reflexivity. Qed.
Example C118_case : tbf_room tbf_info_case (tbf_body_case ++ [st 120 30 END]) /\ tbf_ok 0 0 (written (tbf_body_case ++ [st 120 30 END])).
Proof.
  rewrite tbf_case_written. split.
  - split; [split; [asc|cbn; lia]|]. split; [exact I|]. split; [vm_compute; discriminate|].
    split; [repeat constructor; cbn; lia|]. split; [repeat constructor|]. split; [reflexivity|vm_compute; discriminate].
  - assert (C3 : cmd_of (needle 3) = NEEDLE_SET) by reflexivity. assert (C1 : cmd_of (needle 1) = NEEDLE_SET) by reflexivity.
    assert (S : forall a b c d, -127 <= c - a <= 127 -> -127 <= d - b <= 127 -> step_within 127 a b c d) by (intros; split; lia).
    cbn [tbf_ok sx sy scmd].
    split; [right; right; right; split; [exact C3|]; split; [reflexivity|]; split; [reflexivity|]; exists 3; split; [reflexivity|lia]|].
    split; [left; split; [reflexivity|apply S; lia]|].
    split; [left; split; [reflexivity|apply S; lia]|].
    split; [right; right; left; split; [right; left; reflexivity|split; reflexivity]|].
    split; [right; left; split; [reflexivity|]; split; [apply S; lia|left; lia]|].
    split; [right; right; right; split; [exact C1|]; split; [reflexivity|]; split; [reflexivity|]; exists 1; split; [reflexivity|lia]|].
    split; [left; split; [reflexivity|apply S; lia]|].
    split; [right; right; left; split; [left; reflexivity|split; reflexivity]|].
    split; [right; right; left; split; [right; right; reflexivity|split; reflexivity]|]. exact I.
Qed.

(** C121: one character more than 16, or one that is not ASCII, moves the tables behind the name: the
    needles are lost (the first one is read from the colon of "DO:") and so are the threads. *)
Definition named (n : text) : tbf_info := mkTbf (Some n) None [0xFF8000].
Theorem C121_any_name_refuted : exists n1 n2, List.length n1 = 17%nat /\ Forall ascii n1 /\ n2 = [233] /\
  Forall (fun n => exists file name, tbf_write (named n) [st 0 0 (needle 3); st 5 0 STITCH; st 5 0 END] = Ok file /\
    tbf_read_file file = Ok (name, [], [mkS 0 0 (needle 58); mkS 5 0 STITCH; mkS 5 0 END])) [n1; n2].
Proof.
  exists (text_of "A flower, quite s"), [233]. split; [reflexivity|]. split; [asc|]. split; [reflexivity|].
  constructor; [|constructor; [|constructor]].
  all: eexists; eexists; split; [vm_compute; reflexivity|vm_compute; reflexivity].
Qed.
(** A design without stitches cannot be written. *)
Theorem C118_empty_refused : forall p, match tbf_name p with Some n => Forall scalar n | None => True end ->
  tbf_write p [] = Err OverflowError.
Proof.
  intros p H. unfold tbf_write. destruct (utf8_round_trip (tbf_label p)) as (la & E & _); [|rewrite E; reflexivity].
  unfold tbf_label, header_line, pad_right.
  assert (B : forall t, Forall ascii t -> Forall scalar t) by (intros t Ht; eapply Forall_impl; [|exact Ht]; apply ascii_scalar).
  apply Forall_app; split; [apply B; asc|]. apply Forall_app; split; [apply B; asc|]. apply Forall_app; split; [|apply B; asc].
  apply Forall_app; split; [|apply B; apply repeat_ascii]. destruct (tbf_name p); [exact H|apply B; asc].
Qed.

(** ** C119: U01 *)
(** The header: extents as 16-bit numbers, y upwards; one more than the number of commands; the end. *)
Definition u01_header (file : list Z) (l : list (stitch Q)) (e : stitch Q) : Prop :=
  (exists x0 x1 n0 n1, extent sx l x0 x1 /\ whole x0 n0 /\ whole x1 n1 /\ le16_at 0x80 file n0 /\ le16_at 0x84 file n1) /\
  (exists y0 y1 n0 n1, extent sy l y0 y1 /\ whole y0 (- n0) /\ whole y1 (- n1) /\ le16_at 0x86 file n0 /\ le16_at 0x82 file n1) /\
  le32_at 0x8C file (zlen l + 1) /\
  (exists ax ay, whole (sx e) ax /\ whole (sy e) (- ay) /\ le16_at 0x90 file ax /\ le16_at 0x92 file ay).

Theorem C119_u01_file : forall body e, let l := body ++ [e] in
  u01_ok false 0 0 (written l) ->
  exists file, u01_write l = Ok file /\ u01_header file l e /\
    u01_read_file file = closed (u01_view None 0 0 (before_end (written l))).
Proof.
  intros body e l H. destruct (u01_roundtrip (written l) H) as (bs & E1 & _ & E2). rewrite u01_body_written in E1.
  destruct (u01_layout body e bs E1) as (file & x0 & y0 & x1 & y1 & W & X & Y & F1 & F2 & F3 & F4 & F5 & F6 & F7 & F8).
  exists file. split; [exact W|]. split.
  - split; [exists x0, x1, (q_cut x0), (q_cut x1); repeat (split; [first [exact X|apply whole_cut|exact F1]|]); exact F3|].
    split; [exists y0, y1, (- q_cut y0), (- q_cut y1); rewrite !Z.opp_involutive; repeat (split; [first [exact Y|apply whole_cut|exact F4]|]); exact F2|].
    split; [exact F5|]. exists (q_cut (sx e)), (- q_cut (sy e)). rewrite Z.opp_involutive. split; [apply whole_cut|]. split; [apply whole_cut|]. auto.
  - unfold u01_read_file. rewrite F8. exact E2.
Qed.
Theorem C119_u01_empty : exists file, u01_write [] = Ok file /\ u01_read_file file = [mkS 0 0 END].
Proof. eexists. split; [reflexivity|]. vm_compute. reflexivity. Qed.
Definition u01_body_case : list (stitch Q) :=
  [st 0 0 (needle 3); st 0 0 SLOW; st 200 0 STITCH; mkS (401 # 2) (7 # 2) STITCH; st 200 4 TRIM; st 0 (-20) JUMP; st 0 (-20) (needle 14); st 120 30 STITCH; st 120 30 STOP].
Lemma u01_case_written : written (u01_body_case ++ [st 120 30 END]) =
  [mkS 0 0 (needle 3); mkS 0 0 SLOW; mkS 200 0 STITCH; mkS 200 4 STITCH; mkS 200 4 TRIM; mkS 0 (-20) JUMP; mkS 0 (-20) (needle 14); mkS 120 30 STITCH; mkS 120 30 STOP; mkS 120 30 END].
Proof. vm_compute. reflexivity. Qed.
Lemma ok_speed x y c r px py : c = SLOW \/ c = FAST -> x = px -> y = py -> u01_ok true x y r -> u01_ok false px py (mkS x y c :: r).
Proof. intros H -> -> R. left. cbn [sx sy scmd]. destruct H as [-> | ->]; auto. Qed.
Lemma ok_move x y c r pend px py : c = STITCH \/ c = JUMP -> step_within 255 px py x y -> (pend = true -> x <> px \/ y <> py) ->
  u01_ok false x y r -> u01_ok pend px py (mkS x y c :: r).
Proof. intros H S P R. right; left. cbn [sx sy scmd]. destruct H as [-> | ->]; auto. Qed.
Lemma ok_still x y c r pend px py : c = STOP \/ c = TRIM \/ c = END -> x = px -> y = py -> u01_ok pend x y r -> u01_ok pend px py (mkS x y c :: r).
Proof. intros H -> -> R. right; right; left. cbn [sx sy scmd]. destruct H as [-> |[-> | ->]]; auto. Qed.
Lemma ok_needle x y n r pend px py : 1 <= n <= 14 -> needle_of (needle n) = Some n -> cmd_of (needle n) = NEEDLE_SET -> x = px -> y = py ->
  u01_ok pend x y r -> u01_ok pend px py (mkS x y (needle n) :: r).
Proof. intros H E C -> -> R. right; right; right. cbn [sx sy scmd]. eauto 8. Qed.
Example C119_case : u01_ok false 0 0 (written (u01_body_case ++ [st 120 30 END])).
Proof.
  rewrite u01_case_written.
  assert (S : forall a b c d, -255 <= c - a <= 255 -> -255 <= d - b <= 255 -> step_within 255 a b c d) by (intros; split; lia).
  apply ok_needle; [lia|reflexivity|reflexivity|reflexivity|reflexivity|].
  apply ok_speed; [left; reflexivity|reflexivity|reflexivity|].
  apply ok_move; [left; reflexivity|apply S; lia|intros _; left; lia|].
  apply ok_move; [left; reflexivity|apply S; lia|discriminate|].
  apply ok_still; [right; left; reflexivity|reflexivity|reflexivity|].
  apply ok_move; [right; reflexivity|apply S; lia|discriminate|].
  apply ok_needle; [lia|reflexivity|reflexivity|reflexivity|reflexivity|].
  apply ok_move; [left; reflexivity|apply S; lia|discriminate|].
  apply ok_still; [left; reflexivity|reflexivity|reflexivity|].
  apply ok_still; [right; right; reflexivity|reflexivity|reflexivity|]. exact I.
Qed.

(** ** C120: XXX *)
Definition xxx_header_ok (file : list Z) (threads : list Z) (l : list (stitch Q)) (e : stitch Q) : Prop :=
  le32_at 0x17 file (zlen l - 1) /\ le32_at 0x27 file (zlen threads) /\
  (exists x0 x1 w n, extent sx l x0 x1 /\ whole (x1 - x0) w /\ whole (- x0) n /\ le16_at 0x2D file w /\ le16_at 0x35 file n) /\
  (exists y0 y1 h n, extent sy l y0 y1 /\ whole (y1 - y0) h /\ whole y1 n /\ le16_at 0x2F file h /\ le16_at 0x37 file n) /\
  (exists ax ay, whole (sx e) ax /\ whole (- sy e) ay /\ le16_at 0x31 file ax /\ le16_at 0x33 file ay) /\
  (exists stop rest, le32_at 0xFC file (Z.of_nat stop) /\ skipn stop file = [0x7F; 0x7F; 0x02; 0x14] ++ rest).

Lemma le16_read_at a file v r : skipn a file = write_int_32le v ++ r -> 0 <= v < 65536 -> read_int_16le (skipn a file) = (Some v, skipn 2 (skipn a file)).
Proof.
  intros E H. rewrite E. unfold write_int_32le. cbn [app]. unfold read_int_16le. cbn [firstn skipn]. unfold b8, sh8.
  rewrite !land_ff, !Z.shiftr_div_pow2, !Z.shiftl_mul_pow2 by lia. change (2 ^ 0) with 1. change (2 ^ 8) with 256. f_equal. f_equal. lia.
Qed.
Lemma field_read a file v : le32_at a file v -> 0 <= v < 65536 -> Forall (fun b => 0 <= b < 256) (field a 4 file) ->
  exists r, read_int_16le (skipn a file) = (Some v, r).
Proof.
  intros (b0 & b1 & b2 & b3 & E & W) H B. rewrite E in B. unfold field in E.
  destruct (skipn a file) as [|c0 [|c1 [|c2 [|c3 q]]]]; try discriminate E. cbn [firstn] in E. injection E as -> -> -> ->.
  eexists. unfold read_int_16le. cbn [firstn skipn]. f_equal. f_equal. unfold b8. rewrite !land_ff, !Z.shiftl_mul_pow2 by lia.
  change (2 ^ 8) with 256. change (2 ^ 32) with 4294967296 in W.
  repeat match goal with B : Forall _ (_ :: _) |- _ => inversion B; clear B; subst end. lia.
Qed.

Theorem C120_xxx_file : forall threads body e, let l := body ++ [e] in
  xxx_ok 0 0 (written l) -> Forall (fun c => 0 <= c < 2 ^ 24) threads -> zlen threads < 65536 ->
  exists file, xxx_write threads l = Ok file /\ xxx_header_ok file threads l e /\
    xxx_read_file file = Ok (closed (renamed (as_color_change []) (before_end (written l))), threads).
Proof.
  intros threads body e l H Ht Hn.
  destruct (xxx_layout threads body e) as (file & x0 & y0 & x1 & y1 & stop & W & X & Y & F1 & F2 & F3 & F4 & F5 & F6 & F7 & F8 & F9 & F10 & F11).
  exists file. split; [exact W|]. split.
  - split; [exact F1|]. split; [exact F2|].
    split; [exists x0, x1, (q_cut (x1 - x0)), (q_cut (- x0)); repeat (split; [first [exact X|apply whole_cut|exact F3]|]); exact F7|].
    split; [exists y0, y1, (q_cut (y1 - y0)), (q_cut y1); repeat (split; [first [exact Y|apply whole_cut|exact F4]|]); exact F8|].
    split; [exists (q_cut (sx e)), (q_cut (- sy e)); repeat (split; [first [apply whole_cut|exact F5]|]); exact F6|].
    exists stop, (xxx_colors threads). auto.
  - unfold xxx_read_file. destruct (field_read 0x27 file (zlen threads) F2) as (r & E); [unfold zlen in *; lia| |].
    { unfold xxx_write in W. destruct (xxx_header threads (body ++ [e])) as [h|] eqn:Eh; [|discriminate W]. cbn [bindr] in W. injection W as <-.
      unfold xxx_header in Eh. destruct (bounds (body ++ [e])) as [[[[a|] [b|]] [c|]] [d|]]; try discriminate Eh.
      destruct (rev (body ++ [e])); [discriminate Eh|]. injection Eh as <-. unfold field. cbn [repeat app skipn write_int_32le firstn].
      repeat (constructor; [unfold sh8; rewrite land_ff; lia|]). constructor. }
    rewrite E, F11. replace (Z.to_nat (zlen threads)) with (List.length threads) by (unfold zlen; lia).
    rewrite <- xxx_tail_written. apply xxx_roundtrip; assumption.
Qed.
Definition xxx_body_case : list (stitch Q) :=
  [st 123 0 STITCH; mkS (251 # 2) (7 # 2) STITCH; st 125 4 TRIM; st 0 (-20) JUMP; st 0 (-20) COLOR_CHANGE; st 120 30 STITCH; st 120 30 STOP].
Lemma xxx_case_written : written (xxx_body_case ++ [st 120 30 END]) =
  [mkS 123 0 STITCH; mkS 125 4 STITCH; mkS 125 4 TRIM; mkS 0 (-20) JUMP; mkS 0 (-20) COLOR_CHANGE; mkS 120 30 STITCH; mkS 120 30 STOP; mkS 120 30 END].
Proof. vm_compute. reflexivity. Qed.
Example C120_case : xxx_ok 0 0 (written (xxx_body_case ++ [st 120 30 END])) /\ Forall (fun c => 0 <= c < 2 ^ 24) [0xFF8000; 0x0000FF].
Proof.
  rewrite xxx_case_written. split; [|repeat constructor; cbn; lia].
  assert (S : forall m a b c d, -m <= c - a <= m -> -m <= d - b <= m -> step_within m a b c d) by (intros; split; lia).
  cbn [xxx_ok sx sy scmd].
  split; [left; split; [reflexivity|apply S; lia]|].
  split; [left; split; [reflexivity|apply S; lia]|].
  split; [right; right; split; [right; right; left; reflexivity|split; reflexivity]|].
  split; [right; left; split; [reflexivity|apply S; lia]|].
  split; [right; right; split; [right; left; reflexivity|split; reflexivity]|].
  split; [left; split; [reflexivity|apply S; lia]|].
  split; [right; right; split; [left; reflexivity|split; reflexivity]|].
  split; [right; right; split; [right; right; right; reflexivity|split; reflexivity]|]. exact I.
Qed.
(** A design without stitches cannot be written; neither can more than 65535 threads be read back
    (the reader takes 16 of the 32 bits of their number). *)
Theorem C120_empty_refused : forall threads, xxx_write threads [] = Err OverflowError.
Proof. reflexivity. Qed.

Print Assumptions C118_tbf_file.
Print Assumptions C121_any_name_refuted.
Print Assumptions C118_empty_refused.
Print Assumptions C119_u01_file.
Print Assumptions C119_u01_empty.
Print Assumptions C120_xxx_file.
Print Assumptions C120_empty_refused.
