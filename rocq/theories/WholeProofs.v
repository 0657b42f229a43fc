(** Whole TBF, U01 and XXX files. *)
From Coq Require Import Ascii String ZArith QArith Qabs List Bool Lia Lqa.
From Verif Require Import PyBase EmbConst StreamModel StreamSpec StreamProofs FunctionsModel NumQ QuantModel QuantProofs ThreadModel HelperModel HelperProofs
  Utf8Model Utf8Proofs TextModel TextProofs PatternModel DstFileModel DstFileSpec DstHeaderProofs DstEntryProofs DstWholeProofs
  TbfModel U01Model XxxModel FormatSpec EightBitProofs RecordProofs BitLemmas WholeModel WholeSpec.
Import ListNotations.
Open Scope Z_scope.

(** ** Offsets *)
Lemma skip_to {A} n m (a r : list A) : List.length a = n -> skipn (n + m) (a ++ r) = skipn m r.
Proof.
  intros <-. rewrite skipn_app, Nat.add_comm.
  rewrite skipn_all2 by lia. replace (m + List.length a - List.length a)%nat with m by lia. reflexivity.
Qed.
Lemma field_over {A} n m k (a r : list A) : List.length a = n -> field (n + m) k (a ++ r) = field m k r.
Proof. intros H. unfold field. rewrite (skip_to n m a r H). reflexivity. Qed.
Lemma field_here {A} k (b r : list A) : List.length b = k -> field 0 k (b ++ r) = b.
Proof. intros <-. unfold field. cbn [skipn]. rewrite firstn_app, firstn_all, Nat.sub_diag. cbn [firstn]. apply app_nil_r. Qed.

(** ** Texts of fixed width *)
Lemma pad_left_length w v : (1 <= w)%nat -> 0 <= v < 10 ^ Z.of_nat w -> List.length (pad_left w (str_of_int v)) = w.
Proof.
  intros H Hv. unfold pad_left. rewrite app_length, repeat_length.
  pose proof (str_length v (Z.of_nat w) ltac:(lia) Hv) as L. unfold zlen in L. lia.
Qed.
Lemma pad_right_length w t : (List.length t <= w)%nat -> List.length (pad_right w t) = w.
Proof. intros H. unfold pad_right. rewrite app_length, repeat_length. lia. Qed.
Lemma line_length k1 k2 v n : List.length v = n -> List.length (header_line (String k1 (String k2 "")) v) = (4 + n)%nat.
Proof. intros <-. unfold header_line. cbn [text_of app List.length]. rewrite app_length. cbn [List.length]. lia. Qed.
Lemma cut_abs_some v : cut_abs (Some v) = Ok (Z.abs (q_cut v)).
Proof. reflexivity. Qed.
Lemma cut_below k v : 1 <= k -> (Qabs v < inject_Z k)%Q -> - k < q_cut v < k.
Proof.
  intros Hk H. apply Qabs_Qlt_condition in H as [H1 H2]. destruct v as [n d].
  unfold Qlt in H1, H2. unfold q_cut. cbn [Qnum Qden inject_Z Qopp] in *.
  assert (A : Z.abs n < k * Z.pos d) by lia. clear H1 H2.
  assert (B : Z.abs (Z.quot n (Z.pos d)) < k).
  { rewrite <- Z.quot_abs by lia. rewrite Z.quot_div_nonneg by lia. apply Z.div_lt_upper_bound; lia. }
  lia.
Qed.
Lemma ascii_header_line k v : Forall ascii (text_of k) -> Forall ascii v -> Forall ascii (header_line k v).
Proof.
  intros H1 H2. unfold header_line. repeat (apply Forall_app; split); try assumption; (constructor; [unfold ascii; lia|constructor]).
Qed.
Lemma ascii_pad_left w v : Forall ascii (pad_left w (str_of_int v)).
Proof. unfold pad_left. apply Forall_app. split; [apply repeat_ascii|apply str_ascii]. Qed.
Lemma ascii_pad_right w t : Forall ascii t -> Forall ascii (pad_right w t).
Proof. intros H. unfold pad_right. apply Forall_app. split; [exact H|apply repeat_ascii]. Qed.
Lemma ascii_signed_line k v : Forall ascii (text_of k) -> Forall ascii (signed_line k v).
Proof.
  intros H. unfold signed_line. apply ascii_header_line; [exact H|]. apply Forall_app. split; [|apply ascii_pad_left].
  destruct (0 <=? v); (constructor; [unfold ascii; lia|constructor]).
Qed.
Ltac asc := repeat constructor; unfold ascii; cbn; lia.
Lemma zlen_pad_to n l : zlen l <= n -> zlen (pad_to n l) = n.
Proof. intros H. unfold pad_to, zlen in *. rewrite app_length, repeat_length. lia. Qed.

(** ** TBF *)
Lemma tbf_threads_length cs : zlen (flat_map tbf_thread cs) = 5 * zlen cs.
Proof. unfold zlen. induction cs as [|c cs IH]; [reflexivity|]. cbn [flat_map]. rewrite app_length. cbn [tbf_thread List.length]. lia. Qed.
Lemma tbf_threads_read cs r : Forall (fun c => 0 <= c < 2 ^ 24) cs ->
  (match r with m :: _ => m <> 0x45 | [] => True end) -> tbf_read_threads (flat_map tbf_thread cs ++ r) = map Some cs.
Proof.
  intros H Hr. induction H as [|c cs Hc _ IH].
  - cbn [flat_map app map]. destruct r as [|m r]; [reflexivity|]. cbn [tbf_read_threads].
    destruct (Z.eqb_spec m 0x45); [contradiction|reflexivity].
  - cbn [flat_map]. unfold tbf_thread at 1. cbn [app tbf_read_threads map]. change (0x45 =? 0x45) with true. cbv iota.
    rewrite IH. f_equal. f_equal. unfold b8, sh8. rewrite !land_ff, !Z.shiftr_div_pow2, !Z.shiftl_mul_pow2 by lia.
    change (2 ^ 8) with 256. change (2 ^ 16) with 65536. change (2 ^ 0) with 1. change (2 ^ 24) with 16777216 in Hc. lia.
Qed.

Definition tbf_title (p : tbf_info) : text := match tbf_name p with Some n => n | None => text_of "Untitled" end.

Section Layout.
Context (p : tbf_info) (body : list (stitch Q)) (e : stitch Q) (order : list Z).
Let l := body ++ [e].
Hypothesis room : tbf_room p l.
Hypothesis Horder : tbf_thread_order l = Ok order.
Hypothesis Lorder : List.length order = 256%nat.

(** The file, and where its parts are. *)
Lemma tbf_layout : exists file x0 y0 x1 y1, tbf_write p l = Ok file /\
  extent sx l x0 x1 /\ extent sy l y0 y1 /\
  field 0x83 16 file = pad_right 16 (tbf_title p) /\
  number_at 0x97 7 file (zlen l) /\ number_at 0xA2 3 file (needle_changes l) /\
  number_at 0xA9 5 file (Z.abs (q_cut x1)) /\ number_at 0xB2 5 file (Z.abs (q_cut x0)) /\
  number_at 0xBB 5 file (Z.abs (q_cut y1)) /\ number_at 0xC4 5 file (Z.abs (q_cut y0)) /\
  signed_at 0xCD file (q_cut (sx e)) /\ signed_at 0xD7 file (- q_cut (sy e)) /\
  field 0x10A 256 file = order /\
  tbf_read_threads (skipn 0x20E file) = map Some (tbf_colors p) /\
  skipn 0x600 file = tbf_body qz_q l.
Proof.
  destruct room as (Rn & Rt & Rc & Rb & Rl & Rz & Rk).
  destruct (bounds_extent l) as (x0 & y0 & x1 & y1 & Eb & X & Y); [unfold l; destruct body; discriminate|].
  assert (B : forall v lo hi, extent v l lo hi -> Forall (fun s => (Qabs (v s) < inject_Z (10 ^ 5))%Q) l ->
    0 <= Z.abs (q_cut lo) < 10 ^ Z.of_nat 5 /\ 0 <= Z.abs (q_cut hi) < 10 ^ Z.of_nat 5).
  { intros v lo hi ((a & Ia & Ea) & (b & Ib & Eb') & _) F. rewrite Forall_forall in F. pose proof (F a Ia) as Fa. pose proof (F b Ib) as Fb.
    cbn beta in Fa, Fb. rewrite Ea in Fa. rewrite Eb' in Fb.
    apply cut_below in Fa; [|lia]. apply cut_below in Fb; [|lia]. change (10 ^ Z.of_nat 5) with (10 ^ 5). lia. }
  destruct (B sx x0 x1 X) as [B1 B2]; [eapply Forall_impl; [|exact Rl]; cbn; tauto|].
  destruct (B sy y0 y1 Y) as [B3 B4]; [eapply Forall_impl; [|exact Rl]; cbn; tauto|].
  assert (Be : 0 <= Z.abs (q_cut (sx e)) < 10 ^ Z.of_nat 5 /\ 0 <= Z.abs (- q_cut (sy e)) < 10 ^ Z.of_nat 5).
  { unfold below in Rl. rewrite Forall_forall in Rl. destruct (Rl e) as [F1 F2]; [unfold l; apply in_or_app; right; left; reflexivity|].
    apply cut_below in F1; [|lia]. apply cut_below in F2; [|lia]. change (10 ^ Z.of_nat 5) with (10 ^ 5). lia. }
  destruct Be as [B5 B6]. clear B.
  assert (Bz : 0 <= zlen l < 10 ^ Z.of_nat 7) by (unfold zlen in *; change (10 ^ Z.of_nat 7) with (10 ^ 7); lia).
  assert (Bk : 0 <= needle_changes l < 10 ^ Z.of_nat 3) by (unfold needle_changes, zlen in *; change (10 ^ Z.of_nat 3) with 1000; lia).
  assert (At : Forall ascii (tbf_title p) /\ (List.length (tbf_title p) <= 16)%nat).
  { unfold tbf_title, short_ascii in *. destruct (tbf_name p); [exact Rn|]. split; [asc|cbn; lia]. }
  destruct At as [At Lt].
  set (tp := match tbf_tp p with Some t => t | None => text_of "EG/" end).
  assert (Ap : Forall ascii tp /\ (List.length tp <= 32)%nat).
  { unfold tp, short_ascii in *. destruct (tbf_tp p); [exact Rt|]. split; [asc|cbn; lia]. }
  destruct Ap as [Ap Lp].
  set (L1 := header_line "LA" (pad_right 16 (tbf_title p))).
  set (L2 := header_line "ST" (pad_left 7 (str_of_int (zlen l)))).
  set (L3 := header_line "CO" (pad_left 3 (str_of_int (needle_changes l)))).
  set (L4 := header_line "+X" (pad_left 5 (str_of_int (Z.abs (q_cut x1))))).
  set (L5 := header_line "-X" (pad_left 5 (str_of_int (Z.abs (q_cut x0))))).
  set (L6 := header_line "+Y" (pad_left 5 (str_of_int (Z.abs (q_cut y1))))).
  set (L7 := header_line "-Y" (pad_left 5 (str_of_int (Z.abs (q_cut y0))))).
  set (L8 := signed_line "AX" (q_cut (sx e))).
  set (L9 := signed_line "AY" (- q_cut (sy e))).
  set (L10 := header_line "TP" (pad_right 32 tp)).
  set (L11 := header_line "JC" (text_of "3")).
  assert (N1 : List.length L1 = 20%nat) by (apply line_length; apply pad_right_length; exact Lt).
  assert (N2 : List.length L2 = 11%nat) by (apply line_length; apply pad_left_length; [lia|exact Bz]).
  assert (N3 : List.length L3 = 7%nat) by (apply line_length; apply pad_left_length; [lia|exact Bk]).
  assert (N4 : List.length L4 = 9%nat) by (apply line_length; apply pad_left_length; [lia|exact B2]).
  assert (N5 : List.length L5 = 9%nat) by (apply line_length; apply pad_left_length; [lia|exact B1]).
  assert (N6 : List.length L6 = 9%nat) by (apply line_length; apply pad_left_length; [lia|exact B4]).
  assert (N7 : List.length L7 = 9%nat) by (apply line_length; apply pad_left_length; [lia|exact B3]).
  assert (NS : forall k1 k2 v, 0 <= Z.abs v < 10 ^ Z.of_nat 5 -> List.length (signed_line (String k1 (String k2 "")) v) = 10%nat).
  { intros k1 k2 v Hv. unfold signed_line. apply (line_length _ _ _ 6). rewrite app_length, (pad_left_length 5) by (lia || exact Hv).
    destruct (0 <=? v); reflexivity. }
  assert (N8 : List.length L8 = 10%nat) by (apply NS; exact B5).
  assert (N9 : List.length L9 = 10%nat) by (apply NS; exact B6).
  assert (N10 : List.length L10 = 36%nat) by (apply line_length; apply pad_right_length; exact Lp).
  assert (N11 : List.length L11 = 5%nat) by reflexivity.
  assert (E1 : utf8_encode (tbf_label p) = Ok L1).
  { apply utf8_ascii. unfold tbf_label. apply ascii_header_line; [asc|]. apply ascii_pad_right. exact At. }
  assert (Er : rev l = e :: rev body) by (unfold l; rewrite rev_app_distr; reflexivity).
  set (T := L2 ++ L3 ++ L4 ++ L5 ++ L6 ++ L7 ++ L8 ++ L9 ++ L10 ++ L11 ++ text_of "DO:").
  assert (E2 : tbf_lines p l = Ok T).
  { unfold tbf_lines. rewrite Eb, !cut_abs_some. cbn [bindr]. rewrite Er. reflexivity. }
  assert (E3 : utf8_encode T = Ok T).
  { apply utf8_ascii. unfold T, L2, L3, L4, L5, L6, L7, L8, L9, L10, L11.
    repeat match goal with |- Forall ascii (_ ++ _) => apply Forall_app; split end;
    first [apply ascii_header_line; [asc|first [apply ascii_pad_left|apply ascii_pad_right; exact Ap|asc]]
          |apply ascii_signed_line; asc|asc]. }
  set (TH := flat_map tbf_thread (tbf_colors p)).
  assert (NT : zlen TH = 5 * zlen (tbf_colors p)) by apply tbf_threads_length.
  set (H0 := pad_to 0x80 (text_of "3.00")).
  assert (N0 : List.length H0 = 0x80%nat) by reflexivity.
  set (F := H0 ++ L1 ++ T ++ order ++ [13] ++ text_of "DA:" ++ TH).
  assert (NF : zlen F = 0x20E + zlen TH).
  { unfold F, T, zlen. rewrite !app_length, N0, N1, N2, N3, N4, N5, N6, N7, N8, N9, N10, N11, Lorder. cbn [List.length text_of]. lia. }
  assert (EW : exists m q, m <> 0x45 /\ zlen F + 1 + zlen q = 0x600 /\ tbf_write p l = Ok (F ++ (m :: q) ++ tbf_body qz_q l)).
  { unfold tbf_write. rewrite E1. cbn [bindr]. rewrite E2. cbn [bindr]. rewrite E3. cbn [bindr]. rewrite Horder. cbn [bindr].
    fold H0. fold TH. fold F. cbv zeta. unfold pad_to. set (k := Z.to_nat (0x376 - zlen F)).
    set (G := (F ++ repeat 32 k) ++ [13; 26]).
    assert (NG : zlen G = zlen F + Z.of_nat k + 2).
    { unfold G, zlen. rewrite !app_length, repeat_length. cbn [List.length]. lia. }
    unfold zlen in Rc. fold (zlen (tbf_colors p)) in Rc.
    exists (hd 0 (repeat 32 k ++ [13; 26])), (tl (repeat 32 k ++ [13; 26]) ++ repeat 32 (Z.to_nat (0x600 - zlen G))).
    split; [destruct k; cbn; lia|]. split.
    - assert (zlen (repeat 32 k ++ [13; 26]) = Z.of_nat k + 2).
      { unfold zlen. rewrite app_length, repeat_length. cbn [List.length]. lia. }
      unfold zlen at 2. rewrite app_length, repeat_length.
      assert (zlen (tl (repeat 32 k ++ [13; 26])) = Z.of_nat k + 1).
      { unfold zlen in *. destruct (repeat 32 k ++ [13; 26]) eqn:E; cbn [List.length tl] in *; lia. }
      unfold zlen in H1. rewrite Nat2Z.inj_add, Z2Nat.id by lia. unfold zlen at 1 in NG.
      fold (zlen G) in NG. lia.
    - unfold G at 1. f_equal. rewrite <- (app_assoc F), <- !(app_assoc F). f_equal.
      destruct (repeat 32 k ++ [13; 26]) eqn:E; [destruct k; discriminate E|]. cbn [hd tl app]. rewrite <- !app_assoc. reflexivity. }
  destruct EW as (m & q & Hm & Hq & EW).
  eexists. exists x0, y0, x1, y1. split; [exact EW|]. split; [exact X|]. split; [exact Y|].
  set (R := order ++ [13] ++ text_of "DA:" ++ TH ++ (m :: q) ++ tbf_body qz_q l).
  assert (EF : F ++ (m :: q) ++ tbf_body qz_q l
    = H0 ++ L1 ++ L2 ++ L3 ++ L4 ++ L5 ++ L6 ++ L7 ++ L8 ++ L9 ++ L10 ++ L11 ++ text_of "DO:" ++ R).
  { unfold F, T, R. rewrite <- !app_assoc. reflexivity. }
  assert (FL : forall k1 k2 w v r, List.length v = w -> field 3 w (header_line (String k1 (String k2 "")) v ++ r) = v).
  { intros k1 k2 w v r Hv. unfold header_line. cbn [text_of app]. unfold field. cbn [skipn]. rewrite <- app_assoc. apply (field_here w v). exact Hv. }
  assert (NL : forall k1 k2 w v r, (1 <= w)%nat -> 0 <= v < 10 ^ Z.of_nat w ->
    number_at 3 w (header_line (String k1 (String k2 "")) (pad_left w (str_of_int v)) ++ r) v).
  { intros k1 k2 w v r Hw Hv. unfold number_at. rewrite FL by (apply pad_left_length; assumption). apply strip_pad_left. }
  assert (SL : forall k1 k2 v r, 0 <= Z.abs v < 10 ^ Z.of_nat 5 -> signed_at 3 (signed_line (String k1 (String k2 "")) v ++ r) v).
  { intros k1 k2 v r Hv. unfold signed_at, number_at, signed_line, header_line. rewrite <- !app_assoc. cbn [text_of app]. split.
    - destruct (0 <=? v); reflexivity.
    - pose proof (field_here 5 (pad_left 5 (str_of_int (Z.abs v))) (13 :: r) (pad_left_length 5 _ ltac:(lia) Hv)) as FH.
      unfold field in FH. cbn [skipn] in FH.
      destruct (0 <=? v); cbn [app]; unfold field; cbn [skipn]; rewrite <- ?app_assoc; cbn [app]; rewrite FH; apply strip_pad_left. }
  assert (NO : forall n m k a r v, List.length a = n -> number_at m k r v -> number_at (n + m) k (a ++ r) v).
  { intros. unfold number_at. rewrite field_over by assumption. assumption. }
  assert (SO : forall n m a r v, List.length a = n -> signed_at m r v -> signed_at (n + m) (a ++ r) v).
  { intros n m0 a r v Hn [S1 S2]. split; [rewrite field_over by assumption; exact S1|]. 
    replace (S (n + m0)) with (n + S m0)%nat by lia. apply NO; assumption. }
  rewrite EF. clear EF EW.
  split; [change 0x83%nat with (0x80 + 3)%nat; rewrite field_over by exact N0; apply FL; apply pad_right_length; exact Lt|].
  split; [apply (NO 0x80 (20 + 3) 7)%nat; [exact N0|]; apply NO; [exact N1|]; apply NL; [lia|exact Bz]|].
  split; [apply (NO 0x80 (20 + (11 + 3)) 3)%nat; [exact N0|]; apply NO; [exact N1|]; apply NO; [exact N2|]; apply NL; [lia|exact Bk]|].
  split; [apply (NO 0x80 (20 + (11 + (7 + 3))) 5)%nat; [exact N0|]; apply NO; [exact N1|]; apply NO; [exact N2|]; apply NO; [exact N3|]; apply NL; [lia|exact B2]|].
  split; [apply (NO 0x80 (20 + (11 + (7 + (9 + 3)))) 5)%nat; [exact N0|]; apply NO; [exact N1|]; apply NO; [exact N2|]; apply NO; [exact N3|]; apply NO; [exact N4|]; apply NL; [lia|exact B1]|].
  split; [apply (NO 0x80 (20 + (11 + (7 + (9 + (9 + 3))))) 5)%nat; [exact N0|]; apply NO; [exact N1|]; apply NO; [exact N2|]; apply NO; [exact N3|]; apply NO; [exact N4|]; apply NO; [exact N5|]; apply NL; [lia|exact B4]|].
  split; [apply (NO 0x80 (20 + (11 + (7 + (9 + (9 + (9 + 3)))))) 5)%nat; [exact N0|]; apply NO; [exact N1|]; apply NO; [exact N2|]; apply NO; [exact N3|]; apply NO; [exact N4|]; apply NO; [exact N5|]; apply NO; [exact N6|]; apply NL; [lia|exact B3]|].
  split; [apply (SO 0x80 (20 + (11 + (7 + (9 + (9 + (9 + (9 + 3)))))))) %nat; [exact N0|]; apply SO; [exact N1|]; apply SO; [exact N2|]; apply SO; [exact N3|]; apply SO; [exact N4|]; apply SO; [exact N5|]; apply SO; [exact N6|]; apply SO; [exact N7|]; apply SL; exact B5|].
  split; [apply (SO 0x80 (20 + (11 + (7 + (9 + (9 + (9 + (9 + (10 + 3))))))))) %nat; [exact N0|]; apply SO; [exact N1|]; apply SO; [exact N2|]; apply SO; [exact N3|]; apply SO; [exact N4|]; apply SO; [exact N5|]; apply SO; [exact N6|]; apply SO; [exact N7|]; apply SO; [exact N8|]; apply SL; exact B6|].
  set (HD := H0 ++ L1 ++ L2 ++ L3 ++ L4 ++ L5 ++ L6 ++ L7 ++ L8 ++ L9 ++ L10 ++ L11 ++ text_of "DO:").
  assert (NH : List.length HD = 0x10A%nat).
  { unfold HD. rewrite !app_length, N0, N1, N2, N3, N4, N5, N6, N7, N8, N9, N10, N11. reflexivity. }
  replace (H0 ++ L1 ++ L2 ++ L3 ++ L4 ++ L5 ++ L6 ++ L7 ++ L8 ++ L9 ++ L10 ++ L11 ++ text_of "DO:" ++ R) with (HD ++ R)
    by (unfold HD; rewrite <- !app_assoc; reflexivity).
  split; [change 0x10A%nat with (0x10A + 0)%nat; rewrite field_over by exact NH; apply field_here; exact Lorder|].
  split.
  - change 0x20E%nat with (0x10A + (256 + 4))%nat. rewrite skip_to by exact NH. unfold R. rewrite skip_to by exact Lorder.
    cbn [app text_of skipn]. rewrite !app_assoc_reverse || idtac. apply tbf_threads_read; [exact Rb|]. cbn [app]. exact Hm.
  - change 0x600%nat with (0x10A + (256 + (4 + 1010)))%nat. rewrite skip_to by exact NH. unfold R. rewrite skip_to by exact Lorder.
    rewrite (app_assoc [13]). rewrite skip_to by reflexivity.
    rewrite (app_assoc TH). apply skip_header. rewrite app_length. cbn [List.length]. unfold zlen in *. lia.
Qed.
End Layout.

Lemma written_map {A} (f : Z -> A) : forall l xx yy, map (fun s => f (scmd s)) (apply_rel xx yy (quantise qz_q xx yy l)) = map (fun s => f (scmd s)) l.
Proof. induction l as [|s l IH]; intros xx yy; [reflexivity|]. cbn [quantise apply_rel map scmd]. rewrite IH. reflexivity. Qed.
Lemma needles_map {C} (l : list (stitch C)) : tbf_needles l
  = map needle_of (filter (fun c => cmd_of c =? NEEDLE_SET) (map (fun s => scmd s) l)).
Proof.
  unfold tbf_needles. induction l as [|s l IH]; [reflexivity|]. cbn [map filter].
  destruct (cmd_of (scmd s) =? NEEDLE_SET); [|exact IH]. cbn [map]. f_equal. exact IH.
Qed.
Lemma needles_written l : tbf_needles (written l) = tbf_needles l.
Proof. rewrite !needles_map. unfold written. rewrite (written_map (fun c => c)). reflexivity. Qed.
Lemma needles_length {C} (l : list (stitch C)) : Z.of_nat (List.length (tbf_needles l)) = needle_changes l.
Proof. unfold tbf_needles, needle_changes, zlen. rewrite map_length. reflexivity. Qed.
Lemma order_written l : tbf_thread_order (written l) = tbf_thread_order l.
Proof. unfold tbf_thread_order. rewrite needles_written. reflexivity. Qed.
Lemma tbf_body_written l : tbf_body qz_int (written l) = tbf_body qz_q l.
Proof. unfold tbf_body, written. rewrite quantise_snap. reflexivity. Qed.

Lemma u01_body_written l : u01_body qz_int (written l) = u01_body qz_q l.
Proof. unfold u01_body, written. rewrite quantise_snap. reflexivity. Qed.
Lemma xxx_tail_written l t : xxx_tail qz_int (written l) t = xxx_tail qz_q l t.
Proof. unfold xxx_tail, written. rewrite quantise_snap. reflexivity. Qed.

(** ** Binary fields *)
Lemma le16_here v r : le16_at 0 (write_int_16le v ++ r) v.
Proof.
  exists (sh8 v 0), (sh8 v 8). split; [reflexivity|]. unfold sh8. rewrite !land_ff, !Z.shiftr_div_pow2 by lia.
  change (2 ^ 0) with 1. change (2 ^ 8) with 256. lia.
Qed.
Lemma le32_here v r : le32_at 0 (write_int_32le v ++ r) v.
Proof.
  exists (sh8 v 0), (sh8 v 8), (sh8 v 16), (sh8 v 24). split; [reflexivity|]. unfold sh8. rewrite !land_ff, !Z.shiftr_div_pow2 by lia.
  change (2 ^ 0) with 1. change (2 ^ 8) with 256. change (2 ^ 16) with 65536. change (2 ^ 24) with 16777216. change (2 ^ 32) with 4294967296. lia.
Qed.
Lemma le16_over n m a r v : List.length a = n -> le16_at m r v -> le16_at (n + m) (a ++ r) v.
Proof. intros H (b0 & b1 & E & W). exists b0, b1. rewrite field_over by exact H. auto. Qed.
Lemma le32_over n m a r v : List.length a = n -> le32_at m r v -> le32_at (n + m) (a ++ r) v.
Proof. intros H (b0 & b1 & b2 & b3 & E & W). exists b0, b1, b2, b3. rewrite field_over by exact H. auto. Qed.

(** ** U01 *)
Lemma u01_layout body e bs : u01_body qz_q (body ++ [e]) = Ok bs ->
  exists file x0 y0 x1 y1, u01_write (body ++ [e]) = Ok file /\
    extent sx (body ++ [e]) x0 x1 /\ extent sy (body ++ [e]) y0 y1 /\
    le16_at 0x80 file (q_cut x0) /\ le16_at 0x82 file (- q_cut y1) /\ le16_at 0x84 file (q_cut x1) /\ le16_at 0x86 file (- q_cut y0) /\
    le32_at 0x8C file (zlen (body ++ [e]) + 1) /\ le16_at 0x90 file (q_cut (sx e)) /\ le16_at 0x92 file (- q_cut (sy e)) /\
    skipn 0x100 file = bs.
Proof.
  intros E. destruct (bounds_extent (body ++ [e])) as (x0 & y0 & x1 & y1 & Eb & X & Y); [destruct body; discriminate|].
  set (h := repeat 48 128 ++ write_int_16le (q_cut x0) ++ write_int_16le (- q_cut y1) ++ write_int_16le (q_cut x1) ++ write_int_16le (- q_cut y0)
        ++ write_int_32le 0 ++ write_int_32le (zlen (body ++ [e]) + 1)
        ++ write_int_16le (q_cut (sx e)) ++ write_int_16le (- q_cut (sy e))).
  assert (EW : u01_write (body ++ [e]) = Ok (h ++ repeat 0 (Z.to_nat (0x100 - zlen h)) ++ bs)).
  { unfold u01_write. rewrite rev_app_distr. cbn [rev app]. rewrite Eb. unfold int_of. cbn [bindr]. rewrite E. cbn [bindr]. reflexivity. }
  eexists. exists x0, y0, x1, y1. split; [exact EW|]. split; [exact X|]. split; [exact Y|].
  assert (Lh : List.length h = 148%nat) by reflexivity.
  replace (Z.to_nat (0x100 - zlen h)) with 108%nat by (unfold zlen; rewrite Lh; reflexivity).
  assert (L0 : List.length (repeat 48 128) = 128%nat) by reflexivity.
  unfold h. rewrite <- !app_assoc.
  split; [apply (le16_over 128 0); [exact L0|]; apply le16_here|].
  split; [apply (le16_over 128 2); [exact L0|]; apply (le16_over 2 0); [reflexivity|]; apply le16_here|].
  split; [apply (le16_over 128 4); [exact L0|]; apply (le16_over 2 2); [reflexivity|]; apply (le16_over 2 0); [reflexivity|]; apply le16_here|].
  split; [apply (le16_over 128 6); [exact L0|]; do 2 (apply (le16_over 2); [reflexivity|]); apply (le16_over 2 0); [reflexivity|]; apply le16_here|].
  split; [apply (le32_over 128 12); [exact L0|]; do 4 (apply (le32_over 2); [reflexivity|]); apply (le32_over 4 0); [reflexivity|]; apply le32_here|].
  split; [apply (le16_over 128 16); [exact L0|]; do 4 (apply (le16_over 2); [reflexivity|]); do 1 (apply (le16_over 4); [reflexivity|]); apply (le16_over 4 0); [reflexivity|]; apply le16_here|].
  split; [apply (le16_over 128 18); [exact L0|]; do 4 (apply (le16_over 2); [reflexivity|]); do 2 (apply (le16_over 4); [reflexivity|]); apply (le16_over 2 0); [reflexivity|]; apply le16_here|].
  rewrite !app_assoc. apply skip_header. reflexivity.
Qed.

(** ** XXX *)
Lemma xxx_layout threads body e : let l := body ++ [e] in
  exists file x0 y0 x1 y1 stop, xxx_write threads l = Ok file /\
    extent sx l x0 x1 /\ extent sy l y0 y1 /\
    le32_at 0x17 file (zlen l - 1) /\ le32_at 0x27 file (zlen threads) /\
    le16_at 0x2D file (q_cut (x1 - x0)) /\ le16_at 0x2F file (q_cut (y1 - y0)) /\
    le16_at 0x31 file (q_cut (sx e)) /\ le16_at 0x33 file (q_cut (- sy e)) /\
    le16_at 0x35 file (q_cut (- x0)) /\ le16_at 0x37 file (q_cut y1) /\
    le32_at 0xFC file (Z.of_nat stop) /\ skipn stop file = [0x7F; 0x7F; 0x02; 0x14] ++ xxx_colors threads /\
    skipn 0x100 file = xxx_tail qz_q l threads.
Proof.
  intros l. destruct (bounds_extent l) as (x0 & y0 & x1 & y1 & Eb & X & Y); [unfold l; destruct body; discriminate|].
  assert (Er : rev l = e :: rev body) by (unfold l; rewrite rev_app_distr; reflexivity).
  set (h := repeat 0 0x17 ++ write_int_32le (zlen l - 1) ++ repeat 0 0x0C ++ write_int_32le (zlen threads) ++ write_int_16le 0
          ++ write_int_16le (q_cut (x1 - x0)) ++ write_int_16le (q_cut (y1 - y0))
          ++ write_int_16le (q_cut (sx e)) ++ write_int_16le (q_cut (- sy e))
          ++ write_int_16le (q_cut (- x0)) ++ write_int_16le (q_cut y1)
          ++ repeat 0 0x42 ++ write_int_16le 0 ++ write_int_16le 0 ++ repeat 0 0x73 ++ write_int_16le 0x20 ++ repeat 0 0x08).
  assert (Lh : List.length h = 0xFC%nat) by reflexivity.
  set (st := xxx_loop (quantise qz_q 0 0 l)).
  assert (EW : xxx_write threads l = Ok (h ++ write_int_32le (zlen h + 4 + zlen st) ++ xxx_tail qz_q l threads)).
  { unfold xxx_write, xxx_header. rewrite Eb, Er. cbn [bindr]. reflexivity. }
  eexists. exists x0, y0, x1, y1, (0xFC + (4 + List.length st))%nat. split; [exact EW|]. split; [exact X|]. split; [exact Y|].
  assert (S1 : skipn (0xFC + (4 + List.length st)) (h ++ write_int_32le (zlen h + 4 + zlen st) ++ xxx_tail qz_q l threads)
    = [0x7F; 0x7F; 0x02; 0x14] ++ xxx_colors threads).
  { rewrite skip_to by exact Lh. rewrite (skip_to 4) by reflexivity. unfold xxx_tail. fold st. apply skip_header. reflexivity. }
  assert (S2 : le32_at 0xFC (h ++ write_int_32le (zlen h + 4 + zlen st) ++ xxx_tail qz_q l threads) (Z.of_nat (0xFC + (4 + List.length st)))).
  { replace (Z.of_nat (0xFC + (4 + List.length st))) with (zlen h + 4 + zlen st) by (unfold zlen; rewrite Lh; lia).
    apply (le32_over 0xFC 0); [exact Lh|]. apply le32_here. }
  assert (S3 : skipn 0x100 (h ++ write_int_32le (zlen h + 4 + zlen st) ++ xxx_tail qz_q l threads) = xxx_tail qz_q l threads).
  { rewrite app_assoc. apply skip_header. rewrite app_length, Lh. reflexivity. }
  clear EW. revert S1 S2 S3. set (rest := write_int_32le (zlen h + 4 + zlen st) ++ xxx_tail qz_q l threads). intros S1 S2 S3.
  assert (G : h ++ rest = h ++ rest) by reflexivity. unfold h in G at 1. rewrite <- !app_assoc in G.
  split; [rewrite <- G; apply (le32_over 0x17 0); [reflexivity|]; apply le32_here|].
  split; [rewrite <- G; apply (le32_over 0x17 0x10); [reflexivity|]; apply (le32_over 4 0xC); [reflexivity|]; apply (le32_over 0xC 0); [reflexivity|]; apply le32_here|].
  assert (Q16 : forall n v, le16_at n (write_int_16le 0
          ++ write_int_16le (q_cut (x1 - x0)) ++ write_int_16le (q_cut (y1 - y0))
          ++ write_int_16le (q_cut (sx e)) ++ write_int_16le (q_cut (- sy e))
          ++ write_int_16le (q_cut (- x0)) ++ write_int_16le (q_cut y1)
          ++ repeat 0 0x42 ++ write_int_16le 0 ++ write_int_16le 0 ++ repeat 0 0x73 ++ write_int_16le 0x20 ++ repeat 0 0x08 ++ rest) v ->
       le16_at (0x2B + n) (h ++ rest) v).
  { intros n v H. rewrite <- G. apply (le16_over 0x17 (0x14 + n)); [reflexivity|]. apply (le16_over 4 (0x10 + n)); [reflexivity|].
    apply (le16_over 0xC (4 + n)); [reflexivity|]. apply (le16_over 4 n); [reflexivity|]. exact H. }
  split; [apply (Q16 2%nat); do 0 (apply (le16_over 2); [reflexivity|]); apply (le16_over 2 0); [reflexivity|]; apply le16_here|].
  split; [apply (Q16 4%nat); do 1 (apply (le16_over 2); [reflexivity|]); apply (le16_over 2 0); [reflexivity|]; apply le16_here|].
  split; [apply (Q16 6%nat); do 2 (apply (le16_over 2); [reflexivity|]); apply (le16_over 2 0); [reflexivity|]; apply le16_here|].
  split; [apply (Q16 8%nat); do 3 (apply (le16_over 2); [reflexivity|]); apply (le16_over 2 0); [reflexivity|]; apply le16_here|].
  split; [apply (Q16 10%nat); do 4 (apply (le16_over 2); [reflexivity|]); apply (le16_over 2 0); [reflexivity|]; apply le16_here|].
  split; [apply (Q16 12%nat); do 5 (apply (le16_over 2); [reflexivity|]); apply (le16_over 2 0); [reflexivity|]; apply le16_here|].
  auto.
Qed.
