From Coq Require Import ZArith List Bool Lia.
From Verif Require Import PyBase EmbConst StreamModel DstModel BitLemmas.
Import ListNotations.
Open Scope Z_scope.

Definition b2z (b : bool) : Z := if b then 1 else 0.

Lemma tern_spec : forall t d v p m v', 0 <= t -> d = 2 * t + 1 -> tern t d v = (p, m, v') ->
  v = d * (b2z p - b2z m) + v' /\ (Z.abs v <= d + t <-> Z.abs v' <= t).
Proof.
  intros t d v p m v' Ht Hd H. unfold tern in H.
  destruct (Z.gtb_spec v t) as [H1|H1];
    [destruct (Z.ltb_spec (v - d) (- t)) as [H2|H2]|destruct (Z.ltb_spec v (- t)) as [H2|H2]];
    injection H as <- <- <-; cbn [b2z]; lia.
Qed.

(** The five digits of one axis. *)
Record digits := mkD { p81 : bool; m81 : bool; p27 : bool; m27 : bool; p9 : bool; m9 : bool;
                       p3 : bool; m3 : bool; p1 : bool; m1 : bool }.
Definition dvalue (d : digits) : Z :=
  81 * (b2z (p81 d) - b2z (m81 d)) + 27 * (b2z (p27 d) - b2z (m27 d))
  + 9 * (b2z (p9 d) - b2z (m9 d)) + 3 * (b2z (p3 d) - b2z (m3 d)) + (b2z (p1 d) - b2z (m1 d)).

Definition axis (v : Z) : digits * Z :=
    let '(xp81, xm81, x) := tern 40 81 v in
    let '(xp27, xm27, x) := tern 13 27 x in
    let '(xp9, xm9, x) := tern 4 9 x in
    let '(xp3, xm3, x) := tern 1 3 x in
    let '(xp1, xm1, x) := tern 0 1 x in
    (mkD xp81 xm81 xp27 xm27 xp9 xm9 xp3 xm3 xp1 xm1, x).

Lemma axis_spec : forall v d r, axis v = (d, r) ->
  v = dvalue d + r /\ (r = 0 <-> -121 <= v <= 121).
Proof.
  intros v d r H. unfold axis in H.
  destruct (tern 40 81 v) as [[a1 a2] v1] eqn:E1.
  destruct (tern 13 27 v1) as [[c1 c2] v2] eqn:E2.
  destruct (tern 4 9 v2) as [[d1 d2] v3] eqn:E3.
  destruct (tern 1 3 v3) as [[e1 e2] v4] eqn:E4.
  destruct (tern 0 1 v4) as [[f1 f2] v5] eqn:E5.
  apply tern_spec in E1; [|lia|lia]. apply tern_spec in E2; [|lia|lia].
  apply tern_spec in E3; [|lia|lia]. apply tern_spec in E4; [|lia|lia].
  apply tern_spec in E5; [|lia|lia].
  injection H as <- <-. unfold dvalue. cbn [p81 m81 p27 m27 p9 m9 p3 m3 p1 m1]. lia.
Qed.

Definition rec_b0 (dx dy : digits) : Z :=
  bw (p9 dx) 2 + bw (m9 dx) 3 + bw (p1 dx) 0 + bw (m1 dx) 1
  + bw (p9 dy) 5 + bw (m9 dy) 4 + bw (p1 dy) 7 + bw (m1 dy) 6.
Definition rec_b1 (dx dy : digits) : Z :=
  bw (p27 dx) 2 + bw (m27 dx) 3 + bw (p3 dx) 0 + bw (m3 dx) 1
  + bw (p27 dy) 5 + bw (m27 dy) 4 + bw (p3 dy) 7 + bw (m3 dy) 6.
Definition rec_b2 (j : bool) (dx dy : digits) : Z :=
  bw j 7 + bit 0 + bit 1 + bw (p81 dx) 2 + bw (m81 dx) 3 + bw (p81 dy) 5 + bw (m81 dy) 4.

Definition is_move (c : Z) : bool := (c =? STITCH) || (c =? JUMP) || (c =? SEQUIN_EJECT).
Definition is_jumpish (c : Z) : bool := (c =? JUMP) || (c =? SEQUIN_EJECT).

Lemma encode_record_move : forall x y c, is_move c = true ->
  encode_record x y c =
  let '(dx, rx) := axis x in
  if negb (rx =? 0) then Err ValueError else
  let '(dy, ry) := axis (- y) in
  if negb (ry =? 0) then Err ValueError else
  py_bytearray [rec_b0 dx dy; rec_b1 dx dy; rec_b2 (is_jumpish c) dx dy].
Proof.
  intros x y c Hc. unfold encode_record, is_move in *. rewrite Hc. unfold axis.
  destruct (tern 40 81 x) as [[a1 a2] v1].
  destruct (tern 13 27 v1) as [[c1 c2] v2].
  destruct (tern 4 9 v2) as [[d1 d2] v3].
  destruct (tern 1 3 v3) as [[e1 e2] v4].
  destruct (tern 0 1 v4) as [[f1 f2] v5].
  destruct (negb (v5 =? 0)); [reflexivity|].
  destruct (tern 40 81 (- y)) as [[g1 g2] w1].
  destruct (tern 13 27 w1) as [[h1 h2] w2].
  destruct (tern 4 9 w2) as [[i1 i2] w3].
  destruct (tern 1 3 w3) as [[j1 j2] w4].
  destruct (tern 0 1 w4) as [[k1 k2] w5].
  destruct (negb (w5 =? 0)); [reflexivity|].
  unfold rec_b0, rec_b1, rec_b2, is_jumpish. cbn [p81 m81 p27 m27 p9 m9 p3 m3 p1 m1].
  reflexivity.
Qed.

(** All 8-bit facts about the composed bytes, by exhausting the booleans. *)
Lemma byte_bits : forall a0 a1 a2 a3 a4 a5 a6 a7,
  let b := bw a2 2 + bw a3 3 + bw a0 0 + bw a1 1 + bw a5 5 + bw a4 4 + bw a7 7 + bw a6 6 in
  getbit b 0 = b2z a0 /\ getbit b 1 = b2z a1 /\ getbit b 2 = b2z a2 /\ getbit b 3 = b2z a3 /\
  getbit b 4 = b2z a4 /\ getbit b 5 = b2z a5 /\ getbit b 6 = b2z a6 /\ getbit b 7 = b2z a7 /\
  (0 <=? b) && (b <? 256) = true.
Proof.
  intros [] [] [] [] [] [] [] []; vm_compute; repeat split; reflexivity.
Qed.

Lemma byte2_bits : forall j a2 a3 a4 a5,
  let b := bw j 7 + bit 0 + bit 1 + bw a2 2 + bw a3 3 + bw a5 5 + bw a4 4 in
  getbit b 2 = b2z a2 /\ getbit b 3 = b2z a3 /\ getbit b 4 = b2z a4 /\ getbit b 5 = b2z a5 /\
  (0 <=? b) && (b <? 256) = true /\
  (forall s, dst_kind s b = Some (if j then if s then SEQUIN_EJECT else JUMP else STITCH)).
Proof.
  intros [] [] [] [] []; vm_compute; repeat split; try reflexivity; intros []; reflexivity.
Qed.

Lemma record_decode : forall dx dy j,
  let b0 := rec_b0 dx dy in let b1 := rec_b1 dx dy in let b2 := rec_b2 j dx dy in
  py_bytearray [b0; b1; b2] = Ok [b0; b1; b2] /\
  decode_dx b0 b1 b2 = dvalue dx /\ decode_dy b0 b1 b2 = - dvalue dy /\
  (forall s, dst_kind s b2 = Some (if j then if s then SEQUIN_EJECT else JUMP else STITCH)).
Proof.
  intros dx dy j b0 b1 b2.
  pose proof (byte_bits (p1 dx) (m1 dx) (p9 dx) (m9 dx) (m9 dy) (p9 dy) (m1 dy) (p1 dy)) as H0.
  pose proof (byte_bits (p3 dx) (m3 dx) (p27 dx) (m27 dx) (m27 dy) (p27 dy) (m3 dy) (p3 dy)) as H1.
  pose proof (byte2_bits j (p81 dx) (m81 dx) (m81 dy) (p81 dy)) as H2.
  cbv zeta in H0, H1, H2.
  change (bw (p9 dx) 2 + bw (m9 dx) 3 + bw (p1 dx) 0 + bw (m1 dx) 1
          + bw (p9 dy) 5 + bw (m9 dy) 4 + bw (p1 dy) 7 + bw (m1 dy) 6) with b0 in H0.
  change (bw (p27 dx) 2 + bw (m27 dx) 3 + bw (p3 dx) 0 + bw (m3 dx) 1
  + bw (p27 dy) 5 + bw (m27 dy) 4 + bw (p3 dy) 7 + bw (m3 dy) 6) with b1 in H1.
  change (bw j 7 + bit 0 + bit 1 + bw (p81 dx) 2 + bw (m81 dx) 3 + bw (p81 dy) 5 + bw (m81 dy) 4)
    with b2 in H2.
  destruct H0 as (A0 & A1 & A2 & A3 & A4 & A5 & A6 & A7 & A8).
  destruct H1 as (B0 & B1 & B2 & B3 & B4 & B5 & B6 & B7 & B8).
  destruct H2 as (C2 & C3 & C4 & C5 & C8 & C9).
  split; [|split; [|split]].
  - unfold py_bytearray. cbn [forallb]. rewrite A8, B8, C8. reflexivity.
  - unfold decode_dx. rewrite A0, A1, A2, A3, B0, B1, B2, B3, C2, C3. unfold dvalue. lia.
  - unfold decode_dy. rewrite A4, A5, A6, A7, B4, B5, B6, B7, C4, C5. unfold dvalue. lia.
  - exact C9.
Qed.

Lemma encode_record_ok : forall x y c, is_move c = true ->
  -121 <= x <= 121 -> -121 <= y <= 121 ->
  exists b0 b1 b2, encode_record x y c = Ok [b0; b1; b2] /\
    byte_ok b0 /\ byte_ok b1 /\ byte_ok b2 /\
    decode_dx b0 b1 b2 = x /\ decode_dy b0 b1 b2 = y /\
    forall s, dst_kind s b2 =
      Some (if is_jumpish c then if s then SEQUIN_EJECT else JUMP else STITCH).
Proof.
  intros x y c Hc Hx Hy. rewrite encode_record_move by exact Hc.
  destruct (axis x) as [dx rx] eqn:Ex. destruct (axis (- y)) as [dy ry] eqn:Ey.
  apply axis_spec in Ex. apply axis_spec in Ey.
  destruct Ex as [Ex Rx], Ey as [Ey Ry].
  assert (rx = 0) by (apply Rx; lia). assert (ry = 0) by (apply Ry; lia). subst rx ry.
  cbn [negb Z.eqb].
  pose proof (record_decode dx dy (is_jumpish c)) as H. cbv zeta in H.
  destruct H as (H1 & H2 & H3 & H4).
  exists (rec_b0 dx dy), (rec_b1 dx dy), (rec_b2 (is_jumpish c) dx dy).
  unfold py_bytearray in H1. cbn [forallb] in H1.
  destruct ((0 <=? rec_b0 dx dy) && (rec_b0 dx dy <? 256)) eqn:E0; [|discriminate].
  destruct ((0 <=? rec_b1 dx dy) && (rec_b1 dx dy <? 256)) eqn:E1; [|discriminate].
  destruct ((0 <=? rec_b2 (is_jumpish c) dx dy) && (rec_b2 (is_jumpish c) dx dy <? 256)) eqn:E2;
    [|discriminate].
  unfold py_bytearray. cbn [forallb]. rewrite E0, E1, E2. cbn [andb].
  unfold byte_ok. repeat split; try lia; try exact H4.
Qed.

Lemma encode_record_err : forall x y c, is_move c = true ->
  ~ (-121 <= x <= 121 /\ -121 <= y <= 121) -> encode_record x y c = Err ValueError.
Proof.
  intros x y c Hc H. rewrite encode_record_move by exact Hc.
  destruct (axis x) as [dx rx] eqn:Ex. destruct (axis (- y)) as [dy ry] eqn:Ey.
  apply axis_spec in Ex. apply axis_spec in Ey.
  destruct Ex as [Ex Rx], Ey as [Ey Ry].
  destruct (Z.eqb_spec rx 0); cbn [negb]; [|reflexivity].
  destruct (Z.eqb_spec ry 0); cbn [negb]; [|reflexivity].
  exfalso. apply H. split; [tauto|]. apply Ry in e0. lia.
Qed.

Lemma encode_record_ctl : forall x y c, is_move c = false ->
  encode_record x y c = Ok [0; 0;
    if (c =? COLOR_CHANGE) || (c =? STOP) then 195 else if c =? END then 243
    else if c =? SEQUIN_MODE then 67 else 0].
Proof.
  intros x y c H. unfold encode_record. unfold is_move in H. rewrite H.
  destruct (c =? COLOR_CHANGE); [reflexivity|]. cbn [orb].
  destruct (c =? STOP); [reflexivity|].
  destruct (c =? END); [reflexivity|]. destruct (c =? SEQUIN_MODE); reflexivity.
Qed.

Lemma encode_record_err_iff : forall x y c,
  (exists e, encode_record x y c = Err e) <->
  is_move c = true /\ ~ (-121 <= x <= 121 /\ -121 <= y <= 121).
Proof.
  intros x y c. destruct (is_move c) eqn:Hc.
  - split.
    + intros [e He]. split; [reflexivity|]. intros [Hx Hy].
      destruct (encode_record_ok x y c Hc Hx Hy) as (b0 & b1 & b2 & E & _). congruence.
    + intros [_ H]. exists ValueError. apply encode_record_err; assumption.
  - rewrite encode_record_ctl by exact Hc. split; [intros [e He]; discriminate|].
    intros [H _]. discriminate.
Qed.

(** ** The trim sequence *)

(** Reading the trim bytes outside sequin mode: a list of jumps. *)
Fixpoint trim_evs (n : nat) (delta : Z) : list rel :=
  match n with
  | O => [mkS (delta / 2) (delta / 2) JUMP]
  | S n => mkS delta delta JUMP :: trim_evs n (- delta)
  end.
Definition trim_events (trim_at : Z) : list rel :=
  mkS 2 2 JUMP :: trim_evs (Z.to_nat (trim_at - 2)) (-4).

Lemma read_jump_record : forall d r, -121 <= d <= 121 ->
  exists bs, encode_record d d JUMP = Ok bs /\ bytes_ok bs /\ length bs = 3%nat /\
    forall s, dst_read_loop s (bs ++ r) = mkS d d (if s then SEQUIN_EJECT else JUMP) :: dst_read_loop s r.
Proof.
  intros d r Hd.
  destruct (encode_record_ok d d JUMP eq_refl Hd Hd) as (b0 & b1 & b2 & E & B0 & B1 & B2 & Dx & Dy & K).
  exists [b0; b1; b2]. split; [exact E|]. split; [unfold bytes_ok; repeat (apply Forall_cons; [assumption|]); apply Forall_nil|].
  split; [reflexivity|]. intros s. cbn [app dst_read_loop]. rewrite Dx, Dy, K.
  destruct s; reflexivity.
Qed.

Lemma trim_jumps_read : forall n delta, delta = 4 \/ delta = -4 ->
  exists m d, trim_jumps n delta = Ok (m, d) /\ (d = 4 \/ d = -4) /\ bytes_ok m /\
    length m = (3 * n)%nat /\
    forall r z, encode_record (d / 2) (d / 2) JUMP = Ok z ->
       dst_read_loop false (m ++ z ++ r) = trim_evs n delta ++ dst_read_loop false r.
Proof.
  induction n as [|n IH]; intros delta Hd.
  - exists [], delta. cbn [trim_jumps]. repeat split; auto; [constructor|].
    intros r z Hz. cbn [app trim_evs].
    assert (Hr : -121 <= delta / 2 <= 121) by (destruct Hd; subst; cbn; lia).
    destruct (read_jump_record (delta / 2) r Hr) as (bs & E & _ & _ & R).
    rewrite E in Hz. injection Hz as <-. rewrite R. reflexivity.
  - destruct (IH (- delta)) as (m & d & E & Hd' & Bm & Lm & R); [lia|].
    assert (Hr : -121 <= delta <= 121) by lia.
    destruct (read_jump_record delta [] Hr) as (bs & E1 & B1 & L1 & _).
    exists (bs ++ m), d. cbn [trim_jumps]. rewrite E1. cbn [bindr]. rewrite E. cbn [bindr].
    repeat split; auto.
    + apply Forall_app. split; assumption.
    + rewrite app_length. lia.
    + intros r z Hz. specialize (R r z Hz).
      rewrite <- app_assoc.
      destruct (read_jump_record delta (m ++ z ++ r) Hr) as (bs' & E1' & _ & _ & R1).
      rewrite E1 in E1'. injection E1' as <-. rewrite R1. cbn [trim_evs app]. rewrite R. reflexivity.
Qed.

Lemma dst_trim_ok : forall trim_at, exists bs, dst_trim trim_at = Ok bs /\ bytes_ok bs /\
  length bs = (3 * length (trim_events trim_at))%nat /\
  forall r, dst_read_loop false (bs ++ r) = trim_events trim_at ++ dst_read_loop false r.
Proof.
  intros t. unfold dst_trim.
  destruct (read_jump_record 2 [] ltac:(lia)) as (a & Ea & Ba & La & _). rewrite Ea. cbn [bindr].
  destruct (trim_jumps_read (Z.to_nat (t - 2)) (-4) ltac:(lia)) as (m & d & Em & Hd & Bm & Lm & R).
  rewrite Em. cbn [bindr].
  assert (Hr : -121 <= d / 2 <= 121) by (destruct Hd; subst; cbn; lia).
  destruct (read_jump_record (d / 2) [] Hr) as (z & Ez & Bz & Lz & _). rewrite Ez. cbn [bindr].
  exists (a ++ m ++ z). split; [reflexivity|]. split; [|split].
  - repeat (apply Forall_app; split); assumption.
  - rewrite !app_length, La, Lm, Lz. unfold trim_events. cbn [length].
    assert (L : forall n dd, length (trim_evs n dd) = S n).
    { induction n; intros; cbn [trim_evs length]; [reflexivity|rewrite IHn; reflexivity]. }
    rewrite L. lia.
  - intros r. rewrite <- !app_assoc.
    destruct (read_jump_record 2 (m ++ z ++ r) ltac:(lia)) as (a' & Ea' & _ & _ & Ra).
    rewrite Ea in Ea'. injection Ea' as <-. rewrite Ra. unfold trim_events. cbn [app].
    rewrite (R r z Ez). reflexivity.
Qed.

Fixpoint sumx (l : list rel) : Z := match l with [] => 0 | e :: r => sx e + sumx r end.
Fixpoint sumy (l : list rel) : Z := match l with [] => 0 | e :: r => sy e + sumy r end.

Lemma trim_evs_sum : forall n delta, delta = 4 \/ delta = -4 ->
  sumx (trim_evs n delta) = delta / 2 /\ sumy (trim_evs n delta) = delta / 2.
Proof.
  induction n; intros delta Hd; cbn [trim_evs sumx sumy sx sy].
  - lia.
  - destruct (IHn (- delta)) as [A B]; [lia|]. rewrite A, B. destruct Hd; subst; cbn; lia.
Qed.

Lemma trim_events_sum : forall t, sumx (trim_events t) = 0 /\ sumy (trim_events t) = 0.
Proof.
  intros t. unfold trim_events. cbn [sumx sumy sx sy].
  destruct (trim_evs_sum (Z.to_nat (t - 2)) (-4) ltac:(lia)) as [A B]. rewrite A, B.
  split; reflexivity.
Qed.

Lemma trim_evs_length : forall n d, length (trim_evs n d) = S n.
Proof. induction n; intros; cbn [trim_evs length]; [reflexivity|rewrite IHn; reflexivity]. Qed.

Lemma trim_events_length : forall t, Z.of_nat (length (trim_events t)) = Z.max 2 t.
Proof. intros t. unfold trim_events. cbn [length]. rewrite trim_evs_length. lia. Qed.

Lemma trim_evs_small : forall n d, (d = 4 \/ d = -4) ->
  Forall (fun e => scmd e = JUMP /\ sx e = sy e /\ (sx e = 2 \/ sx e = -2 \/ sx e = 4 \/ sx e = -4)) (trim_evs n d).
Proof.
  induction n; intros d Hd; cbn [trim_evs]; apply Forall_cons; cbn [scmd sx sy].
  - split; [reflexivity|split; [reflexivity|lia]].
  - apply Forall_nil.
  - split; [reflexivity|split; [reflexivity|lia]].
  - apply IHn. lia.
Qed.

Lemma trim_events_jumps : forall t, Forall (fun e => scmd e = JUMP) (trim_events t).
Proof.
  intros t. unfold trim_events. constructor; [reflexivity|].
  eapply Forall_impl; [|apply trim_evs_small; lia]. cbn. tauto.
Qed.
