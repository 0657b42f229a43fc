From Coq Require Import ZArith List Bool Lia.
From Verif Require Import PyBase EmbConst StreamModel StreamSpec StreamProofs HelperModel BitLemmas
  Tactics PecModel PecSpec.
Import ListNotations.
Open Scope Z_scope.

Definition zrange (lo : Z) (n : nat) : list Z := map (fun i => lo + Z.of_nat i) (seq 0 n).
Lemma zrange_in : forall lo n v, lo <= v < lo + Z.of_nat n -> In v (zrange lo n).
Proof.
  intros lo n v H. apply in_map_iff. exists (Z.to_nat (v - lo)). split; [lia|].
  apply in_seq. lia.
Qed.

(** One long value: the top bits [k] and the 12-bit remainder. *)
Lemma long_form : forall v flag k, (flag, k) = (0, 8) \/ (flag, k) = (JUMP_CODE, 9) \/ (flag, k) = (TRIM_CODE, 10) ->
  write_value v true flag = [16 * k + (v mod 4096) / 256; v mod 256].
Proof.
  intros v flag k H. unfold write_value. cbn [negb andb]. cbv zeta.
  change 4095 with (Z.ones 12). rewrite Z.land_ones by lia. change (2 ^ 12) with 4096.
  assert (E : Z.lor (Z.lor (v mod 4096) 32768) (Z.shiftl flag 8) = v mod 4096 + k * 4096).
  { rewrite <- Z.lor_assoc.
    replace (Z.lor 32768 (Z.shiftl flag 8)) with (Z.shiftl k 12)
      by (destruct H as [H|[H|H]]; injection H as -> ->; reflexivity).
    rewrite lor_shiftl_add by (change (2 ^ 12) with 4096; lia). reflexivity. }
  rewrite E, !land_ff, Z.shiftr_div_pow2 by lia. change (2 ^ 8) with 256.
  assert (8 <= k <= 10) by (destruct H as [H|[H|H]]; injection H as -> ->; lia).
  f_equal; [|f_equal]; lia.
Qed.

Definition top_ok (flag k h : Z) : bool :=
  let b0 := 16 * k + h in
  flagged b0 FLAG_LONG && Bool.eqb (flagged b0 TRIM_CODE) (flag =? TRIM_CODE)
  && Bool.eqb (flagged b0 JUMP_CODE) (flag =? JUMP_CODE).

Lemma top_sweep : forallb (fun fk => forallb (top_ok (fst fk) (snd fk)) (zrange 0 16))
  [(0, 8); (JUMP_CODE, 9); (TRIM_CODE, 10)] = true.
Proof. vm_compute. reflexivity. Qed.

Lemma long_value : forall flag v, In flag [0; JUMP_CODE; TRIM_CODE] -> -2048 <= v <= 2047 ->
  exists b0 b1, write_value v true flag = [b0; b1] /\
    flagged b0 FLAG_LONG = true /\ flagged b0 TRIM_CODE = (flag =? TRIM_CODE) /\
    flagged b0 JUMP_CODE = (flag =? JUMP_CODE) /\
    signed12 (Z.lor (Z.shiftl b0 8) b1) = v /\
    (b0 =? 0xFF) = false /\ (b0 =? 0xFE) = false /\ byte_ok b0 /\ byte_ok b1.
Proof.
  intros flag v Hf Hv.
  assert (Hk : exists k, In (flag, k) [(0, 8); (JUMP_CODE, 9); (TRIM_CODE, 10)]).
  { cbn [In] in *. destruct Hf as [<- | [<- | [<- | []]]]; eexists; [left|right; left|right; right; left]; reflexivity. }
  destruct Hk as [k Hk].
  pose proof top_sweep as S. rewrite forallb_forall in S. specialize (S _ Hk). cbn [fst snd] in S.
  rewrite forallb_forall in S.
  specialize (S ((v mod 4096) / 256) ltac:(apply zrange_in; lia)). unfold top_ok in S.
  rewrite !andb_true_iff, !eqb_true_iff in S. destruct S as [[S1 S2] S3].
  assert (8 <= k <= 10) by (cbn [In] in Hk; destruct Hk as [H|[H|[H|[]]]]; injection H as <- <-; lia).
  exists (16 * k + (v mod 4096) / 256), (v mod 256).
  split; [apply long_form; cbn [In] in Hk; destruct Hk as [H1|[H1|[H1|[]]]]; rewrite <- H1; tauto|].
  split; [exact S1|]. split; [exact S2|]. split; [exact S3|].
  split; [|unfold byte_ok; lia].
  rewrite Z.lor_comm, lor_shiftl_add by lia. unfold signed12. cbv zeta.
  change 0xFFF with (Z.ones 12). rewrite Z.land_ones by lia. change (2 ^ 12) with 4096. change (2 ^ 8) with 256.
  destruct (Z.gtb_spec ((v mod 256 + (16 * k + v mod 4096 / 256) * 256) mod 4096) 2047); lia.
Qed.

(** One short value. *)
Definition short_ok (v : Z) : bool :=
  match write_value v false 0 with
  | [b0] => negb (flagged b0 FLAG_LONG) && (signed7 b0 =? v)
      && negb (b0 =? 0xFF) && negb (b0 =? 0xFE) && ((0 <=? b0) && (b0 <? 256))
  | _ => false
  end.
Lemma short_sweep : forallb short_ok (zrange (-63) 126) = true.
Proof. vm_compute. reflexivity. Qed.
Lemma short_value : forall v, -63 <= v <= 62 ->
  exists b0, write_value v false 0 = [b0] /\ flagged b0 FLAG_LONG = false /\ signed7 b0 = v /\
    (b0 =? 0xFF) = false /\ (b0 =? 0xFE) = false /\ byte_ok b0.
Proof.
  intros v Hv. pose proof short_sweep as S. rewrite forallb_forall in S.
  specialize (S v ltac:(apply zrange_in; cbn; lia)). unfold short_ok in S.
  destruct (write_value v false 0) as [|b0 [|]]; try discriminate.
  exists b0. rewrite !andb_true_iff, !negb_true_iff, Z.eqb_eq, !Z.leb_le, !Z.ltb_lt in S.
  unfold byte_ok. repeat split; tauto || lia.
Qed.

(** The writer's choice between the two. *)
Lemma stitch_value : forall v, -2048 <= v <= 2047 ->
  (-63 <= v <= 62) \/ (~ (-63 <= v <= 62) /\ write_value v false 0 = write_value v true 0).
Proof.
  intros v Hv. unfold write_value. cbn [negb andb].
  destruct ((-64 <? v) && (v <? 63)) eqn:E; [left; lia|right; split; [lia|reflexivity]].
Qed.

Lemma read_long_long : forall f g dx dy r, In f [0; JUMP_CODE; TRIM_CODE] -> In g [0; JUMP_CODE; TRIM_CODE] ->
  -2048 <= dx <= 2047 -> -2048 <= dy <= 2047 ->
  pec_read_loop (write_value dx true f ++ write_value dy true g ++ r)
  = pec_calls ((f =? JUMP_CODE) || (g =? JUMP_CODE)) ((f =? TRIM_CODE) || (g =? TRIM_CODE)) dx dy
    ++ pec_read_loop r.
Proof.
  intros f g dx dy r Hf Hg Hx Hy.
  destruct (long_value f dx Hf Hx) as (b0 & b1 & E & L & T & J & V & N1 & N2 & _).
  destruct (long_value g dy Hg Hy) as (c0 & c1 & E' & L' & T' & J' & V' & _).
  rewrite E, E'. cbn [app pec_read_loop]. rewrite N1, N2, L, L', T, T', J, J', V, V'. reflexivity.
Qed.

Lemma read_stitch : forall dx dy r, -2048 <= dx <= 2047 -> -2048 <= dy <= 2047 ->
  pec_read_loop (write_stitch dx dy ++ r) = mkS dx dy STITCH :: pec_read_loop r.
Proof.
  intros dx dy r Hx Hy. unfold write_stitch. rewrite <- app_assoc.
  destruct (stitch_value dx Hx) as [Sx|[Lx Ex]]; destruct (stitch_value dy Hy) as [Sy|[Ly Ey]].
  - destruct (short_value dx Sx) as (b0 & E & L & V & N1 & N2 & _).
    destruct (short_value dy Sy) as (c0 & E' & L' & V' & _).
    rewrite E, E'. cbn [app pec_read_loop]. rewrite N1, N2, L, L', V, V'. reflexivity.
  - destruct (short_value dx Sx) as (b0 & E & L & V & N1 & N2 & _).
    destruct (long_value 0 dy ltac:(cbn; tauto) Hy) as (c0 & c1 & E' & L' & T' & J' & V' & _).
    rewrite Ey, E, E'. cbn [app pec_read_loop]. rewrite N1, N2, L, L', V, V', T', J'. reflexivity.
  - destruct (long_value 0 dx ltac:(cbn; tauto) Hx) as (b0 & b1 & E & L & T & J & V & N1 & N2 & _).
    destruct (short_value dy Sy) as (c0 & E' & L' & V' & _).
    rewrite Ex, E, E'. cbn [app pec_read_loop]. rewrite N1, N2, L, L', V, V', T, J. reflexivity.
  - rewrite Ex, Ey. rewrite read_long_long by (cbn; tauto || lia). reflexivity.
Qed.

Lemma read_jump : forall dx dy r, -2048 <= dx <= 2047 -> -2048 <= dy <= 2047 ->
  pec_read_loop (write_jump dx dy ++ r) = mkS dx dy JUMP :: pec_read_loop r.
Proof.
  intros. unfold write_jump. rewrite <- app_assoc.
  rewrite read_long_long by (cbn; tauto || lia). reflexivity.
Qed.
Lemma read_trimjump : forall dx dy r, -2048 <= dx <= 2047 -> -2048 <= dy <= 2047 ->
  pec_read_loop (write_trimjump dx dy ++ r) = mkS 0 0 TRIM :: mkS dx dy JUMP :: pec_read_loop r.
Proof.
  intros. unfold write_trimjump. rewrite <- app_assoc.
  rewrite read_long_long by (cbn; tauto || lia). reflexivity.
Qed.

Lemma write_value_bytes : forall v long flag, In flag [0; JUMP_CODE; TRIM_CODE] -> bytes_ok (write_value v long flag).
Proof.
  intros v long flag Hf. unfold write_value.
  destruct (negb long && ((-64 <? v) && (v <? 63))) eqn:E.
  - apply Forall_cons; [|apply Forall_nil]. unfold byte_ok, MASK_07_BIT.
    change 127 with (Z.ones 7). rewrite Z.land_ones by lia. change (2 ^ 7) with 128. lia.
  - repeat (apply Forall_cons; [apply land_ff_byte|]). apply Forall_nil.
Qed.

Lemma bytes_app : forall a b, bytes_ok a -> bytes_ok b -> bytes_ok (a ++ b).
Proof. intros a b Ha Hb. apply Forall_app. split; assumption. Qed.

Lemma pec_loop_bytes : forall l two jumping init, bytes_ok (pec_loop two jumping init l).
Proof.
  induction l as [|e l IH]; intros two j i; cbn [pec_loop]; [apply Forall_nil|].
  assert (S : forall x y, bytes_ok (write_stitch x y)) by
    (intros; apply bytes_app; apply write_value_bytes; cbn; tauto).
  assert (J : forall x y, bytes_ok (write_jump x y)) by
    (intros; apply bytes_app; apply write_value_bytes; cbn; tauto).
  assert (T : forall x y, bytes_ok (write_trimjump x y)) by
    (intros; apply bytes_app; apply write_value_bytes; cbn; tauto).
  repeat match goal with |- context [if ?b then _ else _] => destruct b end;
    repeat first [ apply S | apply J | apply T | apply IH | apply Forall_nil | apply bytes_app
                 | apply Forall_cons; [unfold byte_ok; lia|] ].
Qed.

(** Event level. *)
Fixpoint pec_ev_view (jumped first : bool) (l : list rel) : list rel :=
  match l with
  | [] => []
  | e :: r =>
      let c := cmd_of (scmd e) in
      if c =? STITCH then
        (if jumped && (negb (sx e =? 0) && negb (sy e =? 0)) then [mkS 0 0 STITCH] else [])
        ++ mkS (sx e) (sy e) STITCH :: pec_ev_view false false r
      else if c =? JUMP then
        (if first then [] else [mkS 0 0 TRIM])
        ++ mkS (sx e) (sy e) JUMP :: pec_ev_view true false r
      else if c =? COLOR_CHANGE then
        (if jumped then [mkS 0 0 STITCH] else []) ++ mkS 0 0 COLOR_CHANGE :: pec_ev_view false false r
      else pec_ev_view jumped false r
  end.

Lemma pec_events : forall l two jumped first q,
  Forall (ev_good 2047 [STITCH; JUMP] [COLOR_CHANGE; STOP; TRIM; END]) l ->
  Exists (fun e => cmd_of (scmd e) = END) l ->
  pec_read_loop (pec_loop two jumped first l ++ 0 :: q) = pec_ev_view jumped first (before_end l).
Proof.
  induction l as [|e l IH]; intros two jumped first q H HE; [inversion HE|].
  inversion H as [|? ? He Hl]; subst. cbn [pec_loop before_end].
  assert (HE' : cmd_of (scmd e) <> END -> Exists (fun e => cmd_of (scmd e) = END) l)
    by (intros; inversion HE; [contradiction|assumption]).
  destruct He as [(Hc & Hx & Hy)|(Hc & Hx & Hy)]; cbn [In] in Hc.
  - assert (HE2 : Exists (fun e => cmd_of (scmd e) = END) l).
    { apply HE'. destruct Hc as [<- | [<- | []]]; discriminate. }
    destruct Hc as [Hc|[Hc|[]]]; rewrite <- Hc; ceq; cbn [pec_ev_view]; rewrite <- Hc; ceq.
    + rewrite <- !app_assoc.
      destruct (jumped && (negb (sx e =? 0) && negb (sy e =? 0)));
        rewrite ?read_stitch by lia; cbn [app]; rewrite ?read_stitch by lia;
        rewrite IH by assumption; reflexivity.
    + rewrite <- !app_assoc. destruct first.
      * rewrite read_jump by lia. rewrite IH by assumption. reflexivity.
      * rewrite read_trimjump by lia. rewrite IH by assumption. reflexivity.
  - destruct Hc as [Hc|[Hc|[Hc|[Hc|[]]]]]; rewrite <- Hc; ceq; cbn [pec_ev_view]; rewrite <- ?Hc; ceq.
    + assert (HE2 : Exists (fun e => cmd_of (scmd e) = END) l) by (apply HE'; rewrite <- Hc; discriminate).
      rewrite <- !app_assoc. destruct jumped; destruct two; rewrite ?read_stitch by lia; cbn [app];
        cbn [pec_read_loop]; ceq; rewrite IH by assumption; reflexivity.
    + apply IH; [assumption|]. apply HE'. rewrite <- Hc. discriminate.
    + apply IH; [assumption|]. apply HE'. rewrite <- Hc. discriminate.
    + reflexivity.
Qed.

Lemma pec_apply_view : forall l jumped first px py,
  representable 2047 [STITCH; JUMP] [COLOR_CHANGE; STOP; TRIM; END] px py l ->
  apply_rel px py (pec_ev_view jumped first (quantise qz_int px py l)) = pec_view jumped first px py l.
Proof.
  induction l as [|s l IH]; intros jumped first px py H; [reflexivity|].
  destruct H as [Hs Hl]. cbn [quantise pec_ev_view pec_view scmd sx sy]. rewrite !qz_int_add.
  assert (Ex : forall a b, (qz_int a b =? 0) = (a =? b)) by (intros; unfold qz_int; lia).
  rewrite !Ex.
  destruct Hs as [(Hc & Hstep)|(Hc & Hx & Hy)]; cbn [In] in Hc.
  - destruct Hc as [Hc|[Hc|[]]]; rewrite <- Hc; ceq.
    + destruct (jumped && (negb (sx s =? px) && negb (sy s =? py))); cbn [app apply_rel sx sy scmd];
        rewrite ?Z.add_0_r, !qz_int_add, IH by assumption; reflexivity.
    + destruct first; cbn [app apply_rel sx sy scmd]; rewrite ?Z.add_0_r, !qz_int_add, IH by assumption; reflexivity.
  - rewrite Hx, Hy in *.
    destruct Hc as [Hc|[Hc|[Hc|[Hc|[]]]]]; rewrite <- Hc; ceq; try (apply IH; assumption).
    destruct jumped; cbn [app apply_rel sx sy scmd]; rewrite ?Z.add_0_r, IH by assumption; reflexivity.
Qed.

Lemma exists_end_quantise : forall C (qz : C -> Z -> Z) l px py,
  Exists (fun s => cmd_of (scmd s) = END) l ->
  Exists (fun e => cmd_of (scmd e) = END) (quantise qz px py l).
Proof.
  induction l as [|s l IH]; intros px py H; [inversion H|]. cbn [quantise].
  inversion H; subst; [left; assumption|right; apply IH; assumption].
Qed.

Lemma pec_roundtrip : forall p q, pec_representable p -> Exists (fun s => cmd_of (scmd s) = END) p ->
  pec_read (pec_encode qz_int p ++ 0 :: q) = closed (pec_view true true 0 0 (before_end p)).
Proof.
  intros p q H HE. unfold pec_read, pec_encode.
  rewrite pec_events; [|apply representable_good; exact H|apply exists_end_quantise; exact HE].
  rewrite apply_rel_end, <- quantise_before_end. f_equal. apply pec_apply_view.
  apply representable_before_end. exact H.
Qed.

(** The view adds only stitches at the needle position. *)
Lemma pec_view_sewing : forall l jumped first px py,
  representable 2047 [STITCH; JUMP] [COLOR_CHANGE; STOP; TRIM; END] px py l ->
  sewing px py (pec_view jumped first px py l) = sewing px py l.
Proof.
  induction l as [|s l IH]; intros jumped first px py H; [reflexivity|].
  destruct H as [Hs Hl]. cbn [pec_view sewing].
  assert (E1 : cmd_of STITCH = STITCH) by reflexivity. assert (E2 : cmd_of JUMP = JUMP) by reflexivity.
  assert (E3 : cmd_of TRIM = TRIM) by reflexivity.
  assert (E4 : cmd_of COLOR_CHANGE = COLOR_CHANGE) by reflexivity.
  destruct Hs as [(Hc & Hstep)|(Hc & Hx & Hy)]; cbn [In] in Hc.
  - destruct Hc as [Hc|[Hc|[]]]; rewrite <- Hc; ceq.
    + destruct (jumped && (negb (sx s =? px) && negb (sy s =? py))); cbn [app sewing sx sy scmd];
        rewrite E1; ceq; rewrite ?Z.eqb_refl; cbn [andb app]; rewrite IH by assumption; reflexivity.
    + destruct first; cbn [app sewing sx sy scmd]; rewrite ?E2, ?E3; ceq; cbn [app];
        rewrite IH by assumption; reflexivity.
  - rewrite Hx, Hy in *.
    destruct Hc as [Hc|[Hc|[Hc|[Hc|[]]]]]; rewrite <- Hc; ceq; try (apply IH; assumption).
    destruct jumped; cbn [app sewing sx sy scmd]; rewrite ?E1, ?E4; ceq; rewrite ?Z.eqb_refl; cbn [andb app];
      rewrite IH by assumption; reflexivity.
Qed.

Lemma pec_view_penetrations : forall l jumped first px py,
  subseq (penetrations l) (penetrations (pec_view jumped first px py l)).
Proof.
  induction l as [|s l IH]; intros jumped first px py; [apply subseq_nil|].
  unfold penetrations in *. cbn [pec_view filter].
  destruct (Z.eqb_spec (cmd_of (scmd s)) STITCH) as [E|E].
  - cbn [orb map]. rewrite E.
    destruct (jumped && (negb (sx s =? px) && negb (sy s =? py))); cbn [app filter scmd];
      change (cmd_of STITCH) with STITCH; ceq; cbn [map sx sy scmd];
      change (cmd_of STITCH) with STITCH; repeat first [apply subseq_keep; apply IH | apply subseq_skip].
  - cbn [orb]. destruct (Z.eqb_spec (cmd_of (scmd s)) COLOR_CHANGE) as [E'|E'].
    + rewrite E'. ceq. destruct jumped; cbn [app filter scmd];
        change (cmd_of STITCH) with STITCH; change (cmd_of COLOR_CHANGE) with COLOR_CHANGE; ceq;
        cbn [map sx sy scmd]; rewrite ?E';
        change (cmd_of STITCH) with STITCH; change (cmd_of COLOR_CHANGE) with COLOR_CHANGE.
      * apply subseq_skip. apply subseq_keep. apply IH.
      * apply subseq_keep. apply IH.
    + destruct (cmd_of (scmd s) =? JUMP).
      * destruct first; cbn [app filter scmd]; change (cmd_of TRIM) with TRIM; change (cmd_of JUMP) with JUMP;
          ceq; apply IH.
      * apply IH.
Qed.

(** Truncation. *)
Lemma pec_read_prefix : forall k s n, (length s <= k)%nat ->
  prefix_of (pec_read_loop (firstn n s)) (pec_read_loop s).
Proof.
  induction k as [|k IH]; intros s n Hk.
  - destruct s; [|cbn in Hk; lia]. rewrite firstn_nil. apply prefix_refl.
  - destruct s as [|v1 [|v2 r]]; destruct n as [|[|n]]; cbn [firstn];
      try apply prefix_nil; try apply prefix_refl.
    cbn [pec_read_loop]. cbn [length] in Hk.
    destruct ((v1 =? 255) && (v2 =? 0)); [apply prefix_refl|].
    destruct ((v1 =? 254) && (v2 =? 176)).
    { apply prefix_cons. destruct r as [|b r]; destruct n as [|n]; cbn [firstn];
        try apply prefix_nil. cbn [length] in Hk. apply IH. lia. }
    destruct (flagged v1 FLAG_LONG).
    + destruct r as [|w2 r]; destruct n as [|n]; cbn [firstn]; try apply prefix_nil.
      cbn [length] in Hk. destruct (flagged w2 FLAG_LONG).
      * destruct r as [|w3 r]; destruct n as [|n]; cbn [firstn]; try apply prefix_nil.
        cbn [length] in Hk. apply prefix_app. apply IH. lia.
      * apply prefix_app. apply IH. lia.
    + destruct (flagged v2 FLAG_LONG).
      * destruct r as [|w3 r]; destruct n as [|n]; cbn [firstn]; try apply prefix_nil.
        cbn [length] in Hk. apply prefix_app. apply IH. lia.
      * apply prefix_app. apply IH. lia.
Qed.
