(** EXP, TBF, XXX and U01: write-then-read and truncation. *)
From Coq Require Import ZArith List Bool Lia.
From Verif Require Import Tactics PyBase EmbConst FunctionsModel FunctionsProofs StreamModel StreamSpec StreamProofs BitLemmas
  HelperModel HelperProofs ExpModel TbfModel XxxModel U01Model FormatSpec.
Import ListNotations.
Open Scope Z_scope.

Lemma signed8_pos : forall v, -127 <= v <= 127 -> signed8 (Z.land v 0xFF) = v.
Proof. intros. apply signed8_small. lia. Qed.
Lemma signed8_neg : forall v, -127 <= v <= 127 -> - signed8 (Z.land (- v) 0xFF) = v.
Proof. intros. rewrite signed8_small by lia. lia. Qed.
Lemma land_not_80 : forall v, -127 <= v <= 127 -> (Z.land v 0xFF =? 0x80) = false.
Proof. intros. rewrite land_ff. apply Z.eqb_neq. lia. Qed.
Lemma land_0 : forall v, -127 <= v <= 127 -> Z.land v 0xFF = 0 -> v = 0.
Proof. intros v H. rewrite land_ff. lia. Qed.

(** ** EXP *)
Notation exp_good := (ev_good 127 [STITCH; JUMP] [TRIM; COLOR_CHANGE; STOP; END]).

Lemma exp_emit_read : forall e r, exp_good e ->
  exp_read_loop (exp_emit e ++ r) = renamed (as_color_change [END]) [e] ++ exp_read_loop r.
Proof.
  intros e r H. unfold exp_emit. cbn [renamed]. unfold as_color_change.
  destruct H as [[Hc [Hx Hy]]|[Hc [Hx Hy]]]; cbn [In] in Hc.
  - destruct Hc as [Hc|[Hc|[]]]; rewrite <- Hc.
    + change (STITCH =? STITCH) with true. cbn [app exp_read_loop].
      rewrite land_not_80 by lia. rewrite signed8_pos, signed8_neg by lia. reflexivity.
    + change (JUMP =? STITCH) with false. change (JUMP =? JUMP) with true. cbn iota.
      cbn [app exp_read_loop].
      change (negb (128 =? 128)) with false. cbn iota.
      rewrite signed8_pos, signed8_neg by lia. reflexivity.
  - destruct Hc as [Hc|[Hc|[Hc|[Hc|[]]]]]; rewrite <- Hc; rewrite ?Hx, ?Hy; reflexivity.
Qed.

Lemma exp_events : forall l r, Forall exp_good l ->
  exp_read_loop (flat_map exp_emit l ++ r) = renamed (as_color_change [END]) l ++ exp_read_loop r.
Proof.
  induction l as [|e l IH]; intros r H; [reflexivity|].
  inversion H; subst. cbn [flat_map]. rewrite <- app_assoc, exp_emit_read by assumption.
  rewrite IH by assumption. rewrite app_assoc. f_equal.
  cbn [renamed]. destruct (as_color_change [END] (scmd e)); reflexivity.
Qed.

Lemma exp_roundtrip : forall p, representable 127 [STITCH; JUMP] [TRIM; COLOR_CHANGE; STOP; END] 0 0 p ->
  exp_read (exp_write qz_int p) = closed (renamed (as_color_change [END]) p).
Proof.
  intros p H. unfold exp_read, exp_write.
  pose proof (exp_events (quantise qz_int 0 0 p) [] (representable_good _ _ _ _ _ _ H)) as E.
  cbn [exp_read_loop] in E. rewrite !app_nil_r in E. rewrite E.
  rewrite apply_rel_end. f_equal.
  apply (apply_rel_renamed _ _ _ _ _ _ _ H).
  intros c Hc Hin. unfold as_color_change in Hc.
  cbn [In] in Hin. destruct Hin as [E0|[E0|[]]]; rewrite <- E0 in Hc; discriminate.
Qed.

Lemma exp_emit_bytes : forall e, bytes_ok (exp_emit e).
Proof.
  intros e. unfold exp_emit, bytes_ok.
  repeat match goal with |- context [if ?b then _ else _] => destruct b end;
    repeat (apply Forall_cons; [first [apply land_ff_byte | unfold byte_ok; lia]|]); apply Forall_nil.
Qed.

Lemma exp_read_prefix : forall k s n, (length s <= k)%nat ->
  prefix_of (exp_read_loop (firstn n s)) (exp_read_loop s).
Proof.
  induction k as [|k IH]; intros s n Hk.
  - destruct s; [|cbn in Hk; lia]. rewrite firstn_nil. apply prefix_refl.
  - destruct s as [|b0 [|b1 r]]; destruct n as [|[|n]]; cbn [firstn];
      try apply prefix_nil; try apply prefix_refl.
    cbn [exp_read_loop]. cbn [length] in Hk.
    destruct (negb (b0 =? 128)); [apply prefix_cons; apply IH; lia|].
    destruct r as [|c0 [|c1 r]]; destruct n as [|[|n]]; cbn [firstn];
      try apply prefix_nil; try apply prefix_refl.
    cbn [length] in Hk.
    destruct (b1 =? 128); [apply prefix_cons; apply IH; lia|].
    destruct (b1 =? 2); [apply prefix_cons; apply IH; lia|].
    destruct (b1 =? 4); [apply prefix_cons; apply IH; lia|].
    destruct (b1 =? 1); [|apply prefix_refl].
    destruct (negb (signed8 c0 =? 0) || negb (- signed8 c1 =? 0));
      repeat apply prefix_cons; apply IH; lia.
Qed.

(** ** TBF *)
(** The command as TBF stores it. *)

Definition tbf_ev_ok (e : rel) : Prop :=
  let c := cmd_of (scmd e) in
     c = STITCH /\ -127 <= sx e <= 127 /\ -127 <= sy e <= 127
  \/ c = JUMP /\ -127 <= sx e <= 127 /\ -127 <= sy e <= 127 /\ (sx e <> 0 \/ sy e <> 0)
  \/ (c = STOP \/ c = TRIM \/ c = END) /\ sx e = 0 /\ sy e = 0
  \/ c = NEEDLE_SET /\ sx e = 0 /\ sy e = 0 /\ exists n, needle_of (scmd e) = Some n /\ 1 <= n <= 255.


Definition nval (n : option Z) : Z := match n with Some n => Z.land n 0xFF | None => 0 end.

Lemma tbf_events : forall l order, Forall tbf_ev_ok l ->
  tbf_read_loop (map nval (tbf_needles l) ++ order) (tbf_loop l)
  = Ok (renamed tbf_as (before_end l)).
Proof.
  induction l as [|e l IH]; intros order H; [reflexivity|].
  inversion H as [|? ? He Hl]; subst. specialize (IH order Hl).
  cbn [tbf_loop before_end]. unfold tbf_needles in *. cbn [filter].
  destruct He as [[Hc [Hx Hy]]|[[Hc [Hx [Hy Hz]]]|[[Hc [Hx Hy]]|[Hc [Hx [Hy [n [Hn Hr]]]]]]]].
  - rewrite Hc. ceq. cbn [app tbf_read_loop]. ceq. rewrite IH. cbn [bindr renamed].
    unfold tbf_as at 2. rewrite Hc. ceq.
    rewrite signed8_pos, signed8_neg by lia. reflexivity.
  - rewrite Hc. ceq. cbn [app tbf_read_loop]. ceq. rewrite IH. cbn [bindr renamed].
    unfold tbf_as at 3. rewrite Hc. ceq.
    destruct (Z.eqb_spec (Z.land (sx e) 255) 0) as [E1|E1];
      [destruct (Z.eqb_spec (Z.land (- sy e) 255) 0) as [E2|E2]|];
      cbn [andb]; try (rewrite signed8_pos, signed8_neg by lia; reflexivity).
    apply land_0 in E1; [|lia]. apply land_0 in E2; lia.
  - destruct Hc as [Hc|[Hc|Hc]]; rewrite Hc; ceq; cbn [app tbf_read_loop]; ceq;
      rewrite ?IH; cbn [bindr renamed]; try (unfold tbf_as at 2; rewrite Hc, Hx, Hy; reflexivity).
    reflexivity.
  - rewrite Hc. ceq. cbn [map app tbf_read_loop]. ceq.
    rewrite IH. cbn [bindr renamed]. unfold tbf_as at 3. rewrite Hc, Hx, Hy. ceq.
    unfold needle_of in *. destruct (decode_embroidery_command (scmd e)) as [[[c0 t0] n0] o0].
    subst n0. cbn [nval]. rewrite land_ff, Z.mod_small by lia.
    destruct (Z.eqb_spec n 0); [lia|]. reflexivity.
Qed.

(** TBF patterns, absolute. *)

Lemma tbf_ok_events : forall l px py, tbf_ok px py l -> Forall tbf_ev_ok (quantise qz_int px py l).
Proof.
  induction l as [|s l IH]; intros px py H; cbn [quantise]; [apply Forall_nil|].
  destruct H as [Hs Hl]. apply Forall_cons.
  - unfold tbf_ev_ok. cbn [scmd sx sy]. unfold step_within, qz_int in *.
    destruct Hs as [Hs|[Hs|[Hs|Hs]]].
    + left. tauto.
    + right; left. repeat split; try tauto. lia.
    + right; right; left. split; [tauto|lia].
    + right; right; right. destruct Hs as (A & B & C & D). repeat split; try assumption; lia.
  - apply IH. rewrite !qz_int_add. exact Hl.
Qed.

Lemma apply_rel_renamed_total : forall f l px py, (forall c, f c <> None) ->
  apply_rel px py (renamed f (quantise qz_int px py l)) = renamed f l.
Proof.
  intros f. induction l as [|s l IH]; intros px py Hf; [reflexivity|].
  cbn [quantise renamed scmd sx sy]. rewrite !qz_int_add.
  destruct (f (scmd s)) as [c|] eqn:E; [|exfalso; eapply Hf; exact E].
  cbn [apply_rel sx sy scmd]. rewrite !qz_int_add. f_equal. apply IH. exact Hf.
Qed.

Lemma tbf_as_total : forall c, tbf_as c <> None.
Proof. intros c. unfold tbf_as. destruct (cmd_of c =? NEEDLE_SET); discriminate. Qed.

Lemma tbf_needles_quantise : forall l px py, tbf_needles (quantise qz_int px py l) = tbf_needles l.
Proof.
  unfold tbf_needles. induction l as [|s l IH]; intros px py; [reflexivity|].
  cbn [quantise filter scmd]. destruct (cmd_of (scmd s) =? NEEDLE_SET); cbn [map scmd]; rewrite IH; reflexivity.
Qed.

Lemma tbf_ok_needles : forall l px py, tbf_ok px py l ->
  existsb (fun n => match n with None => true | Some _ => false end) (tbf_needles l) = false.
Proof.
  induction l as [|s l IH]; intros px py H; [reflexivity|].
  destruct H as [Hs Hl]. unfold tbf_needles in *. cbn [filter].
  destruct (Z.eqb_spec (cmd_of (scmd s)) NEEDLE_SET) as [E|E]; [|eapply IH; exact Hl].
  cbn [map existsb]. rewrite (IH _ _ Hl). rewrite orb_false_r.
  rewrite E in Hs. unfold NEEDLE_SET, STITCH, JUMP, STOP, TRIM, END in Hs.
  destruct Hs as [Hs|[Hs|[Hs|(_ & _ & _ & n & Hn & _)]]]; try (exfalso; lia).
  unfold needle_of in Hn. destruct (decode_embroidery_command (scmd s)) as [[[? ?] ?] ?]. subst. reflexivity.
Qed.

Lemma tbf_roundtrip : forall p, tbf_ok 0 0 p -> (length (tbf_needles p) <= 256)%nat ->
  exists order, tbf_thread_order p = Ok order /\ length order = 256%nat /\
    tbf_read order (tbf_body qz_int p) = Ok (closed (renamed tbf_as (before_end p))).
Proof.
  intros p Hp Hn. unfold tbf_thread_order. rewrite (tbf_ok_needles _ _ _ Hp).
  destruct (Z.ltb_spec 256 (Z.of_nat (length (tbf_needles p)))) as [Hlt|_]; [lia|].
  eexists. split; [reflexivity|]. split.
  { rewrite app_length, map_length, repeat_length. lia. }
  unfold tbf_read, tbf_body.
  pose proof (tbf_events (quantise qz_int 0 0 p) (repeat 0 (256 - length (tbf_needles p)))
    (tbf_ok_events _ _ _ Hp)) as E.
  rewrite tbf_needles_quantise in E. unfold nval in E. rewrite E. cbn [bindr].
  rewrite apply_rel_end. f_equal. f_equal.
  rewrite <- quantise_before_end. apply apply_rel_renamed_total. apply tbf_as_total.
Qed.

Definition ok_prefix {A} (a b : res (list A)) : Prop :=
  forall y, b = Ok y -> exists x, a = Ok x /\ prefix_of x y.

Lemma ok_prefix_refl : forall A (a : res (list A)), ok_prefix a a.
Proof. intros A a y H. exists y. split; [exact H|apply prefix_refl]. Qed.
Lemma ok_prefix_nil : forall A (b : res (list A)), ok_prefix (Ok []) b.
Proof. intros A b y H. exists []. split; [reflexivity|apply prefix_nil]. Qed.
Lemma ok_prefix_cons : forall A (e : A) a b, ok_prefix a b ->
  ok_prefix (do t <- a; Ok (e :: t)) (do t <- b; Ok (e :: t)).
Proof.
  intros A e a b H y Hy. destruct b as [q|]; cbn [bindr] in Hy; [|discriminate].
  injection Hy as <-. destruct (H q eq_refl) as (x & -> & Hx). exists (e :: x).
  split; [reflexivity|apply prefix_cons; exact Hx].
Qed.
Lemma ok_prefix_cons2 : forall A (c : bool) (e e' : A) a b, ok_prefix a b ->
  ok_prefix (do t <- a; if c then Ok (e :: t) else Ok (e' :: t))
            (do t <- b; if c then Ok (e :: t) else Ok (e' :: t)).
Proof. intros A [] e e' a b H; apply ok_prefix_cons; exact H. Qed.

Lemma tbf_read_prefix : forall k s n order, (length s <= k)%nat ->
  ok_prefix (tbf_read_loop order (firstn n s)) (tbf_read_loop order s).
Proof.
  induction k as [|k IH]; intros s n order Hk.
  - destruct s; [|cbn in Hk; lia]. rewrite firstn_nil. apply ok_prefix_refl.
  - destruct s as [|x [|y [|c r]]]; destruct n as [|[|[|n]]]; cbn [firstn];
      try apply ok_prefix_nil; try apply ok_prefix_refl.
    cbn [tbf_read_loop]. cbn [length] in Hk.
    destruct (c =? 128); [apply ok_prefix_cons; apply IH; lia|].
    destruct (c =? 129).
    { destruct order as [|o order]; [apply ok_prefix_refl|]. apply ok_prefix_cons2. apply IH. lia. }
    destruct (c =? 144); [apply ok_prefix_cons2; apply IH; lia|].
    destruct (c =? 64); [apply ok_prefix_cons; apply IH; lia|].
    destruct (c =? 134); [apply ok_prefix_cons; apply IH; lia|].
    apply ok_prefix_refl.
Qed.

(** TBF reading raises only when the data has more needle changes than the order table. *)
Fixpoint tbf_needle_records (s : list Z) : nat :=
  match s with
  | x :: y :: ctrl :: r => Nat.add (if ctrl =? 0x81 then 1%nat else 0%nat) (tbf_needle_records r)
  | _ => 0%nat
  end.

Lemma tbf_read_total : forall k s order, (length s <= k)%nat ->
  (tbf_needle_records s <= length order)%nat -> exists l, tbf_read_loop order s = Ok l.
Proof.
  induction k as [|k IH]; intros s order Hk Hn.
  - destruct s; [|cbn in Hk; lia]. exists []. reflexivity.
  - destruct s as [|x [|y [|c r]]]; try (exists []; reflexivity).
    cbn [tbf_read_loop tbf_needle_records length] in *.
    destruct (Z.eqb_spec c 129) as [E|E].
    + subst c. ceq. destruct order as [|o order]; [cbn in Hn; lia|].
      destruct (IH r order) as [l Hl]; [lia|cbn [length] in Hn; lia|]. rewrite Hl. cbn [bindr].
      destruct (o =? 0); eexists; reflexivity.
    + destruct (IH r order) as [l Hl]; [lia|lia|]. rewrite Hl. cbn [bindr].
      destruct (c =? 128); [eexists; reflexivity|].
      destruct (c =? 144); [destruct ((x =? 0) && (y =? 0)); eexists; reflexivity|].
      destruct (c =? 64); [eexists; reflexivity|].
      destruct (c =? 134); [eexists; reflexivity|]. exists []. reflexivity.
Qed.

(** ** XXX *)
Definition xxx_ev_ok (e : rel) : Prop :=
  let c := cmd_of (scmd e) in
     c = STITCH /\ -123 <= sx e <= 123 /\ -123 <= sy e <= 123
  \/ c = JUMP /\ -127 <= sx e <= 127 /\ -127 <= sy e <= 127
  \/ (c = STOP \/ c = COLOR_CHANGE \/ c = TRIM \/ c = END) /\ sx e = 0 /\ sy e = 0.

Lemma acc_of : forall c k drop, cmd_of c = k -> as_color_change drop c =
  if existsb (Z.eqb k) drop then None else if k =? STOP then Some COLOR_CHANGE else Some k.
Proof. intros c k drop <-. reflexivity. Qed.

Lemma xxx_events : forall l q, Forall xxx_ev_ok l ->
  xxx_read_loop (xxx_loop l ++ [0x7F; 0x7F; 0x02; 0x14] ++ q)
  = Ok (renamed (as_color_change []) (before_end l), q).
Proof.
  induction l as [|e l IH]; intros q H; [reflexivity|].
  inversion H as [|? ? He Hl]; subst. specialize (IH q Hl).
  cbn [xxx_loop before_end]. cbn [app] in IH.
  destruct He as [[Hc [Hx Hy]]|[[Hc [Hx Hy]]|[Hc [Hx Hy]]]].
  - rewrite Hc. ceq.
    replace ((-124 <? sx e) && (sx e <? 124)) with true by lia.
    replace ((-124 <? sy e) && (sy e <? 124)) with true by lia. cbn [andb].
    unfold write_int_8. cbn [app]. cbn [xxx_read_loop].
    replace ((Z.land (sx e) 255 =? 125) || (Z.land (sx e) 255 =? 126)) with false
      by (rewrite land_ff; lia).
    replace (negb (Z.land (sx e) 255 =? 127)) with true by (rewrite land_ff; lia).
    rewrite IH. cbn [bindr renamed].
    rewrite (acc_of _ _ _ Hc). cbn [existsb]. ceq.
    rewrite signed8_pos, signed8_neg by lia. reflexivity.
  - rewrite Hc. ceq. unfold write_int_8. cbn [app xxx_read_loop]. ceq.
    rewrite IH. cbn [bindr renamed].
    rewrite (acc_of _ _ _ Hc). cbn [existsb]. ceq.
    rewrite signed8_pos, signed8_neg by lia. reflexivity.
  - destruct Hc as [Hc|[Hc|[Hc|Hc]]]; rewrite Hc, ?Hx, ?Hy; ceq; try reflexivity;
      unfold write_int_8; cbn [app xxx_read_loop]; ceq;
      rewrite IH; cbn [bindr renamed];
      rewrite (acc_of _ _ _ Hc); cbn [existsb]; ceq; rewrite Hx, Hy; reflexivity.
Qed.


Lemma xxx_ok_events : forall l px py, xxx_ok px py l -> Forall xxx_ev_ok (quantise qz_int px py l).
Proof.
  induction l as [|s l IH]; intros px py H; cbn [quantise]; [apply Forall_nil|].
  destruct H as [Hs Hl]. apply Forall_cons.
  - unfold xxx_ev_ok. cbn [scmd sx sy]. unfold step_within, qz_int in *.
    destruct Hs as [Hs|[Hs|Hs]].
    + left. tauto.
    + right; left. tauto.
    + right; right. split; [tauto|lia].
  - apply IH. rewrite !qz_int_add. exact Hl.
Qed.

Lemma xxx_read_colors_write : forall threads q,
  Forall (fun c => 0 <= c < 2 ^ 24) threads ->
  xxx_read_colors (length threads) (flat_map (fun c => [0; sh8 c 16; sh8 c 8; sh8 c 0]) threads ++ q)
  = threads.
Proof.
  induction threads as [|c threads IH]; intros q H; [reflexivity|].
  inversion H as [|? ? Hc Ht]; subst.
  cbn [length flat_map app xxx_read_colors]. unfold read_int_32be. cbn [firstn skipn].
  rewrite !b8_sh8, !sh8_spec by lia. rewrite IH by assumption. f_equal.
  change (b8 0) with 0. rewrite !Z.shiftl_mul_pow2 by lia.
  rewrite Z.pow_0_r, Z.div_1_r. lia.
Qed.

Lemma xxx_roundtrip : forall p threads, xxx_ok 0 0 p -> Forall (fun c => 0 <= c < 2 ^ 24) threads ->
  xxx_read (length threads) (xxx_tail qz_int p threads)
  = Ok (closed (renamed (as_color_change []) (before_end p)), threads).
Proof.
  intros p threads Hp Ht. unfold xxx_read, xxx_tail.
  rewrite xxx_events by (apply xxx_ok_events; exact Hp). cbn [bindr].
  rewrite apply_rel_end, <- quantise_before_end. unfold xxx_colors. cbn [app skipn].
  rewrite xxx_read_colors_write by exact Ht. f_equal. f_equal. f_equal.
  apply apply_rel_renamed_total. intros c. unfold as_color_change. cbn [existsb].
  destruct (cmd_of c =? STOP); discriminate.
Qed.

(** ** U01 *)

Fixpoint u01_ev_ok (pend : bool) (l : list rel) : Prop :=
  match l with
  | [] => True
  | e :: r =>
      let c := cmd_of (scmd e) in
        (c = SLOW \/ c = FAST) /\ pend = false /\ sx e = 0 /\ sy e = 0 /\ u01_ev_ok true r
      \/ (c = STITCH \/ c = JUMP) /\ -255 <= sx e <= 255 /\ -255 <= sy e <= 255
         /\ (pend = true -> sx e <> 0 \/ sy e <> 0) /\ u01_ev_ok false r
      \/ (c = STOP \/ c = TRIM \/ c = END) /\ sx e = 0 /\ sy e = 0 /\ u01_ev_ok pend r
      \/ c = NEEDLE_SET /\ sx e = 0 /\ sy e = 0
         /\ (exists n, needle_of (scmd e) = Some n /\ 1 <= n <= 14) /\ u01_ev_ok pend r
  end.

(** Events read back: a speed change is delivered just before the next movement. *)
Fixpoint u01_ev_view (pend : option Z) (l : list rel) : list rel :=
  match l with
  | [] => []
  | e :: r =>
      let c := cmd_of (scmd e) in
      if (c =? SLOW) || (c =? FAST) then u01_ev_view (Some c) r
      else if (c =? STITCH) || (c =? JUMP) then
        match pend with Some k => [mkS 0 0 k] | None => [] end
        ++ mkS (sx e) (sy e) c :: u01_ev_view None r
      else mkS (sx e) (sy e) (u01_name (scmd e)) :: u01_ev_view pend r
  end.

Definition pend_flags (pend : option Z) : bool * bool :=
  match pend with
  | Some k => (k =? FAST, k =? SLOW)
  | None => (false, false)
  end.
Definition pend_ok (pend : option Z) : Prop :=
  match pend with Some k => k = FAST \/ k = SLOW | None => True end.

(** The control byte decodes to the sign of each axis and the command number. *)
Lemma u01_ctrl : forall dx dy k, 0 <= k <= 31 ->
  let cmd := Z.lor (u01_base dx dy) k in
  cmd = u01_base dx dy + k /\
  Z.land cmd 31 = k /\ (0 <=? cmd) && (cmd <? 256) = true /\
  negb (Z.land cmd 0x20 =? 0) = (dx <=? 0) /\ negb (Z.land cmd 0x40 =? 0) = (dy >=? 0).
Proof.
  intros dx dy k Hk. unfold u01_base.
  assert (A : forallb (fun b => forallb (fun k =>
     (Z.lor b k =? b + k) &&
     (Z.land (Z.lor b k) 31 =? k) && ((0 <=? Z.lor b k) && (Z.lor b k <? 256))
     && Bool.eqb (negb (Z.land (Z.lor b k) 0x20 =? 0)) (negb (Z.land b 0x20 =? 0))
     && Bool.eqb (negb (Z.land (Z.lor b k) 0x40 =? 0)) (negb (Z.land b 0x40 =? 0)))
     (map Z.of_nat (seq 0 32))) [0x80; 0xC0; 0xA0; 0xE0] = true) by (vm_compute; reflexivity).
  rewrite forallb_forall in A.
  assert (Hin : In k (map Z.of_nat (seq 0 32))).
  { apply in_map_iff. exists (Z.to_nat k). split; [lia|]. apply in_seq. lia. }
  assert (B : forall b, In b [0x80; 0xC0; 0xA0; 0xE0] ->
    Z.lor b k = b + k /\
    Z.land (Z.lor b k) 31 = k /\ (0 <=? Z.lor b k) && (Z.lor b k <? 256) = true /\
    negb (Z.land (Z.lor b k) 0x20 =? 0) = negb (Z.land b 0x20 =? 0) /\
    negb (Z.land (Z.lor b k) 0x40 =? 0) = negb (Z.land b 0x40 =? 0)).
  { intros b Hb. specialize (A b Hb). rewrite forallb_forall in A. specialize (A k Hin).
    rewrite !andb_true_iff, !eqb_true_iff, !Z.eqb_eq in A. rewrite andb_true_iff. tauto. }
  destruct (dy >=? 0), (dx <=? 0); cbn [Z.lor Pos.lor].
  - exact (B 0xE0 ltac:(cbn; tauto)).
  - exact (B 0xC0 ltac:(cbn; tauto)).
  - exact (B 0xA0 ltac:(cbn; tauto)).
  - exact (B 0x80 ltac:(cbn; tauto)).
Qed.

Lemma u01_axes : forall dx, (if dx <=? 0 then - Z.abs dx else Z.abs dx) = dx.
Proof. intros dx. destruct (Z.leb_spec dx 0); lia. Qed.
Lemma u01_axes_y : forall dy, (if dy >=? 0 then - - Z.abs dy else - Z.abs dy) = dy.
Proof. intros dy. destruct (Z.geb_spec dy 0); lia. Qed.

Lemma u01_bytes : forall dx dy k, 0 <= k <= 31 -> -255 <= dx <= 255 -> -255 <= dy <= 255 ->
  py_bytearray [Z.lor (u01_base dx dy) k; Z.abs dy; Z.abs dx]
  = Ok [Z.lor (u01_base dx dy) k; Z.abs dy; Z.abs dx].
Proof.
  intros dx dy k Hk Hx Hy. destruct (u01_ctrl dx dy k Hk) as (_ & _ & Hb & _).
  unfold py_bytearray. cbn [forallb]. rewrite Hb.
  replace ((0 <=? Z.abs dy) && (Z.abs dy <? 256)) with true by lia.
  replace ((0 <=? Z.abs dx) && (Z.abs dx <? 256)) with true by lia. reflexivity.
Qed.

(** Reading one record. *)
Lemma u01_read_record : forall dx dy k r, 0 <= k <= 31 ->
  u01_read_loop (Z.lor (u01_base dx dy) k :: Z.abs dy :: Z.abs dx :: r) =
  let then_ c := if negb (dx =? 0) || negb (dy =? 0) then mkS dx dy c :: u01_read_loop r
                 else u01_read_loop r in
      if k =? 0x0 then mkS dx dy STITCH :: u01_read_loop r
      else if k =? 0x01 then mkS dx dy JUMP :: u01_read_loop r
      else if k =? 0x02 then mkS 0 0 FAST :: then_ STITCH
      else if k =? 0x03 then mkS 0 0 FAST :: then_ JUMP
      else if k =? 0x04 then mkS 0 0 SLOW :: then_ STITCH
      else if k =? 0x05 then mkS 0 0 SLOW :: then_ JUMP
      else if k =? 0x06 then mkS 0 0 TRIM :: then_ JUMP
      else if k =? 0x07 then mkS 0 0 TRIM :: then_ JUMP
      else if k =? 0x08 then mkS 0 0 STOP :: then_ JUMP
      else if (0x09 <=? k) && (k <=? 0x17) then
        mkS 0 0 (encode_thread_change NEEDLE_SET None (Some (k - 0x08)) None) :: then_ JUMP
      else [].
Proof.
  intros dx dy k r Hk. destruct (u01_ctrl dx dy k Hk) as (_ & H31 & _ & Hx & Hy).
  cbn [u01_read_loop]. rewrite H31, Hx, Hy, u01_axes, u01_axes_y. reflexivity.
Qed.

Lemma u01_events : forall l pend, pend_ok pend ->
  u01_ev_ok (match pend with Some _ => true | None => false end) l ->
  exists bs, u01_loop (fst (pend_flags pend)) (snd (pend_flags pend)) l = Ok bs /\ bytes_ok bs /\
    u01_read_loop bs = u01_ev_view pend (before_end l).
Proof.
  induction l as [|e l IH]; intros pend Hp H.
  - exists [248; 0; 0]. split; [reflexivity|]. split; [|reflexivity].
    unfold bytes_ok. repeat (apply Forall_cons; [unfold byte_ok; lia|]). apply Forall_nil.
  - assert (Bt : forall bs k, bytes_ok bs -> 0 <= k <= 31 -> -255 <= sx e <= 255 -> -255 <= sy e <= 255 ->
      bytes_ok ([Z.lor (u01_base (sx e) (sy e)) k; Z.abs (sy e); Z.abs (sx e)] ++ bs)).
    { intros bs k Hb Hk Hx Hy. destruct (u01_ctrl (sx e) (sy e) k Hk) as (_ & _ & B & _).
      cbn [app]. unfold bytes_ok, byte_ok in *.
      repeat (apply Forall_cons; [lia|]). exact Hb. }
    cbn [u01_loop before_end].
    destruct H as [(Hc & Hpend & Hx & Hy & Hl)|[(Hc & Hx & Hy & Hz & Hl)|[(Hc & Hx & Hy & Hl)|(Hc & Hx & Hy & (n & Hn & Hr) & Hl)]]].
    + destruct pend as [k|]; [discriminate|].
      destruct Hc as [Hc|Hc]; rewrite Hc; ceq; cbn [pend_flags fst snd].
      * destruct (IH (Some SLOW)) as (bs & E & B & R); [right; reflexivity|exact Hl|].
        exists bs. split; [exact E|]. split; [exact B|]. rewrite R.
        cbn [u01_ev_view]. rewrite Hc. reflexivity.
      * destruct (IH (Some FAST)) as (bs & E & B & R); [left; reflexivity|exact Hl|].
        exists bs. split; [exact E|]. split; [exact B|]. rewrite R.
        cbn [u01_ev_view]. rewrite Hc. reflexivity.
    + destruct (IH None I Hl) as (bs & E & B & R). cbn [pend_flags fst snd] in E.
      assert (Hnz : pend <> None -> negb (sx e =? 0) || negb (sy e =? 0) = true).
      { intros Hn. destruct pend; [|congruence]. specialize (Hz eq_refl). lia. }
      assert (G : forall j, (if cmd_of (scmd e) =? STITCH then 0 else 1) = j -> 0 <= j <= 1 ->
        exists k, 0 <= k <= 31 /\ k = j + (match pend with Some f => if f =? FAST then 2 else 4 | None => 0 end)).
      { intros j _ Hj. eexists. split; [|reflexivity]. destruct pend as [f|]; [destruct (f =? FAST)|]; lia. }
      destruct Hc as [Hc|Hc]; rewrite Hc; ceq; cbn [u01_ev_view]; rewrite Hc; ceq.
      * destruct pend as [f|]; cbn [pend_flags fst snd].
        -- destruct Hp as [-> | ->]; ceq; rewrite u01_bytes by lia; cbn [bindr]; rewrite E; cbn [bindr];
             eexists; (split; [reflexivity|]); (split; [apply Bt; [exact B|lia|lia|lia]|]);
             cbn [app]; rewrite u01_read_record by lia; cbv zeta; ceq;
             rewrite Hnz by discriminate; rewrite R; reflexivity.
        -- destruct (u01_ctrl (sx e) (sy e) 0 ltac:(lia)) as (E0 & _).
           rewrite Z.add_0_r in E0. rewrite <- E0.
           rewrite u01_bytes by lia; cbn [bindr]; rewrite E; cbn [bindr].
           eexists; (split; [reflexivity|]); (split; [apply Bt; [exact B|lia|lia|lia]|]).
           cbn [app]; rewrite u01_read_record by lia; cbv zeta; ceq. rewrite R; reflexivity.
      * destruct pend as [f|]; cbn [pend_flags fst snd].
        -- destruct Hp as [-> | ->]; ceq; rewrite <- Z.lor_assoc.
           ++ change (Z.lor 2 1) with 3. rewrite u01_bytes by lia; cbn [bindr]; rewrite E; cbn [bindr].
              eexists; (split; [reflexivity|]); (split; [apply Bt; [exact B|lia|lia|lia]|]).
              cbn [app]; rewrite u01_read_record by lia; cbv zeta; ceq.
              rewrite Hnz by discriminate; rewrite R; reflexivity.
           ++ change (Z.lor 4 1) with 5. rewrite u01_bytes by lia; cbn [bindr]; rewrite E; cbn [bindr].
              eexists; (split; [reflexivity|]); (split; [apply Bt; [exact B|lia|lia|lia]|]).
              cbn [app]; rewrite u01_read_record by lia; cbv zeta; ceq.
              rewrite Hnz by discriminate; rewrite R; reflexivity.
        -- rewrite u01_bytes by lia; cbn [bindr]; rewrite E; cbn [bindr].
           eexists; (split; [reflexivity|]); (split; [apply Bt; [exact B|lia|lia|lia]|]).
           cbn [app]; rewrite u01_read_record by lia; cbv zeta; ceq. rewrite R; reflexivity.
    + destruct (IH pend Hp Hl) as (bs & E & B & R).
      destruct Hc as [Hc|[Hc|Hc]]; rewrite Hc; ceq.
      * rewrite u01_bytes by lia; cbn [bindr]; rewrite E; cbn [bindr].
        eexists; (split; [reflexivity|]); (split; [apply Bt; [exact B|lia|lia|lia]|]).
        cbn [app]; rewrite u01_read_record by lia; cbv zeta; ceq. cbn [u01_ev_view].
        unfold u01_name. rewrite Hc. ceq. rewrite Hx, Hy. ceq. rewrite R. reflexivity.
      * rewrite u01_bytes by lia; cbn [bindr]; rewrite E; cbn [bindr].
        eexists; (split; [reflexivity|]); (split; [apply Bt; [exact B|lia|lia|lia]|]).
        cbn [app]; rewrite u01_read_record by lia; cbv zeta; ceq. cbn [u01_ev_view].
        unfold u01_name. rewrite Hc. ceq. rewrite Hx, Hy. ceq. rewrite R. reflexivity.
      * exists [248; 0; 0]. split; [reflexivity|]. split; [|reflexivity].
        unfold bytes_ok. repeat (apply Forall_cons; [unfold byte_ok; lia|]). apply Forall_nil.
    + destruct (IH pend Hp Hl) as (bs & E & B & R).
      rewrite Hc; ceq. unfold needle_of in Hn.
      destruct (decode_embroidery_command (scmd e)) as [[[c0 t0] n0] o0] eqn:Ed. subst n0.
      replace (n >=? 15) with false by lia.
      destruct (u01_ctrl (sx e) (sy e) 8 ltac:(lia)) as (E8 & _).
      destruct (u01_ctrl (sx e) (sy e) (8 + n) ltac:(lia)) as (En & _).
      replace (Z.lor (u01_base (sx e) (sy e)) 8 + n) with (Z.lor (u01_base (sx e) (sy e)) (8 + n)) by lia.
      rewrite u01_bytes by lia; cbn [bindr]; rewrite E; cbn [bindr].
      eexists; (split; [reflexivity|]); (split; [apply Bt; [exact B|lia|lia|lia]|]).
      cbn [app]; rewrite u01_read_record by lia; cbv zeta.
      replace (8 + n =? 0) with false by lia. replace (8 + n =? 1) with false by lia.
      replace (8 + n =? 2) with false by lia. replace (8 + n =? 3) with false by lia.
      replace (8 + n =? 4) with false by lia. replace (8 + n =? 5) with false by lia.
      replace (8 + n =? 6) with false by lia. replace (8 + n =? 7) with false by lia.
      replace (8 + n =? 8) with false by lia. replace ((9 <=? 8 + n) && (8 + n <=? 23)) with true by lia.
      cbn [u01_ev_view]. unfold u01_name. rewrite Hc. ceq.
      rewrite Hx, Hy. ceq. rewrite R. unfold needle_of. rewrite Ed.
      replace (8 + n - 8) with n by lia. reflexivity.
Qed.

(** Absolute version. *)


Lemma u01_ok_events : forall l pend px py, u01_ok pend px py l -> u01_ev_ok pend (quantise qz_int px py l).
Proof.
  induction l as [|s l IH]; intros pend px py H; cbn [quantise]; [exact I|].
  cbn [u01_ev_ok scmd sx sy]. rewrite !qz_int_add.
  destruct H as [(Hc & Hpend & Hx & Hy & Hl)|[(Hc & Hx & Hz & Hl)|[(Hc & Hx & Hy & Hl)|(Hc & Hx & Hy & Hn & Hl)]]];
    specialize (IH _ _ _ Hl); unfold step_within in *.
  - left. unfold qz_int in *. repeat split; try assumption; lia.
  - right; left. unfold qz_int in *. repeat split; try assumption; lia.
  - right; right; left. unfold qz_int in *. repeat split; try assumption; lia.
  - right; right; right. unfold qz_int in *. repeat split; try assumption; lia.
Qed.

Lemma u01_ok_before_end : forall l pend px py, u01_ok pend px py l -> u01_ok pend px py (before_end l).
Proof.
  induction l as [|s l IH]; intros pend px py H; cbn [before_end]; [exact I|].
  destruct (cmd_of (scmd s) =? END); [exact I|]. cbn [u01_ok] in *.
  destruct H as [(Hc & Hpend & Hx & Hy & Hl)|[(Hc & Hx & Hz & Hl)|[(Hc & Hx & Hy & Hl)|(Hc & Hx & Hy & Hn & Hl)]]].
  - left. repeat split; try assumption. apply IH. exact Hl.
  - right; left. repeat split; try assumption; try apply Hx. apply IH. exact Hl.
  - right; right; left. repeat split; try assumption. apply IH. exact Hl.
  - right; right; right. repeat split; try assumption. apply IH. exact Hl.
Qed.

Lemma u01_apply_view : forall l pend px py p0, u01_ok p0 px py l ->
  apply_rel px py (u01_ev_view pend (quantise qz_int px py l)) = u01_view pend px py l.
Proof.
  induction l as [|s l IH]; intros pend px py p0 H; [reflexivity|].
  cbn [quantise u01_ev_view u01_view scmd sx sy]. rewrite !qz_int_add.
  destruct H as [(Hc & Hpend & Hx & Hy & Hl)|[(Hc & Hx & Hz & Hl)|[(Hc & Hx & Hy & Hl)|(Hc & Hx & Hy & Hn & Hl)]]].
  - replace ((cmd_of (scmd s) =? SLOW) || (cmd_of (scmd s) =? FAST)) with true
      by (destruct Hc as [-> | ->]; reflexivity).
    rewrite Hx, Hy in *. rewrite (IH _ _ _ _ Hl). reflexivity.
  - replace ((cmd_of (scmd s) =? SLOW) || (cmd_of (scmd s) =? FAST)) with false
      by (destruct Hc as [-> | ->]; reflexivity).
    replace ((cmd_of (scmd s) =? STITCH) || (cmd_of (scmd s) =? JUMP)) with true
      by (destruct Hc as [-> | ->]; reflexivity).
    destruct pend as [k|]; cbn [app apply_rel sx sy scmd]; rewrite ?Z.add_0_r, ?qz_int_add;
      rewrite (IH _ _ _ _ Hl); reflexivity.
  - replace ((cmd_of (scmd s) =? SLOW) || (cmd_of (scmd s) =? FAST)) with false
      by (destruct Hc as [-> | [-> | ->]]; reflexivity).
    replace ((cmd_of (scmd s) =? STITCH) || (cmd_of (scmd s) =? JUMP)) with false
      by (destruct Hc as [-> | [-> | ->]]; reflexivity).
    cbn [apply_rel sx sy scmd]. rewrite !qz_int_add, (IH _ _ _ _ Hl). reflexivity.
  - rewrite Hc. ceq.
    cbn [apply_rel sx sy scmd]. rewrite !qz_int_add, (IH _ _ _ _ Hl). reflexivity.
Qed.

Lemma u01_roundtrip : forall p, u01_ok false 0 0 p ->
  exists bs, u01_body qz_int p = Ok bs /\ bytes_ok bs /\
    u01_read bs = closed (u01_view None 0 0 (before_end p)).
Proof.
  intros p H.
  destruct (u01_events (quantise qz_int 0 0 p) None I) as (bs & E & B & R).
  { apply u01_ok_events. exact H. }
  exists bs. split; [exact E|]. split; [exact B|].
  unfold u01_read. rewrite apply_rel_end, R, <- quantise_before_end. f_equal.
  eapply u01_apply_view. apply u01_ok_before_end. exact H.
Qed.

Lemma u01_read_prefix : forall k s n, (length s <= k)%nat ->
  prefix_of (u01_read_loop (firstn n s)) (u01_read_loop s).
Proof.
  induction k as [|k IH]; intros s n Hk.
  - destruct s; [|cbn in Hk; lia]. rewrite firstn_nil. apply prefix_refl.
  - destruct s as [|b0 [|b1 [|b2 r]]]; destruct n as [|[|[|n]]]; cbn [firstn];
      try apply prefix_nil; try apply prefix_refl.
    cbn [u01_read_loop]. cbn [length] in Hk.
    set (dx := if negb (Z.land b0 32 =? 0) then - b2 else b2).
    set (dy := if negb (Z.land b0 64 =? 0) then - - b1 else - b1).
    assert (IH' : prefix_of (u01_read_loop (firstn n r)) (u01_read_loop r)) by (apply IH; lia).
    assert (T : forall c, prefix_of
       (if negb (dx =? 0) || negb (dy =? 0) then mkS dx dy c :: u01_read_loop (firstn n r) else u01_read_loop (firstn n r))
       (if negb (dx =? 0) || negb (dy =? 0) then mkS dx dy c :: u01_read_loop r else u01_read_loop r)).
    { intros c. destruct (negb (dx =? 0) || negb (dy =? 0)); [apply prefix_cons|]; exact IH'. }
    repeat match goal with |- prefix_of (if ?b then _ else _) _ => destruct b end;
      repeat apply prefix_cons; try exact IH'; try apply T; apply prefix_refl.
Qed.
