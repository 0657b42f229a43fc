(** TBF, U01 and XXX after encoding: what of the stitches and needles is read back. *)
From Coq Require Import ZArith QArith Qabs List Bool Lia Lqa.
From Verif Require Import Tactics PyBase EmbConst FunctionsModel FunctionsProofs StreamModel StreamSpec StreamProofs BitLemmas
  HelperModel HelperProofs ThreadModel NumModel NumQ MatrixModel EncoderModel EncoderProofs EncoderSpec MetricSpec EncoderMetricProofs QuantModel QuantProofs
  TbfModel XxxModel U01Model FormatSpec EightBitProofs PropertiesEncoder SettingsModel PropertiesPipeline FidelitySpec FidelityProofs MachineSpec.
Import ListNotations.
Open Scope Z_scope.

(** ** Lists of events *)
(** Within [m] on each axis; only STITCH and JUMP move. *)
Definition machine_ev (m : Z) (e : rel) : Prop :=
  - m <= sx e <= m /\ - m <= sy e <= m /\ (cmd_of (scmd e) = STITCH \/ cmd_of (scmd e) = JUMP \/ sx e = 0 /\ sy e = 0).

Lemma before_end_apply : forall l x y, apply_rel x y (before_end l) = before_end (apply_rel x y l).
Proof.
  induction l as [|e l IH]; intros x y; [reflexivity|]. cbn [before_end apply_rel scmd].
  destruct (_ =? END); [reflexivity|]. cbn [apply_rel]. rewrite IH. reflexivity.
Qed.
Lemma needles_cons : forall C (a : stitch C) l,
  needle_numbers (a :: l) = (if cmd_of (scmd a) =? NEEDLE_SET then [needle_of (scmd a)] else []) ++ needle_numbers l.
Proof.
  intros C a l. unfold needle_numbers. cbn [filter]. change (is_cmd NEEDLE_SET a) with (cmd_of (scmd a) =? NEEDLE_SET).
  destruct (_ =? _); reflexivity.
Qed.
Lemma needles_apply : forall l x y, needle_numbers (apply_rel x y l) = needle_numbers l.
Proof.
  induction l as [|e l IH]; intros x y; [reflexivity|]. cbn [apply_rel]. rewrite !needles_cons, IH. reflexivity.
Qed.
Lemma needles_app : forall C (a b : list (stitch C)), needle_numbers (a ++ b) = needle_numbers a ++ needle_numbers b.
Proof. intros C a b. unfold needle_numbers. rewrite filter_app, map_app. reflexivity. Qed.
Lemma needles_closed : forall l, needle_numbers (closed l) = needle_numbers l.
Proof.
  intros l. unfold closed. destruct (needle_after 0 0 l) as [x y]. rewrite needles_app. cbn. apply app_nil_r.
Qed.

Lemma needle_only : forall n, 0 <= n <= 254 -> needle_of (encode_thread_change NEEDLE_SET None (Some n) None) = Some n /\
  cmd_of (encode_thread_change NEEDLE_SET None (Some n) None) = NEEDLE_SET.
Proof.
  intros n H. assert (D := decode_encode NEEDLE_SET None (Some n) None I ltac:(unfold field_fits; lia) I).
  split; [unfold needle_of; rewrite D; cbn [field_low option_map]; rewrite Z.mod_small by lia; reflexivity|].
  assert (K : fst (fst (fst (decode_embroidery_command (encode_thread_change NEEDLE_SET None (Some n) None)))) = NEEDLE_SET).
  { rewrite D. reflexivity. } exact K.
Qed.

Lemma needle_byte : forall n, 0 <= n < 256 -> cmd_of (encode_thread_change NEEDLE_SET None (Some n) None) = NEEDLE_SET.
Proof.
  intros n H.
  assert (F : forallb (fun k => cmd_of (encode_thread_change NEEDLE_SET None (Some (Z.of_nat k)) None) =? NEEDLE_SET) (seq 0 256) = true)
    by (vm_compute; reflexivity).
  rewrite forallb_forall in F. specialize (F (Z.to_nat n)). rewrite Z2Nat.id in F by lia. apply Z.eqb_eq, F, in_seq. lia.
Qed.

(** A needle between 1 and 254. *)
Definition needle_fine (e : rel) : Prop :=
  cmd_of (scmd e) = NEEDLE_SET -> exists n, needle_of (scmd e) = Some n /\ 1 <= n <= 254.

Lemma tbf_points : forall l order x y, Forall (machine_ev 127) l -> exists evs,
  tbf_read_loop (map nval (tbf_needles l) ++ order) (tbf_loop l) = Ok evs /\
  needle_points (apply_rel x y evs) = needle_points (apply_rel x y (before_end l)) /\
  (Forall needle_fine l -> needle_numbers evs = needle_numbers (before_end l)).
Proof.
  induction l as [|e l IH]; intros order x y H.
  { exists []. split; [reflexivity|]. split; reflexivity. }
  inversion H as [|? ? (Bx & By & Hm) Hl]; subst.
  assert (Eo : map nval (tbf_needles (e :: l)) ++ order =
    if cmd_of (scmd e) =? NEEDLE_SET then nval (needle_of (scmd e)) :: map nval (tbf_needles l) ++ order else map nval (tbf_needles l) ++ order).
  { unfold tbf_needles. cbn [filter]. destruct (_ =? _); reflexivity. }
  rewrite Eo. clear Eo. cbn [tbf_loop before_end].
  assert (S : forall c, -127 <= sx e <= 127 -> -127 <= sy e <= 127 -> mkS (signed8 (Z.land (sx e) 255)) (- signed8 (Z.land (- sy e) 255)) c = mkS (sx e) (sy e) c).
  { intros c Hx Hy. rewrite signed8_pos, signed8_neg by lia. reflexivity. }
  destruct (Z.eqb_spec (cmd_of (scmd e)) STITCH) as [E1|N1].
  { rewrite E1. ceq. cbn [app tbf_read_loop]. ceq. destruct (IH order (x + sx e) (y + sy e) Hl) as (evs & E & P & Q). rewrite E. cbn [bindr].
    rewrite S by lia. eexists. split; [reflexivity|]. cbn [apply_rel sx sy scmd]. rewrite !points_cons, P. cbn [scmd sx sy]. rewrite E1. split; [reflexivity|].
    intros F. inversion F; subst. rewrite !needles_cons, Q by assumption. cbn [scmd]. rewrite E1. reflexivity. }
  destruct (Z.eqb_spec (cmd_of (scmd e)) JUMP) as [E2|N2].
  { rewrite E2. ceq. cbn [app tbf_read_loop]. ceq. destruct (IH order (x + sx e) (y + sy e) Hl) as (evs & E & P & Q). rewrite E. cbn [bindr].
    rewrite S by lia. exists ((if (Z.land (sx e) 255 =? 0) && (Z.land (- sy e) 255 =? 0) then mkS 0 0 TRIM else mkS (sx e) (sy e) JUMP) :: evs).
    split; [destruct (_ && _); reflexivity|]. split.
    - destruct ((Z.land (sx e) 255 =? 0) && (Z.land (- sy e) 255 =? 0)) eqn:Ez; cbn [apply_rel sx sy scmd]; rewrite !points_cons; cbn [scmd sx sy]; rewrite E2.
      + apply andb_true_iff in Ez as [Z1 Z2]. apply Z.eqb_eq in Z1, Z2. apply land_0 in Z1, Z2; try lia.
        rewrite !Z.add_0_r. replace (x + sx e) with x in * by lia. replace (y + sy e) with y in * by lia. rewrite P. reflexivity.
      + rewrite P. reflexivity.
    - intros F. inversion F; subst. rewrite !needles_cons, Q by assumption. rewrite E2. destruct (_ && _); reflexivity. }
  destruct Hm as [Hm|[Hm|[Hx Hy]]]; try contradiction. rewrite Hx, Hy in *. 
  assert (P0 : forall evs c, cmd_of c =? STITCH = false ->
    needle_points (apply_rel x y evs) = needle_points (apply_rel x y (before_end l)) ->
    needle_points (apply_rel x y (mkS 0 0 c :: evs)) = needle_points (apply_rel x y (e :: before_end l))).
  { intros evs c Hc P. cbn [apply_rel sx sy scmd]. rewrite Hx, Hy, !Z.add_0_r, !points_cons, P. cbn [scmd]. rewrite Hc.
    destruct (Z.eqb_spec (cmd_of (scmd e)) STITCH); [contradiction|reflexivity]. }
  destruct (Z.eqb_spec (cmd_of (scmd e)) STOP) as [E3|N3].
  { destruct (IH order x y Hl) as (evs & E & P & Q). rewrite E3. ceq. cbn [app tbf_read_loop]. ceq. rewrite E. cbn [bindr]. eexists. split; [reflexivity|].
    split; [apply P0; [reflexivity|exact P]|]. intros F. inversion F; subst. rewrite !needles_cons, Q by assumption. rewrite E3. reflexivity. }
  destruct (Z.eqb_spec (cmd_of (scmd e)) TRIM) as [E4|N4].
  { destruct (IH order x y Hl) as (evs & E & P & Q). rewrite E4. ceq. cbn [app tbf_read_loop]. ceq. rewrite E. cbn [bindr]. eexists. split; [reflexivity|].
    split; [apply P0; [reflexivity|exact P]|]. intros F. inversion F; subst. rewrite !needles_cons, Q by assumption. rewrite E4. reflexivity. }
  destruct (Z.eqb_spec (cmd_of (scmd e)) NEEDLE_SET) as [E5|N5].
  { destruct (IH order x y Hl) as (evs & E & P & Q). rewrite E5. ceq. cbn [app tbf_read_loop]. ceq. rewrite E. cbn [bindr].
    set (v := nval (needle_of (scmd e))).
    exists (mkS 0 0 (if v =? 0 then STOP else encode_thread_change NEEDLE_SET None (Some v) None) :: evs).
    split; [destruct (v =? 0); reflexivity|]. split.
    - apply P0; [|exact P]. destruct (Z.eqb_spec v 0) as [|Nv]; [reflexivity|].
      assert (cmd_of (encode_thread_change NEEDLE_SET None (Some v) None) = NEEDLE_SET) as ->; [|reflexivity].
      apply needle_byte. unfold v, nval. destruct (needle_of (scmd e)); [rewrite land_ff|]; lia.
    - intros F. inversion F as [|? ? Hn F']; subst. destruct (Hn E5) as (n & En & Bn). unfold v. rewrite En. cbn [nval]. rewrite land_ff, Z.mod_small by lia.
      destruct (Z.eqb_spec n 0); [lia|]. destruct (needle_only n ltac:(lia)) as [K1 K2]. rewrite !needles_cons, Q by assumption. cbn [scmd].
      rewrite K1, K2, E5, En. reflexivity. }
  destruct (Z.eqb_spec (cmd_of (scmd e)) END) as [E6|N6].
  { exists []. split; [reflexivity|]. split; reflexivity. }
  destruct (IH order x y Hl) as (evs & E & P & Q). exists evs. split; [exact E|].
  rewrite !needles_cons. destruct (Z.eqb_spec (cmd_of (scmd e)) NEEDLE_SET); [contradiction|]. split.
  - cbn [apply_rel]. rewrite Hx, Hy, !Z.add_0_r, points_cons. cbn [scmd]. destruct (Z.eqb_spec (cmd_of (scmd e)) STITCH); [contradiction|]. exact P.
  - intros F. inversion F; subst. apply Q. assumption.
Qed.

(** ** U01 *)
Definition quiet_ev (e : rel) : Prop := cmd_of (scmd e) <> SLOW /\ cmd_of (scmd e) <> FAST.
Definition needle_there (e : rel) : Prop :=
  cmd_of (scmd e) = NEEDLE_SET -> exists n, needle_of (scmd e) = Some n /\ 0 <= n <= 254.

Lemma u01_record : forall dx dy k r bs, 0 <= k <= 31 -> -255 <= dx <= 255 -> -255 <= dy <= 255 -> r = Ok bs ->
  (do h <- py_bytearray [Z.lor (u01_base dx dy) k; Z.abs dy; Z.abs dx]; do t <- r; Ok (h ++ t))
  = Ok (Z.lor (u01_base dx dy) k :: Z.abs dy :: Z.abs dx :: bs).
Proof. intros dx dy k r bs Hk Hx Hy ->. rewrite u01_bytes by assumption. reflexivity. Qed.
Lemma u01_needle_range : forall n, 0 <= n <= 254 -> 0 <= u01_needle n <= 15.
Proof. intros n H. unfold u01_needle. destruct (Z.leb_spec 15 n); lia. Qed.

Lemma u01_points : forall l x y, Forall (machine_ev 255) l -> Forall quiet_ev l -> Forall needle_there l -> exists bs,
  u01_loop false false l = Ok bs /\
  needle_points (apply_rel x y (u01_read_loop bs)) = needle_points (apply_rel x y (before_end l)) /\
  (Forall needle_fine l -> needle_numbers (u01_read_loop bs) = map (option_map u01_needle) (needle_numbers (before_end l))).
Proof.
  induction l as [|e l IH]; intros x y H Hq Hn.
  { exists [0xF8; 0; 0]. split; [reflexivity|]. split; reflexivity. }
  inversion H as [|? ? (Bx & By & Hm) Hl]; subst. inversion Hq as [|? ? (Q1 & Q2) Hql]; subst. inversion Hn as [|? ? Hne Hnl]; subst.
  cbn [u01_loop before_end].
  destruct (Z.eqb_spec (cmd_of (scmd e)) SLOW) as [?|_]; [contradiction|]. destruct (Z.eqb_spec (cmd_of (scmd e)) FAST) as [?|_]; [contradiction|].
  destruct (Z.eqb_spec (cmd_of (scmd e)) STITCH) as [E1|N1].
  { rewrite E1. ceq. destruct (IH (x + sx e) (y + sy e) Hl Hql Hnl) as (bs & E & P & Q).
    destruct (u01_ctrl (sx e) (sy e) 0 ltac:(lia)) as (E0 & _). rewrite Z.add_0_r in E0. rewrite <- E0.
    rewrite (u01_record _ _ 0 _ _ ltac:(lia) Bx By E). eexists. split; [reflexivity|]. rewrite u01_read_record by lia. cbv zeta. ceq.
    cbn [apply_rel sx sy scmd]. rewrite !points_cons, P. cbn [scmd sx sy]. rewrite E1. split; [reflexivity|].
    intros F. inversion F; subst. rewrite !needles_cons, Q by assumption. cbn [scmd]. rewrite E1. reflexivity. }
  destruct (Z.eqb_spec (cmd_of (scmd e)) JUMP) as [E2|N2].
  { rewrite E2. ceq. destruct (IH (x + sx e) (y + sy e) Hl Hql Hnl) as (bs & E & P & Q).
    rewrite (u01_record _ _ 1 _ _ ltac:(lia) Bx By E). eexists. split; [reflexivity|]. rewrite u01_read_record by lia. cbv zeta. ceq.
    cbn [apply_rel sx sy scmd]. rewrite !points_cons, P. cbn [scmd sx sy]. rewrite E2. split; [reflexivity|].
    intros F. inversion F; subst. rewrite !needles_cons, Q by assumption. cbn [scmd]. rewrite E2. reflexivity. }
  destruct Hm as [Hm|[Hm|[Hx Hy]]]; try contradiction. rewrite Hx, Hy in *.
  assert (P0 : forall evs c, cmd_of c =? STITCH = false ->
    needle_points (apply_rel x y evs) = needle_points (apply_rel x y (before_end l)) ->
    needle_points (apply_rel x y (mkS 0 0 c :: evs)) = needle_points (apply_rel x y (e :: before_end l))).
  { intros evs c Hc P. cbn [apply_rel sx sy scmd]. rewrite Hx, Hy, !Z.add_0_r, !points_cons, P. cbn [scmd]. rewrite Hc.
    destruct (Z.eqb_spec (cmd_of (scmd e)) STITCH); [contradiction|reflexivity]. }
  destruct (Z.eqb_spec (cmd_of (scmd e)) STOP) as [E3|N3].
  { destruct (IH x y Hl Hql Hnl) as (bs & E & P & Q). rewrite E3. ceq.
    rewrite (u01_record 0 0 8 _ _ ltac:(lia) Bx By E). eexists. split; [reflexivity|]. rewrite u01_read_record by lia. cbv zeta. ceq.
    split; [apply P0; [reflexivity|exact P]|]. intros F. inversion F; subst. rewrite !needles_cons, Q by assumption. rewrite E3. reflexivity. }
  destruct (Z.eqb_spec (cmd_of (scmd e)) TRIM) as [E4|N4].
  { destruct (IH x y Hl Hql Hnl) as (bs & E & P & Q). rewrite E4. ceq.
    rewrite (u01_record 0 0 7 _ _ ltac:(lia) Bx By E). eexists. split; [reflexivity|]. rewrite u01_read_record by lia. cbv zeta. ceq.
    split; [apply P0; [reflexivity|exact P]|]. intros F. inversion F; subst. rewrite !needles_cons, Q by assumption. rewrite E4. reflexivity. }
  destruct (Z.eqb_spec (cmd_of (scmd e)) NEEDLE_SET) as [E5|N5].
  { destruct (IH x y Hl Hql Hnl) as (bs & E & P & Q). rewrite E5. ceq. destruct (Hne E5) as (n & En & Bn). pose proof (u01_needle_range n Bn) as Br.
    assert (Eg : (let needle := if n >=? 15 then n mod 15 + 1 else n in Z.lor (u01_base 0 0) 8 + needle) = Z.lor (u01_base 0 0) (8 + u01_needle n)).
    { rewrite (proj1 (u01_ctrl 0 0 8 ltac:(lia))), (proj1 (u01_ctrl 0 0 (8 + u01_needle n) ltac:(lia))). unfold u01_needle.
      rewrite Z.geb_leb. destruct (15 <=? n); lia. }
    exists (Z.lor (u01_base 0 0) (8 + u01_needle n) :: Z.abs 0 :: Z.abs 0 :: bs). split.
    { unfold needle_of in En. destruct (decode_embroidery_command (scmd e)) as [[[f0 t0] n0] o0]. subst n0. cbv zeta in Eg |- *. rewrite Eg.
      apply u01_record; try assumption; lia. }
    rewrite u01_read_record by lia. cbv zeta. change (negb (0 =? 0) || negb (0 =? 0)) with false. cbn iota.
    set (v := u01_needle n) in *.
    destruct (Z.eqb_spec v 0) as [Z0|Z0].
    { rewrite Z0. ceq. change (8 + 0) with 8. ceq. split; [apply P0; [reflexivity|exact P]|].
      intros F. inversion F as [|? ? Hf _]; subst. destruct (Hf E5) as (n' & En' & Bn'). exfalso. rewrite En in En'. injection En' as <-.
      unfold v, u01_needle in Z0. destruct (Z.leb_spec 15 n); lia. }
    repeat match goal with |- context [if 8 + v =? ?k then _ else _] => replace (8 + v =? k) with false by lia; cbn iota end.
    replace ((9 <=? 8 + v) && (8 + v <=? 23)) with true by lia. replace (8 + v - 8) with v by lia.
    destruct (needle_only v ltac:(lia)) as [K1 K2].
    split; [apply P0; [rewrite K2; reflexivity|exact P]|].
    intros F. inversion F; subst. rewrite !needles_cons, Q by assumption. cbn [scmd]. rewrite K1, K2, E5, En. reflexivity. }
  destruct (Z.eqb_spec (cmd_of (scmd e)) END) as [E6|N6].
  { exists [0xF8; 0; 0]. split; [reflexivity|]. split; reflexivity. }
  destruct (IH x y Hl Hql Hnl) as (bs & E & P & Q). exists bs. split; [exact E|].
  rewrite !needles_cons. destruct (Z.eqb_spec (cmd_of (scmd e)) NEEDLE_SET); [contradiction|]. split.
  - cbn [apply_rel]. rewrite Hx, Hy, !Z.add_0_r, points_cons. cbn [scmd]. destruct (Z.eqb_spec (cmd_of (scmd e)) STITCH); [contradiction|]. exact P.
  - intros F. inversion F; subst. apply Q. assumption.
Qed.

(** ** Walks without rounding *)
Lemma near_step_any : forall r m x xx x', near x xx -> good r (inject_Z m) x x' -> - (m + 1) <= qz_q x' xx <= m + 1.
Proof.
  intros r m x xx x' [N1 N2] [G1 G2]. split.
  - apply q_round_ge. rewrite inject_Z_opp, inject_Z_plus. change (inject_Z 1) with 1%Q. lra.
  - apply q_round_le. rewrite inject_Z_plus. change (inject_Z 1) with 1%Q. lra.
Qed.
Lemma walk_written_any : forall r m l x y xx yy, walk (good r (inject_Z m)) x y l -> near x xx -> near y yy ->
  iwalk (m + 1) xx yy (apply_rel xx yy (quantise qz_q xx yy l)).
Proof.
  induction l as [|s l IH]; intros x y xx yy W Nx Ny; [exact I|].
  cbn [quantise apply_rel iwalk sx sy scmd walk] in *. destruct W as [(Gx & Gy & T) W].
  pose proof (near_step_any _ _ _ _ _ Nx Gx) as Bx. pose proof (near_step_any _ _ _ _ _ Ny Gy) as By.
  split; [unfold step_within; lia|]. split.
  - destruct T as [T|[Ex Ey]]; [left; exact T|right].
    rewrite (near_stay _ _ Nx _ Ex), (near_stay _ _ Ny _ Ey). lia.
  - apply (IH (sx s) (sy s)); [exact W|apply near_next|apply near_next].
Qed.
Lemma iwalk_machine : forall m l px py, iwalk m px py (apply_rel px py l) ->
  Forall (fun e => cmd_of (scmd e) <> SEQUIN_EJECT) l -> Forall (machine_ev m) l.
Proof.
  induction l as [|d l IH]; intros px py H Hs; [constructor|]. cbn [apply_rel iwalk sx sy scmd] in H.
  destruct H as (S & T & W). inversion Hs as [|? ? Hd Hl]; subst. constructor; [|exact (IH _ _ W Hl)].
  unfold step_within in S. unfold machine_ev. split; [lia|]. split; [lia|].
  unfold travels in T. unfold cmd_of in *. change COMMAND_MASK with 255 in *. destruct T as [[T|[T|T]]|T]; [left; exact T|right; left; exact T|contradiction|right; right; lia].
Qed.

(** ** Needle points, with or without rounding *)
Section Source.
Variables (qcos qsin : Q -> Q) (qorient : Q -> Q -> Q -> Q -> Q -> Q * Q).
Notation N := (QNum qcos qsin qorient).

Lemma sewn_half : forall (set : settings N) (a : stitch Q) q z, untransformed qcos qsin qorient set ->
  sewn_at (N := N) set a = Ok q -> near_point q z -> half_unit a z.
Proof.
  intros set a q z U E Np. destruct (s_round N set) as [[|]|] eqn:R.
  - destruct (sewn_rounded qcos qsin qorient set a q U R E) as [W A]. eapply close_half; [exact A|]. apply near_whole; assumption.
  - destruct U as (U1 & U2 & U3). unfold sewn_at in E. unfold init_matrix in E. rewrite U1, U2, U3, R in E.
    cbn [point_in_matrix_space get_identity m0 m1 m2 m3 m4 m5 m6 m7 m8 f0 f1 fadd fmul fround QNum bindr] in E.
    injection E as <-. destruct Np as [[N1 _] [N2 _]]. cbn [fst snd] in N1, N2. unfold half_unit. split; [|split; [|split]]; lra.
  - destruct U as (U1 & U2 & U3). unfold sewn_at in E. unfold init_matrix in E. rewrite U1, U2, U3, R in E.
    cbn [point_in_matrix_space get_identity m0 m1 m2 m3 m4 m5 m6 m7 m8 f0 f1 fadd fmul fround QNum bindr] in E.
    injection E as <-. destruct Np as [[N1 _] [N2 _]]. cbn [fst snd] in N1, N2. unfold half_unit. split; [|split; [|split]]; lra.
Qed.
Lemma subseq_near_any : forall qs ps, EncoderSpec.subseq qs ps -> forall zs, Forall2 near_point ps zs ->
  exists ws, EncoderSpec.subseq ws zs /\ Forall2 near_point qs ws.
Proof.
  induction 1 as [|p q l _ IH|p q l _ IH]; intros zs F.
  - inversion F; subst. exists []. split; constructor.
  - inversion F as [|? z ? zs' Hz Fz]; subst. destruct (IH _ Fz) as (ws & A & B). exists ws. split; [constructor; exact A|exact B].
  - inversion F as [|? z ? zs' Hz Fz]; subst. destruct (IH _ Fz) as (ws & A & B).
    exists (z :: ws). split; [constructor; exact A|]. constructor; assumption.
Qed.
Lemma encoded_points_any : forall (set : settings N) (p : pattern N) out threads,
  untransformed qcos qsin qorient set ->
  Forall (fun a => has_command matrix_commands a = false) (until_end (p_stitches N p)) ->
  transcode N set p = Ok (out, threads) ->
  stitches_kept (p_stitches N p) (needle_points (written out)) /\
  (plain_settings set ->
   Forall (fun a => has_command (matrix_commands ++ stitching_commands) a = false) (until_end (p_stitches N p)) ->
   stitches_exact (p_stitches N p) (needle_points (written out))).
Proof.
  intros set p out threads U Hm E. split.
  - destruct (C24_penetrations_kept N set p out threads E Hm) as (qs & Q & S).
    destruct (subseq_near_any _ _ S _ (points_written out)) as (zs & B & D). exists zs. split; [|exact B].
    eapply forall2_compose; [|exact Q|exact D]. intros a b c. apply sewn_half. exact U.
  - intros Hp Hs. pose proof (C24_no_other_penetrations N set p out threads E Hp Hs) as Q. unfold stitches_exact.
    eapply forall2_compose; [|exact Q|exact (points_written out)]. intros a b c. apply sewn_half. exact U.
Qed.
End Source.
