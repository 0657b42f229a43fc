(** C234: the work of a design in a TBF file. *)
From Coq Require Import Ascii String ZArith QArith List Bool Lia.
From Verif Require Import Tactics PyBase EmbConst PatternModel FunctionsModel StreamModel StreamSpec StreamProofs ThreadModel NumModel NumQ MatrixModel EncoderModel
  EncoderProofs EncoderSpec QuantModel QuantProofs MetricSpec SettingsModel TextModel TextProofs HelperModel DstFileModel HelperProofs TbfModel FormatSpec BitLemmas EightBitProofs WholeModel WholeSpec WholeProofs PropertiesEncoder PropertiesSettings
  PropertiesPipeline FidelitySpec FidelityProofs PropertiesFidelity PropertiesWhole NeedleProofs MachineSpec MachineProofs PropertiesMachines
  PropertiesWork PropertiesWorkFile PropertiesWorkU01.
Import ListNotations.
Open Scope Z_scope.

(** Work without cuts. *)
Definition uncut (l : list Z) : list Z := filter (fun k => negb (k =? TRIM)) l.
Lemma uncut_app a b : uncut (a ++ b) = uncut a ++ uncut b.
Proof. apply filter_app. Qed.
(** A jump in place. *)
Definition idle_jump (e : rel) : Prop := cmd_of (scmd e) = JUMP /\ sx e = 0 /\ sy e = 0.

Lemma tbf_work : forall l order evs, Forall (machine_ev 127) l -> Forall needle_fine l -> Forall no_color_change l -> Forall quiet_ev l ->
  tbf_read_loop (map nval (tbf_needles l) ++ order) (tbf_loop l) = Ok evs ->
  uncut (work evs) = uncut (work (before_end l)) /\ (Forall (fun e => ~ idle_jump e) l -> work evs = work (before_end l)).
Proof.
  induction l as [|e l IH]; intros order evs H Hn Hc Hq Er.
  { injection Er as <-. split; reflexivity. }
  inversion H as [|? ? (Bx & By & Hm) Hl]; subst. inversion Hn as [|? ? Hne Hnl]; subst. inversion Hc as [|? ? Hce Hcl]; subst. inversion Hq as [|? ? (Q1 & Q2) Hql]; subst.
  assert (Eo : map nval (tbf_needles (e :: l)) ++ order =
    if cmd_of (scmd e) =? NEEDLE_SET then nval (needle_of (scmd e)) :: map nval (tbf_needles l) ++ order else map nval (tbf_needles l) ++ order).
  { unfold tbf_needles. cbn [filter]. destruct (_ =? _); reflexivity. }
  rewrite Eo in Er. clear Eo. cbn [tbf_loop before_end] in *. cbv zeta in Er.
  assert (Same : forall (t : list rel) c, work [mkS 0 0 c : rel] = work [e] -> uncut (work t) = uncut (work (before_end l)) /\ (Forall (fun e => ~ idle_jump e) l -> work t = work (before_end l)) ->
    forall x y, uncut (work (mkS x y c :: t)) = uncut (work (e :: before_end l)) /\ (Forall (fun e => ~ idle_jump e) (e :: l) -> work (mkS x y c :: t) = work (e :: before_end l))).
  { intros t c W [A B] x y. rewrite (work_cons _ (mkS x y c) t), (work_cons _ e). rewrite !work_cons, !app_nil_r in W. cbn [scmd] in *. rewrite W, !uncut_app, A. split; [reflexivity|]. intros F. rewrite B by (inversion F; assumption). reflexivity. }
  destruct (tbf_read_loop (map nval (tbf_needles l) ++ order) (tbf_loop l)) as [t|] eqn:Et.
  2: { exfalso. revert Er. destruct (Z.eqb_spec (cmd_of (scmd e)) NEEDLE_SET) as [E5|N5]; [rewrite E5; ceq; cbn [app tbf_read_loop]; ceq; rewrite Et; discriminate|].
    destruct (cmd_of (scmd e) =? STITCH); [cbn [app tbf_read_loop]; ceq; rewrite Et; discriminate|].
    destruct (cmd_of (scmd e) =? JUMP); [cbn [app tbf_read_loop]; ceq; rewrite Et; discriminate|].
    destruct (cmd_of (scmd e) =? STOP); [cbn [app tbf_read_loop]; ceq; rewrite Et; discriminate|].
    destruct (cmd_of (scmd e) =? TRIM); [cbn [app tbf_read_loop]; ceq; rewrite Et; discriminate|].
    destruct (Z.eqb_spec (cmd_of (scmd e)) END) as [E6|N6]; [|rewrite Et; discriminate].
    intros _. destruct (tbf_points l order 0 0 Hl) as (evs' & E' & _). rewrite Et in E'. discriminate. }
  pose proof (IH order t Hl Hnl Hcl Hql Et) as R.
  destruct (Z.eqb_spec (cmd_of (scmd e)) STITCH) as [E1|N1].
  { rewrite E1 in *. change (STITCH =? NEEDLE_SET) with false in Er. change (STITCH =? END) with false. cbn iota in Er. cbn [app tbf_read_loop] in Er. 
    change (128 =? 128) with true in Er. cbn iota in Er. rewrite Et in Er. cbn [bindr] in Er. injection Er as <-. apply Same; [|exact R].
    rewrite !work_cons, E1. reflexivity. }
  destruct (Z.eqb_spec (cmd_of (scmd e)) JUMP) as [E2|N2].
  { rewrite E2 in *. change (JUMP =? NEEDLE_SET) with false in Er. change (JUMP =? END) with false. cbn iota in Er. cbn [app tbf_read_loop] in Er.
    change (144 =? 128) with false in Er. change (144 =? 129) with false in Er. change (144 =? 144) with true in Er. cbn iota in Er. rewrite Et in Er. cbn [bindr] in Er.
    destruct ((Z.land (sx e) 255 =? 0) && (Z.land (- sy e) 255 =? 0)) eqn:Ez; injection Er as <-.
    - rewrite !work_cons, E2. split; [exact (proj1 R)|]. intros F. exfalso. inversion F as [|? ? Hi _]; subst. apply Hi.
      apply andb_true_iff in Ez as [Z1 Z2]. apply Z.eqb_eq in Z1, Z2. apply land_0 in Z1, Z2; try lia. split; [exact E2|]. lia.
    - apply Same; [|exact R]. rewrite !work_cons, E2. reflexivity. }
  destruct (Z.eqb_spec (cmd_of (scmd e)) STOP) as [E3|N3].
  { rewrite E3 in *. change (STOP =? NEEDLE_SET) with false in Er. change (STOP =? END) with false. cbn iota in Er. cbn [app tbf_read_loop] in Er.
    change (64 =? 128) with false in Er. change (64 =? 129) with false in Er. change (64 =? 144) with false in Er. change (64 =? 64) with true in Er. cbn iota in Er. rewrite Et in Er. cbn [bindr] in Er.
    injection Er as <-. apply Same; [|exact R]. rewrite !work_cons, E3. reflexivity. }
  destruct (Z.eqb_spec (cmd_of (scmd e)) TRIM) as [E4|N4].
  { rewrite E4 in *. change (TRIM =? NEEDLE_SET) with false in Er. change (TRIM =? END) with false. cbn iota in Er. cbn [app tbf_read_loop] in Er.
    change (134 =? 128) with false in Er. change (134 =? 129) with false in Er. change (134 =? 144) with false in Er. change (134 =? 64) with false in Er. change (134 =? 134) with true in Er. cbn iota in Er. rewrite Et in Er. cbn [bindr] in Er.
    injection Er as <-. apply Same; [|exact R]. rewrite !work_cons, E4. reflexivity. }
  destruct (Z.eqb_spec (cmd_of (scmd e)) NEEDLE_SET) as [E5|N5].
  { destruct (Hne E5) as (n & En & Bn). rewrite E5, En in *. change (NEEDLE_SET =? END) with false. cbn iota in Er. cbn [app tbf_read_loop] in Er.
    change (129 =? 128) with false in Er. change (129 =? 129) with true in Er. cbn iota in Er. rewrite Et in Er. cbn [bindr nval] in Er.
    rewrite land_ff, Z.mod_small in Er by lia. destruct (Z.eqb_spec n 0) as [?|_]; [lia|]. injection Er as <-. destruct (needle_only n ltac:(lia)) as [K1 K2].
    apply Same; [|exact R]. rewrite !work_cons. cbn [scmd]. rewrite K2, E5. reflexivity. }
  destruct (Z.eqb_spec (cmd_of (scmd e)) END) as [E6|N6].
  { cbn [app tbf_read_loop] in Er. change (143 =? 128) with false in Er. change (143 =? 129) with false in Er. change (143 =? 144) with false in Er. change (143 =? 64) with false in Er. change (143 =? 134) with false in Er.
    injection Er as <-. split; reflexivity. }
  rewrite Et in Er. injection Er as <-. rewrite work_cons.
  assert (Nw : is_work (cmd_of (scmd e)) = false).
  { unfold is_work, work_commands, existsb. unfold no_color_change in Hce.
    repeat match goal with |- context [cmd_of (scmd e) =? ?c] => rewrite (proj2 (Z.eqb_neq (cmd_of (scmd e)) c)) by assumption end. reflexivity. }
  rewrite Nw. cbn [when app]. split; [exact (proj1 R)|]. intros F. apply (proj2 R). inversion F; assumption.
Qed.

Section WorkTbf.
Variables (qcos qsin : Q -> Q) (qorient : Q -> Q -> Q -> Q -> Q -> Q * Q).
Notation N := (QNum qcos qsin qorient).
Hypothesis (Hturn : forall t, ~ (qcos t * qcos t + qsin t * qsin t == 0)%Q) (Hdir : direction_bounded qorient).

(** Saved as TBF and loaded: the stitches within half a unit, and between them, in order, the needle changes and
    stops the design asks for; the cuts too, if nothing jumps in place.
    Missing for the full claim: the cuts in general, see C234_refuted. *)
Theorem C234_tbf_partial : forall info (set : settings N) (p : pattern N),
  machine_savable qcos qsin qorient 127 set (p_stitches N p) -> s_round N set = Some true -> tbf_colors info = map t_color (p_threads N p) ->
  no_speeds (p_stitches N p) -> plain_settings set ->
  Forall (fun a => has_command left_out a = false) (until_end (p_stitches N p)) -> breaks_clear (p_stitches N p) ->
  exists out, transcode N set p = Ok (out, map Own (p_threads N p)) /\
  (tbf_room info out -> needles_count_from_one out ->
   exists file l, tbf_write info out = Ok file /\ tbf_read_file file = Ok (shown_name info, map (fun t => Some (t_color t)) (p_threads N p), l) /\
     let asks := all_asked NEEDLE_SET true (mkAsk (match s_explicit_trim N set with Some b => b | None => false end) false false) (until_end (p_stitches N p)) in
     stitches_exact (p_stitches N p) (needle_points l) /\ uncut (work l) = uncut asks /\
     (Forall (fun e => ~ idle_jump e) (quantise qz_q 0 0 out) -> work l = asks)).
Proof.
  intros info set p V R Hi Hs Hp Hlo Hb. destruct (machine_encodes qcos qsin qorient Hturn 127 set p ltac:(lia) V) as (out & E & Hn). exists out. split; [exact E|]. intros room Zr.
  pose proof (w_change _ _ _ _ _ _ V) as Hc.
  pose proof (C229_work N set p out _ E Hp ltac:(rewrite Hc; right; left; reflexivity) Hlo Hb) as Wa. rewrite Hc in Wa. change (F N) with Q in Wa.
  pose proof (lengths_walk qcos qsin qorient Hdir 127 set p _ _ ltac:(lia) (w_fit _ _ _ _ _ _ V) (w_source _ _ _ _ _ _ V) E) as W.
  cbn [init_config rounding] in W. rewrite R in W. cbn [get] in W.
  pose proof (walk_written 127 out 0 0 0 0 W near_0 near_0) as W'.
  pose proof (iwalk_machine 127 _ 0 0 W' (no_ejects qcos qsin qorient set p _ _ (w_sequins _ _ _ _ _ _ V) E)) as M.
  set (evl := quantise qz_q 0 0 out) in *.
  assert (Eo : exists order, tbf_thread_order out = Ok order /\ List.length order = 256%nat /\
     order = map nval (tbf_needles evl) ++ repeat 0 (256 - List.length (tbf_needles out))).
  { unfold tbf_thread_order. assert (L : Z.of_nat (List.length (tbf_needles out)) = needle_changes out) by apply needles_length.
    destruct room as (_ & _ & _ & _ & _ & _ & Rk). change (F N) with Q in *. rewrite L.
    destruct (Z.ltb_spec 256 (needle_changes out)) as [?|_]; [lia|].
    assert (X : existsb (fun n : option Z => match n with None => true | Some _ => false end) (tbf_needles out) = false).
    { clear - Hn. induction Hn as [|a l Ha _ IH]; [reflexivity|]. unfold tbf_needles in *. cbn [filter].
      destruct (cmd_of (scmd a) =? NEEDLE_SET) eqn:K; [|exact IH]. cbn [map existsb]. rewrite IH, orb_false_r.
      destruct (Ha K) as (n & En & _). unfold needle_of in En. destruct (decode_embroidery_command (scmd a)) as [[[? ?] ?] ?]. subst. reflexivity. }
    rewrite X. eexists. split; [reflexivity|]. split; [rewrite app_length, map_length, repeat_length; lia|].
    unfold evl. rewrite tbf_needles_any. reflexivity. }
  destruct Eo as (order & E1 & E2 & E3).
  destruct (C22_single_end N set p out _ E) as (body & e & Eo & _). change (F N) with Q in *.
  assert (room' := room). assert (E1' := E1). rewrite Eo in room', E1'.
  destruct (tbf_layout info body e order room' E1' E2) as (file & x0 & y0 & x1 & y1 & Wf & X & Y & F1 & F2 & F3 & F4 & F5 & F6 & F7 & F8 & F9 & F10 & F11 & F12).
  rewrite <- Eo in *.
  destruct (tbf_points evl (repeat 0 (256 - List.length (tbf_needles out))) 0 0 M) as (evs & R1 & R2 & R3).
  exists file, (closed (apply_rel 0 0 evs)). split; [exact Wf|].
  assert (Rd : tbf_read order (tbf_body qz_q out) = Ok (closed (apply_rel 0 0 evs))).
  { unfold tbf_read, tbf_body. fold evl. rewrite E3, R1. cbn [bindr]. rewrite apply_rel_end. reflexivity. }
  split.
  { unfold tbf_read_file. unfold field in F1, F10.
    change (firstn 16 (skipn 131 file)) with (firstn 0x10 (skipn 0x83 file)) in *. rewrite F1.
    assert (A : Forall Utf8Proofs.ascii (pad_right 16 (tbf_title info))).
    { destruct room as (Rn & _). apply ascii_pad_right. unfold tbf_title, short_ascii in *. destruct (tbf_name info); [apply Rn|]. asc. }
    rewrite (proj2 (Utf8Proofs.utf8_ascii _ A)), F10, F12, Rd. cbn [bindr]. rewrite F11, Hi, map_map, DstHeaderProofs.strip_pad_right. reflexivity. }
  cbv zeta. split.
  { rewrite points_closed, R2, before_end_apply. change (apply_rel 0 0 evl) with (written out). rewrite (written_end qcos qsin qorient set p _ _ E).
    apply (encoded_points_any qcos qsin qorient set p out _ (w_plain _ _ _ _ _ _ V) (w_matrix _ _ _ _ _ _ V) E); [exact Hp|].
    pose proof (w_matrix _ _ _ _ _ _ V) as Mx. rewrite Forall_forall in Mx, Hlo |- *. intros a Ha. specialize (Mx a Ha). specialize (Hlo a Ha).
    unfold has_command, left_out in *. rewrite existsb_app in *. apply orb_false_iff in Hlo. apply orb_false_iff. split; [exact Mx|exact (proj1 Hlo)]. }
  assert (Nc : Forall no_color_change evl).
  { apply Forall_forall. intros a Ha Ka. apply (asked_no_color_change _ (match s_writes_speeds N set with Some b => b | None => true end) (until_end (p_stitches N p))
      (mkAsk (match s_explicit_trim N set with Some b => b | None => false end) false false)).
    change (F N) with Q in *. rewrite <- Wa. rewrite <- (work_commands_only _ _ (quantise qz_q 0 0 out) out (commands_of_quantise _ _ _ _ _)).
    unfold work. apply filter_In. split; [|reflexivity]. apply in_map_iff. exists a. split; [exact Ka|exact Ha]. }
  destruct (tbf_work evl _ evs M (needles_fine out Hn Zr) Nc (no_speed_commands qcos qsin qorient set p _ _ Hs E) R1) as [T1 T2].
  assert (B : work (before_end evl) = all_asked NEEDLE_SET true (mkAsk (match s_explicit_trim N set with Some b => b | None => false end) false false) (until_end (p_stitches N p))).
  { destruct (end_last_written out (C22_single_end N set p out _ E)) as [L Xe].
    rewrite <- (work_rel (before_end _) 0 0), before_end_apply. change (apply_rel 0 0 evl) with (written out).
    replace (work (before_end (written out))) with (work (written out)) by (destruct L as [L|L]; [rewrite L; reflexivity|symmetry; apply work_before_end; assumption]).
    rewrite work_written, Wa. apply asked_without_speeds. apply Forall_forall. intros a Ha. unfold no_speeds in Hs. rewrite Forall_forall in Hs.
    apply Hs. exact (until_end_in _ _ Ha). }
  rewrite work_closed, work_rel. split; [rewrite T1; exact (f_equal uncut B)|]. intros Fi. rewrite (T2 Fi). exact B.
Qed.
End WorkTbf.

(** The full claim is false: a jump in place is read as a cut. *)
Definition idle_design : list (stitch Q) := [mkS 0 0 STITCH; mkS 10 0 STITCH; mkS 10 0 JUMP; mkS 20 0 STITCH; mkS 20 0 END]%Q.
Definition tbf_settings : settings ExNum := c123_set (tbf_attributes ExNum inject_Z).
Theorem C234_refuted : exists p out ths file name cs l,
  machine_savable ex_cos ex_sin ex_orient 127 tbf_settings (p_stitches ExNum p) /\ s_round ExNum tbf_settings = Some true /\ tbf_colors c123_info = map t_color (p_threads ExNum p) /\
  no_speeds (p_stitches ExNum p) /\ plain_settings tbf_settings /\
  Forall (fun a => has_command left_out a = false) (until_end (p_stitches ExNum p)) /\ breaks_clear (p_stitches ExNum p) /\
  transcode ExNum tbf_settings p = Ok (out, ths) /\ needles_count_from_one out /\ tbf_write c123_info out = Ok file /\ tbf_read_file file = Ok (name, cs, l) /\
  In TRIM (work l) /\ ~ In TRIM (all_asked NEEDLE_SET true (mkAsk false false false) (until_end (p_stitches ExNum p))).
Proof.
  exists (mkP ExNum idle_design c123_threads). do 6 eexists.
  split; [eapply (C123_default_settings ex_cos ex_sin ex_orient [] idle_design); [each|each|each|each|each]|].
  split; [reflexivity|]. split; [reflexivity|]. split; [each|].
  split; [split; [left; reflexivity|]; split; [left; reflexivity|]; left; reflexivity|].
  split; [each|]. split; [left; repeat constructor|].
  split; [vm_compute; reflexivity|]. split; [vm_compute; intuition discriminate|]. split; [vm_compute; reflexivity|]. split; [vm_compute; reflexivity|].
  split; vm_compute; intuition discriminate.
Qed.
(** A design with a trim, a stop and a colour change that meets the conditions of C234_tbf_partial, with no jump in place. *)
Example C234_case :
  machine_savable ex_cos ex_sin ex_orient 127 tbf_settings worked_design /\ no_speeds worked_design /\ plain_settings tbf_settings /\
  Forall (fun a => has_command left_out a = false) (until_end worked_design) /\ breaks_clear worked_design /\
  exists out ths file name cs l, transcode ExNum tbf_settings (mkP ExNum worked_design c123_threads) = Ok (out, ths) /\ needles_count_from_one out /\
  Forall (fun e => ~ idle_jump e) (quantise qz_q 0 0 out) /\
  tbf_write c123_info out = Ok file /\ tbf_read_file file = Ok (name, cs, l) /\
  work l = [NEEDLE_SET; STITCH; STITCH; TRIM; STITCH; STOP; STITCH; TRIM; NEEDLE_SET; STITCH].
Proof.
  split; [|split; [|split; [|split; [|split]]]].
  - eapply (C123_default_settings ex_cos ex_sin ex_orient [] worked_design); [each|each|each|each|each].
  - each.
  - split; [left; reflexivity|]. split; [left; reflexivity|]. left. reflexivity.
  - each.
  - left. repeat constructor.
  - do 6 eexists. split; [vm_compute; reflexivity|]. split; [vm_compute; intuition discriminate|].
    split; [vm_compute; repeat constructor; intros (? & ? & ?); discriminate|]. split; [vm_compute; reflexivity|]. split; [vm_compute; reflexivity|]. vm_compute. reflexivity.
Qed.
Print Assumptions C234_tbf_partial.
Print Assumptions C234_refuted.
