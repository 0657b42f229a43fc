(** C232: the work of a design in a U01 file. *)
From Coq Require Import ZArith QArith List Bool Lia.
From Verif Require Import Tactics PyBase EmbConst FunctionsModel StreamModel StreamSpec StreamProofs ThreadModel NumModel NumQ MatrixModel EncoderModel
  EncoderProofs EncoderSpec QuantModel QuantProofs MetricSpec SettingsModel HelperModel HelperProofs U01Model FormatSpec BitLemmas EightBitProofs WholeModel WholeSpec WholeProofs PropertiesEncoder PropertiesSettings
  PropertiesPipeline FidelitySpec FidelityProofs PropertiesFidelity PropertiesWhole NeedleProofs MachineSpec MachineProofs PropertiesMachines
  PropertiesWork PropertiesWorkFile.
Import ListNotations.
Open Scope Z_scope.

Definition no_color_change (e : rel) : Prop := cmd_of (scmd e) <> COLOR_CHANGE.
Lemma u01_work : forall l bs, Forall (machine_ev 255) l -> Forall quiet_ev l -> Forall needle_fine l -> Forall no_color_change l ->
  u01_loop false false l = Ok bs -> work (u01_read_loop bs) = work (before_end l).
Proof.
  induction l as [|e l IH]; intros bs H Hq Hn Hc Eb.
  { injection Eb as <-. reflexivity. }
  inversion H as [|? ? (Bx & By & Hm) Hl]; subst. inversion Hq as [|? ? (Q1 & Q2) Hql]; subst. inversion Hn as [|? ? Hne Hnl]; subst. inversion Hc as [|? ? Hce Hcl]; subst.
  cbn [u01_loop before_end] in *.
  destruct (Z.eqb_spec (cmd_of (scmd e)) SLOW) as [?|_]; [contradiction|]. destruct (Z.eqb_spec (cmd_of (scmd e)) FAST) as [?|_]; [contradiction|].
  assert (Tail : forall k, 0 <= k <= 31 -> (do h <- py_bytearray [Z.lor (u01_base (sx e) (sy e)) k; Z.abs (sy e); Z.abs (sx e)]; do t <- u01_loop false false l; Ok (h ++ t)) = Ok bs ->
     exists r, bs = Z.lor (u01_base (sx e) (sy e)) k :: Z.abs (sy e) :: Z.abs (sx e) :: r /\ work (u01_read_loop r) = work (before_end l)).
  { intros k Hk E. destruct (u01_loop false false l) as [r|] eqn:Er.
    - rewrite (u01_record _ _ k _ r Hk Bx By eq_refl) in E. injection E as <-. exists r. split; [reflexivity|]. exact (IH r Hl Hql Hnl Hcl eq_refl).
    - destruct (py_bytearray [Z.lor (u01_base (sx e) (sy e)) k; Z.abs (sy e); Z.abs (sx e)]); cbn [bindr] in E; discriminate E. }
  destruct (Z.eqb_spec (cmd_of (scmd e)) STITCH) as [E1|N1].
  { destruct (u01_ctrl (sx e) (sy e) 0 ltac:(lia)) as (E0 & _). rewrite Z.add_0_r in E0. cbn iota in Eb. rewrite <- E0 in Eb.
    destruct (Tail 0 ltac:(lia) Eb) as (r & -> & W). rewrite u01_read_record by lia. cbv zeta. rewrite E1. ceq. rewrite !work_cons, W, E1. reflexivity. }
  destruct (Z.eqb_spec (cmd_of (scmd e)) JUMP) as [E2|N2].
  { cbn iota in Eb. destruct (Tail 1 ltac:(lia) Eb) as (r & -> & W). rewrite u01_read_record by lia. cbv zeta. rewrite E2. ceq. rewrite !work_cons, W, E2. reflexivity. }
  destruct Hm as [Hm|[Hm|[Hx Hy]]]; try contradiction. rewrite Hx, Hy in *.
  destruct (Z.eqb_spec (cmd_of (scmd e)) STOP) as [E3|N3].
  { destruct (Tail 8 ltac:(lia) Eb) as (r & -> & W). rewrite u01_read_record by lia. cbv zeta. rewrite E3. ceq. rewrite !work_cons, W, E3. reflexivity. }
  destruct (Z.eqb_spec (cmd_of (scmd e)) TRIM) as [E4|N4].
  { destruct (Tail 7 ltac:(lia) Eb) as (r & -> & W). rewrite u01_read_record by lia. cbv zeta. rewrite E4. ceq. rewrite !work_cons, W, E4. reflexivity. }
  destruct (Z.eqb_spec (cmd_of (scmd e)) NEEDLE_SET) as [E5|N5].
  { rewrite E5. ceq. destruct (Hne E5) as (n & En & Bn). pose proof (u01_needle_range n ltac:(lia)) as Br.
    assert (Eg : (let needle := if n >=? 15 then n mod 15 + 1 else n in Z.lor (u01_base 0 0) 8 + needle) = Z.lor (u01_base 0 0) (8 + u01_needle n)).
    { rewrite (proj1 (u01_ctrl 0 0 8 ltac:(lia))), (proj1 (u01_ctrl 0 0 (8 + u01_needle n) ltac:(lia))). unfold u01_needle.
      rewrite Z.geb_leb. destruct (15 <=? n); lia. }
    assert (Nz : u01_needle n <> 0) by (unfold u01_needle; destruct (Z.leb_spec 15 n); lia).
    unfold needle_of in En. destruct (decode_embroidery_command (scmd e)) as [[[f0 t0] n0] o0]. subst n0. cbv zeta in Eg, Eb. rewrite Eg in Eb.
    destruct (Tail (8 + u01_needle n) ltac:(lia) Eb) as (r & -> & W). rewrite u01_read_record by lia. cbv zeta. change (negb (0 =? 0) || negb (0 =? 0)) with false. cbn iota.
    set (v := u01_needle n) in *.
    repeat match goal with |- context [if 8 + v =? ?k then _ else _] => replace (8 + v =? k) with false by lia; cbn iota end.
    replace ((9 <=? 8 + v) && (8 + v <=? 23)) with true by lia. replace (8 + v - 8) with v by lia.
    destruct (needle_only v ltac:(lia)) as [K1 K2]. rewrite !work_cons, W. cbn [scmd]. rewrite K2, E5. reflexivity. }
  destruct (Z.eqb_spec (cmd_of (scmd e)) END) as [E6|N6].
  { injection Eb as <-. reflexivity. }
  rewrite (IH bs Hl Hql Hnl Hcl Eb). rewrite work_cons.
  replace (is_work (cmd_of (scmd e))) with false; [reflexivity|]. unfold is_work, work_commands, existsb. unfold no_color_change in Hce.
  repeat match goal with |- context [cmd_of (scmd e) =? ?c] => rewrite (proj2 (Z.eqb_neq (cmd_of (scmd e)) c)) by assumption end. reflexivity.
Qed.
(** Where threads are changed by needles there are no colour changes. *)
Lemma asked_no_color_change C speeds (l : list (stitch C)) : forall w, ~ In COLOR_CHANGE (all_asked NEEDLE_SET speeds w l).
Proof.
  induction l as [|a l IH]; intros w; [intros []|]. cbn [all_asked].
  generalize (existsb (fun b => sews_src b) l). intros lt.
  assert (G : ~ In COLOR_CHANGE (fst (asked NEEDLE_SET speeds lt w (Z.land (scmd a) 255)))).
  { generalize (Z.land (scmd a) 255). intros k. unfold asked.
    repeat match goal with |- context [k =? ?c] => destruct (Z.eqb_spec k c) as [-> | ?]; [cbn [orb]; destruct w as [[] [] []], lt, speeds; vm_compute; intuition discriminate|] end.
    intros []. }
  destruct (asked NEEDLE_SET speeds lt w (Z.land (scmd a) 255)) as [o w']. cbn [fst] in G. intros Hin. apply in_app_or in Hin as [Hin|Hin]; [exact (G Hin)|exact (IH w' Hin)].
Qed.
Lemma work_rel l : forall x y, work (apply_rel x y l) = work l.
Proof. intros x y. apply work_commands_only. apply commands_of_rel. Qed.
Lemma work_before_end C (l : list (stitch C)) : (exists a, l = before_end l ++ [a]) -> Exists (fun s => cmd_of (scmd s) = END) l -> work (before_end l) = work l.
Proof.
  intros (a & E) X.
  assert (Ca : cmd_of (scmd a) = END).
  { apply Exists_exists in X. destruct X as (s & I & Cs). rewrite E in I. apply in_app_or in I as [I|[->|[]]]; [|exact Cs].
    exfalso. clear E a. induction l as [|b l IH]; [exact I|]. cbn [before_end] in I.
    destruct (cmd_of (scmd b) =? END) eqn:Eb; [exact I|]. destruct I as [->|I]; [rewrite Cs in Eb; discriminate|exact (IH I)]. }
  rewrite E at 2. rewrite work_app, work_cons, Ca. symmetry. apply app_nil_r.
Qed.

Section WorkU01.
Variables (qcos qsin : Q -> Q) (qorient : Q -> Q -> Q -> Q -> Q -> Q * Q).
Notation N := (QNum qcos qsin qorient).
Hypothesis (Hturn : forall t, ~ (qcos t * qcos t + qsin t * qsin t == 0)%Q) (Hdir : direction_bounded qorient).

(** Saved as U01 and loaded: the stitches within half a unit, and between them, in order, the cuts, needle
    changes and stops the design asks for. *)
Theorem C232_u01 : forall (set : settings N) (p : pattern N),
  machine_savable qcos qsin qorient 254 set (p_stitches N p) -> no_speeds (p_stitches N p) ->
  plain_settings set -> Forall (fun a => has_command left_out a = false) (until_end (p_stitches N p)) -> breaks_clear (p_stitches N p) ->
  exists out file, transcode N set p = Ok (out, map Own (p_threads N p)) /\ u01_write out = Ok file /\
  (needles_count_from_one out ->
   let loaded := u01_read_file file in
   stitches_exact (p_stitches N p) (needle_points loaded) /\
   work loaded = all_asked NEEDLE_SET true (mkAsk (match s_explicit_trim N set with Some b => b | None => false end) false false) (until_end (p_stitches N p))).
Proof.
  intros set p V Hs Hp Hl Hb. destruct (C124_u01 qcos qsin qorient Hturn Hdir set p V Hs) as (out & file & E & Wf & _ & Px & _).
  exists out, file. split; [exact E|]. split; [exact Wf|]. intros Zr. cbv zeta. split.
  { apply Px. split; [exact Hp|]. pose proof (w_matrix _ _ _ _ _ _ V) as M. rewrite Forall_forall in M, Hl |- *. intros a Ha. specialize (M a Ha). specialize (Hl a Ha).
    unfold has_command, left_out in *. rewrite existsb_app in *. apply orb_false_iff in Hl. apply orb_false_iff. split; [exact M|exact (proj1 Hl)]. }
  pose proof (w_change _ _ _ _ _ _ V) as Hc.
  pose proof (C229_work N set p out _ E Hp ltac:(rewrite Hc; right; left; reflexivity) Hl Hb) as W. rewrite Hc in W. change (F N) with Q in W.
  destruct (machine_encodes qcos qsin qorient Hturn 254 set p ltac:(lia) V) as (out' & E' & Hn). rewrite E in E'. injection E' as <-.
  pose proof (lengths_walk qcos qsin qorient Hdir 254 set p _ _ ltac:(lia) (w_fit _ _ _ _ _ _ V) (w_source _ _ _ _ _ _ V) E) as Wk.
  pose proof (walk_written_any _ 254 out 0 0 0 0 Wk near_0 near_0) as W'.
  pose proof (iwalk_machine 255 _ 0 0 W' (no_ejects qcos qsin qorient set p _ _ (w_sequins _ _ _ _ _ _ V) E)) as M.
  destruct (u01_points (quantise qz_q 0 0 out) 0 0 M (no_speed_commands qcos qsin qorient set p _ _ Hs E) (needles_there out Hn)) as (bs & E1 & _).
  destruct (C22_single_end N set p out _ E) as (body & e & Eo & Ee & Eb). change (F N) with Q in *.
  assert (E1' : u01_body qz_q (body ++ [e]) = Ok bs) by (rewrite <- Eo; exact E1).
  destruct (u01_layout body e bs E1') as (file' & x0 & y0 & x1 & y1 & Wf' & X & Y & F1 & F2 & F3 & F4 & F5 & F6 & F7 & F8).
  rewrite <- Eo in *. rewrite Wf in Wf'. injection Wf' as <-.
  unfold u01_read_file, u01_read. rewrite F8, apply_rel_end, work_closed, work_rel.
  rewrite (u01_work _ bs M (no_speed_commands qcos qsin qorient set p _ _ Hs E) (needles_fine out Hn Zr)); [| |exact E1].
  - destruct (end_last_written out (C22_single_end N set p out _ E)) as [L Xe].
    rewrite <- (work_rel (before_end _) 0 0), before_end_apply. change (apply_rel 0 0 (quantise qz_q 0 0 out)) with (written out).
    replace (work (before_end (written out))) with (work (written out)) by (destruct L as [L|L]; [rewrite L; reflexivity|symmetry; apply work_before_end; assumption]).
    rewrite work_written, W. apply asked_without_speeds. apply Forall_forall. intros a Ha. unfold no_speeds in Hs. rewrite Forall_forall in Hs.
    apply Hs. exact (until_end_in _ _ Ha).
  - apply Forall_forall. intros a Ha Ka. apply (asked_no_color_change _ (match s_writes_speeds N set with Some b => b | None => true end) (until_end (p_stitches N p))
      (mkAsk (match s_explicit_trim N set with Some b => b | None => false end) false false)).
    change (F N) with Q in *. rewrite <- W. rewrite <- (work_commands_only _ _ (quantise qz_q 0 0 out) out (commands_of_quantise _ _ _ _ _)).
    unfold work. apply filter_In. split; [|reflexivity]. apply in_map_iff. exists a. split; [exact Ka|exact Ha].
Qed.
End WorkU01.

Definition needle_settings : settings ExNum := c123_set (u01_attributes ExNum inject_Z).
Example C232_case :
  machine_savable ex_cos ex_sin ex_orient 254 needle_settings worked_design /\ no_speeds worked_design /\ plain_settings needle_settings /\
  Forall (fun a => has_command left_out a = false) (until_end worked_design) /\ breaks_clear worked_design /\
  exists out file ths, transcode ExNum needle_settings (mkP ExNum worked_design []) = Ok (out, ths) /\ u01_write out = Ok file /\ needles_count_from_one out /\
  work (u01_read_file file) = [NEEDLE_SET; STITCH; STITCH; TRIM; STITCH; STOP; STITCH; NEEDLE_SET; STITCH].
Proof.
  split; [|split; [|split; [|split; [|split]]]].
  - eapply (C123_default_settings ex_cos ex_sin ex_orient [] worked_design); [each|each|each|each|each].
  - each.
  - split; [left; reflexivity|]. split; [left; reflexivity|]. left. reflexivity.
  - each.
  - left. repeat constructor.
  - do 3 eexists. split; [vm_compute; reflexivity|]. split; [vm_compute; reflexivity|]. split; [vm_compute; intuition discriminate|]. vm_compute. reflexivity.
Qed.
Print Assumptions C232_u01.
