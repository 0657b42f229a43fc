(** C230: the work of a design in an EXP file. *)
From Coq Require Import ZArith QArith List Bool Lia.
From Verif Require Import PyBase EmbConst StreamModel StreamSpec FunctionsModel ThreadModel NumModel NumQ MatrixModel EncoderModel
  EncoderProofs EncoderSpec QuantModel ExpModel MetricSpec SettingsModel PropertiesEncoder PropertiesSettings PropertiesPipeline FidelitySpec PropertiesFidelity PropertiesWork.
Import ListNotations.
Open Scope Z_scope.

(** EXP has one command for stops and colour changes. *)
Definition without_stops (k : Z) : Z := if k =? STOP then COLOR_CHANGE else k.

Lemma work_closed l : work (StreamSpec.closed l) = work l.
Proof. unfold StreamSpec.closed. destruct (needle_after 0 0 l) as [x y]. rewrite work_app. apply app_nil_r. Qed.
Lemma work_cons C (a : stitch C) l : work (a :: l) = when (is_work (cmd_of (scmd a))) (cmd_of (scmd a)) ++ work l.
Proof. unfold work. cbn [map filter]. change (Z.land (scmd a) 255) with (cmd_of (scmd a)). destruct (is_work _); reflexivity. Qed.
Lemma work_renamed C (l : list (stitch C)) : work (renamed (as_color_change [END]) l) = map without_stops (work l).
Proof.
  induction l as [|a l IH]; [reflexivity|]. rewrite work_cons, map_app, <- IH. clear IH. cbn [renamed]. unfold as_color_change at 1. cbn [existsb]. rewrite orb_false_r.
  assert (R : Z.land (cmd_of (scmd a)) 255 = cmd_of (scmd a)) by (unfold cmd_of, COMMAND_MASK; rewrite <- Z.land_assoc; reflexivity).
  destruct (Z.eqb_spec (cmd_of (scmd a)) END) as [-> | E]; [reflexivity|].
  destruct (Z.eqb_spec (cmd_of (scmd a)) STOP) as [-> | S0]; [reflexivity|].
  rewrite work_cons. cbn [scmd]. change (cmd_of (cmd_of (scmd a))) with (Z.land (cmd_of (scmd a)) 255). rewrite R.
  destruct (is_work (cmd_of (scmd a))); [|reflexivity]. cbn [when map app]. unfold without_stops at 1. rewrite (proj2 (Z.eqb_neq _ _) S0). reflexivity.
Qed.
Lemma commands_of_rel l : forall x y, map scmd (apply_rel x y l) = map scmd l.
Proof. induction l as [|e l IH]; intros x y; cbn [apply_rel map scmd]; [reflexivity|]. rewrite IH. reflexivity. Qed.
Lemma commands_of_quantise C (qz : C -> Z -> Z) l : forall x y, map scmd (quantise qz x y l) = map scmd l.
Proof. induction l as [|e l IH]; intros x y; cbn [quantise map scmd]; [reflexivity|]. rewrite IH. reflexivity. Qed.
Lemma work_commands_only C D (a : list (stitch C)) (b : list (stitch D)) : map scmd a = map scmd b -> work a = work b.
Proof. intros E. unfold work. rewrite <- (map_map scmd (fun k => Z.land k 255) a), <- (map_map scmd (fun k => Z.land k 255) b), E. reflexivity. Qed.
Lemma work_written l : work (written l) = work l.
Proof. apply work_commands_only. unfold written. rewrite commands_of_rel, commands_of_quantise. reflexivity. Qed.

Lemma asked_without_speeds C by_ b (l : list (stitch C)) : Forall (fun a => is_cmd SLOW a = false /\ is_cmd FAST a = false) l -> forall w, all_asked by_ b w l = all_asked by_ true w l.
Proof.
  induction 1 as [|a l [S1 S2] _ IH]; intros w; [reflexivity|]. cbn [all_asked].
  generalize (existsb (fun b0 => sews_src b0) l). intros lt.
  replace (asked by_ b lt w (Z.land (scmd a) 255)) with (asked by_ true lt w (Z.land (scmd a) 255)).
  - destruct (asked by_ true lt w (Z.land (scmd a) 255)) as [o w']. rewrite IH. reflexivity.
  - unfold asked. unfold is_cmd in S1, S2. rewrite S1, S2. reflexivity.
Qed.

Section WorkFile.
Variables (qcos qsin : Q -> Q) (qorient : Q -> Q -> Q -> Q -> Q -> Q * Q).
Notation N := (QNum qcos qsin qorient).
Hypothesis (Hturn : forall t, ~ (qcos t * qcos t + qsin t * qsin t == 0)%Q) (Hdir : direction_bounded qorient).

(** Saved as EXP and loaded, a design has its stitches to within half a unit and between them, in order, the
    cuts and colour changes it asks for, stops being colour changes. *)
Theorem C230_exp : forall (set : settings N) (p : pattern N),
  savable qcos qsin qorient 127 set (p_stitches N p) -> ~ sequins_requested set (p_stitches N p) ->
  plain_settings set -> requested_change set = COLOR_CHANGE -> Forall (fun a => has_command left_out a = false) (until_end (p_stitches N p)) -> breaks_clear (p_stitches N p) ->
  exists out threads, transcode N set p = Ok (out, threads) /\
  let loaded := exp_read (exp_write qz_q out) in
  stitches_exact (p_stitches N p) (needle_points loaded) /\
  work loaded = map without_stops (all_asked COLOR_CHANGE true (mkAsk (match s_explicit_trim N set with Some b => b | None => false end) false false) (until_end (p_stitches N p))).
Proof.
  intros set p V Hq Hp Hc Hl Hb. destruct (C117_exp qcos qsin qorient Hturn Hdir set p V Hq) as (out & ths & E & _ & X). exists out, ths. split; [exact E|]. cbv zeta. split.
  - apply X. split; [exact Hp|]. pose proof (v_matrix _ _ _ _ _ _ V) as M. rewrite Forall_forall in M, Hl |- *. intros a Ha. specialize (M a Ha). specialize (Hl a Ha).
    unfold has_command, left_out in *. rewrite existsb_app in *. apply orb_false_iff in Hl. apply orb_false_iff. split; [exact M|exact (proj1 Hl)].
  - rewrite (C20_exp qcos qsin qorient set p out ths Hdir (v_fit _ _ _ _ _ _ V) (v_source _ _ _ _ _ _ V) (v_speeds _ _ _ _ _ _ V) (v_change _ _ _ _ _ _ V) Hq E).
    rewrite work_closed, work_renamed, work_written. pose proof (C229_work N set p out ths E Hp ltac:(rewrite Hc; left; reflexivity) Hl Hb) as W. rewrite Hc in W. change (F N) with Q in W. rewrite W. clear W. f_equal.
    apply asked_without_speeds. apply Forall_forall. intros a Ha. pose proof (v_speeds _ _ _ _ _ _ V) as S0. unfold no_speeds in S0. rewrite Forall_forall in S0.
    apply S0. exact (until_end_in _ _ Ha).
Qed.
End WorkFile.

Definition worked_design : list (stitch Q) := [mkS (21 # 2) 0 STITCH; mkS 300 0 STITCH; mkS 300 0 TRIM; mkS 9 0 STITCH; mkS 9 0 STOP; mkS 9 9 STITCH; mkS 9 9 COLOR_BREAK; mkS 6 6 STITCH; mkS 6 6 END]%Q.
Example C230_case :
  savable ex_cos ex_sin ex_orient 127 (c116_set (exp_attributes ExNum inject_Z)) worked_design /\
  plain_settings (c116_set (exp_attributes ExNum inject_Z)) /\ requested_change (c116_set (exp_attributes ExNum inject_Z)) = COLOR_CHANGE /\
  Forall (fun a => has_command left_out a = false) (until_end worked_design) /\ breaks_clear worked_design /\
  exists out ths, transcode ExNum (c116_set (exp_attributes ExNum inject_Z)) (mkP ExNum worked_design []) = Ok (out, ths) /\
  work (exp_read (exp_write qz_q out)) = [STITCH; STITCH; TRIM; STITCH; COLOR_CHANGE; STITCH; COLOR_CHANGE; STITCH].
Proof.
  split; [|split; [|split; [|split; [|split]]]].
  - eapply (C116_default_settings ex_cos ex_sin ex_orient [] worked_design); [each|each|each|each|each].
  - split; [left; reflexivity|]. split; [left; reflexivity|]. left. reflexivity.
  - reflexivity.
  - each.
  - left. repeat constructor.
  - do 2 eexists. split; [vm_compute; reflexivity|]. vm_compute. reflexivity.
Qed.
Print Assumptions C230_exp.
