(** C233: the work of a design in an XXX file. *)
From Coq Require Import ZArith QArith List Bool Lia.
From Verif Require Import PyBase EmbConst PatternModel FunctionsModel StreamModel StreamSpec StreamProofs ThreadModel NumModel NumQ MatrixModel EncoderModel
  EncoderProofs EncoderSpec QuantModel QuantProofs MetricSpec SettingsModel HelperModel XxxModel FormatSpec EightBitProofs WholeModel WholeSpec WholeProofs PropertiesEncoder PropertiesSettings
  PropertiesPipeline FidelitySpec FidelityProofs PropertiesFidelity PropertiesWhole NeedleProofs MachineSpec MachineProofs PropertiesMachines
  PropertiesWork PropertiesWorkFile PropertiesWorkU01.
Import ListNotations.
Open Scope Z_scope.

Lemma work_renamed_all C (l : list (stitch C)) : work (renamed (as_color_change []) l) = map without_stops (work l).
Proof.
  induction l as [|a l IH]; [reflexivity|]. rewrite work_cons, map_app, <- IH. clear IH. cbn [renamed]. unfold as_color_change at 1. cbn [existsb].
  assert (R : Z.land (cmd_of (scmd a)) 255 = cmd_of (scmd a)) by (unfold cmd_of, COMMAND_MASK; rewrite <- Z.land_assoc; reflexivity).
  destruct (Z.eqb_spec (cmd_of (scmd a)) STOP) as [-> | S0]; [reflexivity|].
  rewrite work_cons. cbn [scmd]. change (cmd_of (cmd_of (scmd a))) with (Z.land (cmd_of (scmd a)) 255). rewrite R.
  destruct (is_work (cmd_of (scmd a))); [|reflexivity]. cbn [when map app]. unfold without_stops at 1. rewrite (proj2 (Z.eqb_neq _ _) S0). reflexivity.
Qed.

Section WorkXxx.
Variables (qcos qsin : Q -> Q) (qorient : Q -> Q -> Q -> Q -> Q -> Q * Q).
Notation N := (QNum qcos qsin qorient).
Hypothesis (Hturn : forall t, ~ (qcos t * qcos t + qsin t * qsin t == 0)%Q) (Hdir : direction_bounded qorient).

(** Saved as XXX with lengths of at most 123 and loaded: the stitches within half a unit, and between them, in
    order, the cuts and colour changes the design asks for, stops being colour changes. *)
Theorem C233_xxx : forall (set : settings N) (p : pattern N),
  savable qcos qsin qorient 123 set (p_stitches N p) -> ~ sequins_requested set (p_stitches N p) ->
  plain_settings set -> requested_change set = COLOR_CHANGE ->
  Forall (fun a => has_command left_out a = false) (until_end (p_stitches N p)) -> breaks_clear (p_stitches N p) ->
  exists out threads, transcode N set p = Ok (out, threads) /\
  (forall colors, Forall2 colored threads colors -> Forall (fun c => 0 <= c < 2 ^ 24) colors -> zlen colors < 65536 ->
   exists file l, xxx_write colors out = Ok file /\ xxx_read_file file = Ok (l, colors) /\
     stitches_exact (p_stitches N p) (needle_points l) /\
     work l = map without_stops (all_asked COLOR_CHANGE true (mkAsk (match s_explicit_trim N set with Some b => b | None => false end) false false) (until_end (p_stitches N p)))).
Proof.
  intros set p V Hq Hp Hch Hlo Hb. destruct (savable_encodes qcos qsin qorient Hturn 123 set p ltac:(lia) V) as (out & ths & E).
  exists out, ths. split; [exact E|]. intros colors _ Hc Hl.
  destruct (encoded_written qcos qsin qorient Hdir 123 set p out ths ltac:(lia) (v_fit _ _ _ _ _ _ V) (v_source _ _ _ _ _ _ V)
    (v_speeds _ _ _ _ _ _ V) (v_change _ _ _ _ _ _ V) E) as (W & C & _).
  assert (X : xxx_ok 0 0 (written out)).
  { apply iwalk_xxx; [exact W|]. eapply Forall_impl; [|exact C]. intros a [Ha|[_ Ha]]; [exact Ha|contradiction]. }
  pose proof (C22_single_end N set p out ths E) as En. destruct En as (body & e & Eo & En). change (F N) with Q in *.
  assert (X' := X). rewrite Eo in X'. destruct (C120_xxx_file colors body e X' Hc Hl) as (file & Wf & _ & Rf). rewrite <- Eo in *.
  do 2 eexists. split; [exact Wf|]. split; [exact Rf|]. split.
  - rewrite points_closed, points_renamed_none, (written_end qcos qsin qorient set p out ths E).
    apply (savable_points qcos qsin qorient 123 set p out ths V E). split; [exact Hp|].
    pose proof (v_matrix _ _ _ _ _ _ V) as M. rewrite Forall_forall in M, Hlo |- *. intros a Ha. specialize (M a Ha). specialize (Hlo a Ha).
    unfold has_command, left_out in *. rewrite existsb_app in *. apply orb_false_iff in Hlo. apply orb_false_iff. split; [exact M|exact (proj1 Hlo)].
  - rewrite work_closed, work_renamed_all. destruct (end_last_written out (C22_single_end N set p out ths E)) as [L Xe].
    replace (work (before_end (written out))) with (work (written out)) by (destruct L as [L|L]; [rewrite L; reflexivity|symmetry; apply work_before_end; assumption]).
    rewrite work_written. pose proof (C229_work N set p out ths E Hp ltac:(rewrite Hch; left; reflexivity) Hlo Hb) as W0. rewrite Hch in W0. change (F N) with Q in W0.
    rewrite W0. f_equal. apply asked_without_speeds. apply Forall_forall. intros a Ha. pose proof (v_speeds _ _ _ _ _ _ V) as S0. unfold no_speeds in S0. rewrite Forall_forall in S0.
    apply S0. exact (until_end_in _ _ Ha).
Qed.
End WorkXxx.

Example C233_case :
  savable ex_cos ex_sin ex_orient 123 c125_set worked_design /\ ~ sequins_requested c125_set worked_design /\
  plain_settings c125_set /\ requested_change c125_set = COLOR_CHANGE /\
  Forall (fun a => has_command left_out a = false) (until_end worked_design) /\ breaks_clear worked_design /\
  match transcode ExNum c125_set (mkP ExNum worked_design c123_threads) with
  | Ok (out, _) =>
      match xxx_write [0xFF0000; 0x0000FF] out with
      | Ok file => match xxx_read_file file with Ok (l, cs) => (work l, cs) | Err _ => ([], []) end
      | Err _ => ([], []) end
  | Err _ => ([], [])
  end = ([STITCH; STITCH; TRIM; STITCH; COLOR_CHANGE; STITCH; COLOR_CHANGE; STITCH], [0xFF0000; 0x0000FF]).
Proof.
  split; [|split; [|split; [|split; [|split; [|split; [|vm_compute; reflexivity]]]]]].
  - constructor; [|repeat split|discriminate|discriminate|each|each|each].
    split; [reflexivity|]. split; [eexists; split; [reflexivity|split; vm_compute; congruence]|].
    split; [eexists; split; [reflexivity|split; vm_compute; congruence]|]. split; left; reflexivity.
  - intros [H|[[_ H]|H]]; [discriminate H|discriminate H|]. revert H. apply (proj1 (Forall_Exists_neg _ _)). repeat constructor; discriminate.
  - split; [left; reflexivity|]. split; [left; reflexivity|]. left. reflexivity.
  - reflexivity.
  - each.
  - left. repeat constructor.
Qed.
Print Assumptions C233_xxx.
