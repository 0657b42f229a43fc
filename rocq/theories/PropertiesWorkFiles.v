(** C231: the stitches and thread changes of a design in DST and JEF files. *)
From Coq Require Import ZArith QArith List Bool Lia.
From Verif Require Import PyBase EmbConst StreamModel StreamSpec FunctionsModel ThreadModel NumModel NumQ MatrixModel EncoderModel
  EncoderProofs EncoderSpec QuantModel MetricSpec SettingsModel DstModel DstSpec DstFileModel DstFileSpec DstWholeProofs DstAnyProofs PropertiesDstFile JefModel JefSpec TrimProofs TrimKeepProofs
  PropertiesEncoder PropertiesSettings PropertiesPipeline FidelitySpec FidelityProofs PropertiesFidelity PropertiesWork PropertiesWorkFile.
Import ListNotations.
Open Scope Z_scope.

(** Stitches and changes of the thread; with stops counting as changes. *)
Definition only_sewn_or_changed (l : list Z) : list Z := filter (fun k => (k =? STITCH) || (k =? COLOR_CHANGE)) l.
Definition sewn_or_changed (l : list Z) : list Z := only_sewn_or_changed (map without_stops l).
Definition commands {C} (l : list (stitch C)) : list Z := map (fun a => Z.land (scmd a) 255) l.

Lemma soc_app a b : sewn_or_changed (a ++ b) = sewn_or_changed a ++ sewn_or_changed b.
Proof. unfold sewn_or_changed, only_sewn_or_changed. rewrite map_app, filter_app. reflexivity. Qed.
Lemma soc_cons k l : sewn_or_changed (k :: l) = sewn_or_changed [k] ++ sewn_or_changed l.
Proof. apply (soc_app [k] l). Qed.
Lemma commands_app C (a b : list (stitch C)) : commands (a ++ b) = commands a ++ commands b.
Proof. apply map_app. Qed.
Lemma soc_work C (l : list (stitch C)) : sewn_or_changed (work l) = sewn_or_changed (commands l).
Proof.
  unfold work, commands. generalize (map (fun a : stitch C => Z.land (scmd a) 255) l). intros m. induction m as [|k m IH]; [reflexivity|].
  rewrite (soc_cons k m), <- IH. cbn [filter]. destruct (is_work k) eqn:W; [apply soc_cons|].
  replace (sewn_or_changed [k]) with (@nil Z); [reflexivity|]. unfold is_work, work_commands, existsb in W.
  repeat (apply orb_false_iff in W; destruct W as [? W]). unfold sewn_or_changed, only_sewn_or_changed, map, filter, without_stops.
  destruct (k =? STOP); [discriminate|]. destruct (k =? STITCH); [discriminate|]. destruct (k =? COLOR_CHANGE); [discriminate|]. reflexivity.
Qed.
Lemma soc_commands_only C D (a : list (stitch C)) (b : list (stitch D)) : map scmd a = map scmd b -> commands a = commands b.
Proof. intros E. unfold commands. rewrite <- (map_map scmd (fun k => Z.land k 255) a), <- (map_map scmd (fun k => Z.land k 255) b), E. reflexivity. Qed.
Lemma soc_closed l : sewn_or_changed (commands (StreamSpec.closed l)) = sewn_or_changed (commands l).
Proof. unfold StreamSpec.closed. destruct (needle_after 0 0 l) as [x y]. rewrite commands_app, soc_app. apply app_nil_r. Qed.
Lemma masked_twice k : Z.land (cmd_of k) 255 = cmd_of k.
Proof. unfold cmd_of, COMMAND_MASK. rewrite <- Z.land_assoc. reflexivity. Qed.
Lemma commands_cons C (a : stitch C) l : commands (a :: l) = cmd_of (scmd a) :: commands l.
Proof. reflexivity. Qed.
Lemma soc_jumps C (l : list (stitch C)) : Forall (fun a => scmd a = JUMP) l -> sewn_or_changed (commands l) = [].
Proof. induction 1 as [|a l E _ IH]; [reflexivity|]. rewrite commands_cons, soc_cons, IH, E. reflexivity. Qed.
Lemma osc_app a b : only_sewn_or_changed (a ++ b) = only_sewn_or_changed a ++ only_sewn_or_changed b.
Proof. apply filter_app. Qed.
Lemma osc_closed l : only_sewn_or_changed (commands (StreamSpec.closed l)) = only_sewn_or_changed (commands l).
Proof. unfold StreamSpec.closed. destruct (needle_after 0 0 l) as [x y]. rewrite commands_app, osc_app. apply app_nil_r. Qed.
Lemma osc_jumps C (l : list (stitch C)) : Forall (fun a => scmd a = JUMP) l -> only_sewn_or_changed (commands l) = [].
Proof. induction 1 as [|a l E _ IH]; [reflexivity|]. rewrite commands_cons, E. exact IH. Qed.
Lemma osc_dst_view ex l : only_sewn_or_changed (commands (dst_view ex l)) = sewn_or_changed (commands l).
Proof.
  induction l as [|a l IH]; [reflexivity|]. cbn [dst_view]. rewrite commands_app, osc_app, IH, commands_cons, (soc_cons (cmd_of (scmd a))). f_equal.
  destruct (Z.eqb_spec (cmd_of (scmd a)) TRIM) as [-> | E].
  - apply osc_jumps. apply Forall_forall. intros b Hb. apply in_map_iff in Hb as (d & <- & _). reflexivity.
  - unfold commands, map. cbn [scmd]. unfold dst_name. cbv zeta. destruct (Z.eqb_spec (cmd_of (scmd a)) STOP) as [-> | S0]; [reflexivity|].
    rewrite masked_twice. unfold sewn_or_changed, map, without_stops. rewrite (proj2 (Z.eqb_neq _ _) S0). reflexivity.
Qed.
Lemma soc_jef_view n l : forall odd, sewn_or_changed (commands (jef_view n odd l)) = sewn_or_changed (commands l).
Proof.
  induction l as [|a l IH]; intros odd; [reflexivity|]. cbn [jef_view]. cbv zeta. rewrite commands_cons, (soc_cons (cmd_of (scmd a))).
  destruct (Z.eqb_spec (cmd_of (scmd a)) STOP) as [-> | S0]; [rewrite commands_cons, soc_cons, IH; destruct odd; reflexivity|].
  destruct (Z.eqb_spec (cmd_of (scmd a)) COLOR_CHANGE) as [-> | C0]; [rewrite commands_cons, soc_cons, IH; reflexivity|].
  destruct (Z.eqb_spec (cmd_of (scmd a)) TRIM) as [-> | T0].
  - rewrite commands_app, soc_app, IH. f_equal. apply soc_jumps. apply Forall_forall. intros b Hb. apply repeat_spec in Hb. rewrite Hb. reflexivity.
  - rewrite commands_cons, soc_cons, IH. f_equal. cbn [scmd]. unfold cmd_of at 1. change COMMAND_MASK with 255. rewrite masked_twice. reflexivity.
Qed.
Lemma soc_before_end C (l : list (stitch C)) : (exists a, l = before_end l ++ [a]) -> Exists (fun s => cmd_of (scmd s) = END) l ->
  sewn_or_changed (commands (before_end l)) = sewn_or_changed (commands l).
Proof.
  intros (a & E) X.
  assert (Ca : cmd_of (scmd a) = END).
  { apply Exists_exists in X. destruct X as (s & I & Cs). rewrite E in I. apply in_app_or in I as [I|[->|[]]]; [|exact Cs].
    exfalso. clear E a. induction l as [|b l IH]; [exact I|]. cbn [before_end] in I.
    destruct (cmd_of (scmd b) =? END) eqn:Eb; [exact I|]. destruct I as [->|I]; [rewrite Cs in Eb; discriminate|exact (IH I)]. }
  rewrite E at 2. rewrite commands_app, soc_app. unfold commands at 3. cbn [map]. change (Z.land (scmd a) 255) with (cmd_of (scmd a)). rewrite Ca. symmetry. apply app_nil_r.
Qed.
Lemma soc_of_int l : commands (map of_int l) = commands l.
Proof. apply soc_commands_only. rewrite map_map. reflexivity. Qed.

Section WorkFiles.
Variables (qcos qsin : Q -> Q) (qorient : Q -> Q -> Q -> Q -> Q -> Q * Q).
Notation N := (QNum qcos qsin qorient).
Hypothesis (Hturn : forall t, ~ (qcos t * qcos t + qsin t * qsin t == 0)%Q) (Hdir : direction_bounded qorient).

Lemma written_asks set (p : pattern N) out ths m : transcode N set p = Ok (out, ths) -> savable qcos qsin qorient m set (p_stitches N p) ->
  plain_settings set -> requested_change set = COLOR_CHANGE ->
  Forall (fun a => has_command left_out a = false) (until_end (p_stitches N p)) -> breaks_clear (p_stitches N p) ->
  sewn_or_changed (commands (before_end (written out)))
  = sewn_or_changed (all_asked COLOR_CHANGE true (mkAsk (match s_explicit_trim N set with Some b => b | None => false end) false false) (until_end (p_stitches N p))).
Proof.
  intros E V Hp Hc Hl Hb. destruct (end_last_written out (C22_single_end N set p out ths E)) as [L X].
  replace (sewn_or_changed (commands (before_end (written out)))) with (sewn_or_changed (commands (written out)))
    by (destruct L as [L|L]; [rewrite L; reflexivity|symmetry; apply soc_before_end; assumption]).
  rewrite <- soc_work, work_written. pose proof (C229_work N set p out ths E Hp ltac:(rewrite Hc; left; reflexivity) Hl Hb) as W. rewrite Hc in W. change (F N) with Q in W. rewrite W. clear W. f_equal.
  apply asked_without_speeds. apply Forall_forall. intros a Ha. pose proof (v_speeds _ _ _ _ _ _ V) as S0. unfold no_speeds in S0. rewrite Forall_forall in S0.
  apply S0. exact (until_end_in _ _ Ha).
Qed.
Lemma interpolated_keeps (l l' : list (stitch Q)) : filter keeper l = filter keeper l' -> only_sewn_or_changed (commands l) = only_sewn_or_changed (commands l').
Proof.
  intros E.
  assert (X : forall k : list (stitch Q), only_sewn_or_changed (commands k) = only_sewn_or_changed (commands (filter keeper k))).
  { induction k as [|s k IH]; [reflexivity|]. rewrite commands_cons. cbn [filter]. unfold only_sewn_or_changed in *. cbn [filter]. rewrite IH.
    destruct (keeper s) eqn:Ks; [rewrite commands_cons; reflexivity|]. unfold keeper, existsb in Ks.
    destruct (cmd_of (scmd s) =? STITCH); [discriminate|].
    destruct (cmd_of (scmd s) =? COLOR_CHANGE); [|reflexivity]. destruct (cmd_of (scmd s) =? SEQUIN_EJECT); discriminate. }
  rewrite (X l), (X l'), E. reflexivity.
Qed.
Lemma nothing_added_here m set (p : pattern N) : savable qcos qsin qorient m set (p_stitches N p) -> plain_settings set ->
  Forall (fun a => has_command left_out a = false) (until_end (p_stitches N p)) -> nothing_added qcos qsin qorient set (p_stitches N p).
Proof.
  intros V Hp Hl. split; [exact Hp|]. pose proof (v_matrix _ _ _ _ _ _ V) as M. rewrite Forall_forall in M, Hl |- *. intros a Ha. specialize (M a Ha). specialize (Hl a Ha).
  unfold has_command, left_out in *. rewrite existsb_app in *. apply orb_false_iff in Hl. apply orb_false_iff. split; [exact M|exact (proj1 Hl)].
Qed.

(** Saved as DST and loaded with any settings for the trims: the stitches within half a unit, and between them,
    in order, the changes of the thread and stops the design asks for, as colour changes. *)
Theorem C231_dst : forall extended trim_at info (set : settings N) (p : pattern N),
  savable qcos qsin qorient 121 set (p_stitches N p) -> info_ok extended info -> header_room extended info ->
  plain_settings set -> requested_change set = COLOR_CHANGE ->
  Forall (fun a => has_command left_out a = false) (until_end (p_stitches N p)) -> breaks_clear (p_stitches N p) ->
  exists out threads, transcode N set p = Ok (out, threads) /\
  (small out -> exists file loaded, dst_write extended trim_at info out = Ok file /\
    forall count distance clipping fuel, (List.length file < fuel)%nat ->
    exists l points, dst_read count distance clipping fuel file = Ok (l, loaded) /\
      needle_points l = map exact_point points /\ stitches_exact (p_stitches N p) points /\
      only_sewn_or_changed (commands l)
      = sewn_or_changed (all_asked COLOR_CHANGE true (mkAsk (match s_explicit_trim N set with Some b => b | None => false end) false false) (until_end (p_stitches N p)))).
Proof.
  intros extended t info set p V Hi Hr Hp Hc Hl Hb. destruct (savable_encodes qcos qsin qorient Hturn 121 set p ltac:(lia) V) as (out & ths & E).
  exists out, ths. split; [exact E|]. intros Sm.
  destruct (C20_dst qcos qsin qorient t set p out ths Hdir (v_fit _ _ _ _ _ _ V) (v_source _ _ _ _ _ _ V) (v_speeds _ _ _ _ _ _ V) (v_change _ _ _ _ _ _ V) E)
    as (bs & B1 & _ & B3).
  pose proof (written_asks set p out ths 121 E V Hp Hc Hl Hb) as Wa.
  pose proof (proj2 (savable_points qcos qsin qorient 121 set p out ths V E) (nothing_added_here 121 set p V Hp Hl)) as Pts.
  pose proof (written_end qcos qsin qorient set p out ths E) as We.
  destruct (C22_single_end N set p out ths E) as (body & e & Eo & _). change (F N) with Q in *. rewrite Eo in Sm, B1 |- *.
  destruct (dst_file_any extended t info body e bs Hi Hr Sm B1) as (file & h & W & R).
  exists file, h. split; [exact W|]. intros count distance clipping fuel Hf.
  destruct (R count distance clipping fuel Hf) as (l & Rl & Pl & Kl & _). exists l, (needle_points (dst_read_raw bs)).
  split; [exact Rl|]. split; [exact Pl|]. split.
  - rewrite B3, points_closed, points_dst_view, We. exact Pts.
  - rewrite (interpolated_keeps _ _ Kl), soc_of_int, B3, osc_closed, osc_dst_view. exact Wa.
Qed.

(** Saved as JEF and loaded (before trims are interpolated): the same, stops and colour changes not told apart. *)
Theorem C231_jef : forall (set : settings N) (p : pattern N) teq near near2 (thread_of : Z -> tref) trims m date w h hw hh,
  savable qcos qsin qorient 127 set (p_stitches N p) -> ~ sequins_requested set (p_stitches N p) ->
  plain_settings set -> requested_change set = COLOR_CHANGE ->
  Forall (fun a => has_command left_out a = false) (until_end (p_stitches N p)) -> breaks_clear (p_stitches N p) ->
  Forall (fun a => is_cmd TIE_ON a = false /\ is_cmd TIE_OFF a = false) (p_stitches N p) ->
  (forall t, 1 <= near t < 2 ^ 32) -> (forall t i, 1 <= near2 t i < 2 ^ 32) -> List.length date = 14%nat ->
  exists out threads, transcode N set p = Ok (out, threads) /\
  (sews out -> starts_sewing out -> Z.of_nat (thread_commands out) < 2 ^ 27 ->
   exists file l ths, jef_write qz_q teq near near2 trims m date w h hw hh threads out = Ok file /\
     jef_read thread_of file = Ok (l, ths) /\ stitches_exact (p_stitches N p) (needle_points l) /\
     sewn_or_changed (commands l)
     = sewn_or_changed (all_asked COLOR_CHANGE true (mkAsk (match s_explicit_trim N set with Some b => b | None => false end) false false) (until_end (p_stitches N p)))).
Proof.
  intros set p teq near near2 thread_of trims m date w h hw hh V Hq Hp Hc Hl Hb Ht N1 N2 Hd.
  destruct (savable_encodes qcos qsin qorient Hturn 127 set p ltac:(lia) V) as (out & ths & E). exists out, ths. split; [exact E|]. intros S1 S2 S3.
  destruct (C20_jef qcos qsin qorient set p out ths teq near near2 thread_of trims m date w h hw hh Hdir (v_fit _ _ _ _ _ _ V) (v_source _ _ _ _ _ _ V)
    (v_speeds _ _ _ _ _ _ V) Hc Hq Ht E S1 S2 S3 N1 N2 Hd) as (palette & file & W & _ & R).
  do 3 eexists. split; [exact W|]. split; [exact R|]. split.
  - rewrite points_closed, points_jef_view, (written_end qcos qsin qorient set p out ths E).
    exact (proj2 (savable_points qcos qsin qorient 127 set p out ths V E) (nothing_added_here 127 set p V Hp Hl)).
  - rewrite soc_closed, soc_jef_view. exact (written_asks set p out ths 127 E V Hp Hc Hl Hb).
Qed.
End WorkFiles.

(** A design that meets the conditions; what DST loads is computed from the body. *)
Example C231_case :
  savable ex_cos ex_sin ex_orient 121 (c116_set (dst_attributes ExNum inject_Z)) worked_design /\
  savable ex_cos ex_sin ex_orient 127 (c116_set (jef_attributes ExNum inject_Z)) worked_design /\
  plain_settings (c116_set (dst_attributes ExNum inject_Z)) /\ requested_change (c116_set (dst_attributes ExNum inject_Z)) = COLOR_CHANGE /\
  plain_settings (c116_set (jef_attributes ExNum inject_Z)) /\ requested_change (c116_set (jef_attributes ExNum inject_Z)) = COLOR_CHANGE /\
  Forall (fun a => has_command left_out a = false) (until_end worked_design) /\ breaks_clear worked_design /\
  exists out ths bs, transcode ExNum (c116_set (dst_attributes ExNum inject_Z)) (mkP ExNum worked_design []) = Ok (out, ths) /\ dst_body qz_q 3 out = Ok bs /\
  only_sewn_or_changed (commands (dst_read_raw bs)) = [STITCH; STITCH; STITCH; COLOR_CHANGE; STITCH; COLOR_CHANGE; STITCH].
Proof.
  split; [|split; [|split; [|split; [|split; [|split; [|split; [|split]]]]]]].
  - eapply (C116_default_settings ex_cos ex_sin ex_orient [] worked_design); [each|each|each|each|each].
  - eapply (C116_default_settings ex_cos ex_sin ex_orient [] worked_design); [each|each|each|each|each].
  - split; [left; reflexivity|]. split; [left; reflexivity|]. left. reflexivity.
  - reflexivity.
  - split; [left; reflexivity|]. split; [left; reflexivity|]. left. reflexivity.
  - reflexivity.
  - each.
  - left. repeat constructor.
  - do 3 eexists. split; [vm_compute; reflexivity|]. split; [vm_compute; reflexivity|]. vm_compute. reflexivity.
Qed.
Print Assumptions C231_dst.
Print Assumptions C231_jef.
