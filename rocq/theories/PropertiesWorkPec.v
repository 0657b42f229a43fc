(** C235: the work of a design in PEC and PES files. *)
From Coq Require Import Ascii String ZArith QArith List Bool Lia.
From Verif Require Import PyBase EmbConst HelperModel Utf8Model TextModel PatternModel PatternSpec FunctionsModel StreamModel StreamSpec StreamProofs ThreadModel NumModel NumQ MatrixModel EncoderModel
  EncoderProofs EncoderSpec QuantModel QuantProofs MetricSpec SettingsModel PecModel PecSpec PecFileModel PecFileSpec PecFileProofs PesModel PesSpec PropertiesPes PropertiesEncoder PropertiesSettings
  PropertiesPipeline FidelitySpec FidelityProofs PropertiesFidelity PropertiesWork PropertiesWorkFile PropertiesWorkFiles PropertiesWorkU01.
Import ListNotations.
Open Scope Z_scope.

(** One thing to do: sew at a place, or change the thread or stop. *)
Inductive deed := Sew (x y : Z) | Pause (k : Z).
Definition deed_command (d : deed) : Z := match d with Sew _ _ => STITCH | Pause k => k end.
Definition sewn_at (l : list deed) : list (Z * Z) := flat_map (fun d => match d with Sew x y => [(x, y)] | Pause _ => [] end) l.
(** [carries landing w l]: the commands l do w in this order, and besides at most jump, trim, end, and sew once
    where a jump has just landed ([landing]; also at the very beginning). *)
Inductive carries : option (Z * Z) -> list deed -> list (stitch Z) -> Prop :=
| carries_nil j : carries j [] []
| carries_sew j s w l : cmd_of (scmd s) = STITCH -> carries None w l -> carries j (Sew (sx s) (sy s) :: w) (s :: l)
| carries_landing s w l : cmd_of (scmd s) = STITCH -> carries None w l -> carries (Some (sx s, sy s)) w (s :: l)
| carries_pause j s w l : In (cmd_of (scmd s)) [COLOR_CHANGE; STOP] -> carries None w l -> carries j (Pause (cmd_of (scmd s)) :: w) (s :: l)
| carries_jump j s w l : cmd_of (scmd s) = JUMP -> carries (Some (sx s, sy s)) w l -> carries j w (s :: l)
| carries_other j s w l : In (cmd_of (scmd s)) [TRIM; END] -> carries j w l -> carries j w (s :: l).

Definition deeds (l : list (stitch Z)) : list deed :=
  flat_map (fun s => let c := cmd_of (scmd s) in
    if c =? STITCH then [Sew (sx s) (sy s)] else if (c =? COLOR_CHANGE) || (c =? STOP) then [Pause c] else []) l.
Definition sewing_and_pauses (l : list Z) : list Z := filter (fun k => (k =? STITCH) || (k =? COLOR_CHANGE) || (k =? STOP)) l.

Lemma carries_view l : forall jumped first px py, representable 2047 [STITCH; JUMP] [COLOR_CHANGE; STOP; TRIM; END] px py l ->
  carries (if jumped : bool then Some (px, py) else None) (deeds l) (pec_file_view jumped first px py l).
Proof.
  induction l as [|s l IH]; intros jumped first px py R; [constructor|]. destruct R as [Rs Rl]. cbn [pec_file_view deeds flat_map]. fold (deeds l). cbv zeta.
  destruct (Z.eqb_spec (cmd_of (scmd s)) STITCH) as [E1|N1].
  { cbn [app]. assert (T : forall j, carries j (Sew (sx s) (sy s) :: deeds l) (mkS (sx s) (sy s) STITCH :: pec_file_view false false (sx s) (sy s) l)).
    { intros j. apply (carries_sew j (mkS (sx s) (sy s) STITCH)); [reflexivity|]. exact (IH false false _ _ Rl). }
    destruct jumped; cbn [andb]; [|exact (T None)]. destruct (_ && _); [|exact (T _)].
    apply (carries_landing (mkS px py STITCH)); [reflexivity|exact (T None)]. }
  destruct (Z.eqb_spec (cmd_of (scmd s)) JUMP) as [E2|N2].
  { rewrite E2. cbn. assert (T : forall j, carries j (deeds l) (mkS (sx s) (sy s) JUMP :: pec_file_view true false (sx s) (sy s) l)).
    { intros j. apply (carries_jump j (mkS (sx s) (sy s) JUMP)); [reflexivity|]. exact (IH true false _ _ Rl). }
    destruct first; [exact (T _)|]. apply carries_other; [left; reflexivity|exact (T _)]. }
  destruct ((cmd_of (scmd s) =? COLOR_CHANGE) || (cmd_of (scmd s) =? STOP)) eqn:E3.
  { cbn [app]. assert (K : In (cmd_of (scmd s)) [COLOR_CHANGE; STOP]) by (apply orb_true_iff in E3 as [E3|E3]; apply Z.eqb_eq in E3; rewrite E3; cbn; tauto).
    assert (T : forall j, carries j (Pause (cmd_of (scmd s)) :: deeds l) (mkS (sx s) (sy s) (cmd_of (scmd s)) :: pec_file_view false false (sx s) (sy s) l)).
    { intros j. assert (M : cmd_of (scmd (mkS (sx s) (sy s) (cmd_of (scmd s)))) = cmd_of (scmd s)) by apply masked_twice.
      pose proof (carries_pause j (mkS (sx s) (sy s) (cmd_of (scmd s))) (deeds l) (pec_file_view false false (sx s) (sy s) l)) as X. rewrite M in X. apply X; [exact K|].
      exact (IH false false _ _ Rl). }
    destruct jumped; [|exact (T None)]. apply (carries_landing (mkS px py STITCH)); [reflexivity|exact (T None)]. }
  cbn [app]. destruct Rs as [[Hc _]|(Hc & Hx & Hy)].
  - cbn [In] in Hc. destruct Hc as [Hc|[Hc|[]]]; congruence.
  - rewrite <- Hx, <- Hy. rewrite Hx, Hy in Rl |- *. exact (IH jumped false px py Rl).
Qed.
Lemma deeds_commands l : map deed_command (deeds l) = sewing_and_pauses (work l).
Proof.
  induction l as [|s l IH]; [reflexivity|]. rewrite work_cons. unfold sewing_and_pauses in *. rewrite filter_app, <- IH. cbn [deeds flat_map]. fold (deeds l). rewrite map_app. f_equal.
  cbv zeta. destruct (Z.eqb_spec (cmd_of (scmd s)) STITCH) as [-> | N1]; [reflexivity|].
  destruct (Z.eqb_spec (cmd_of (scmd s)) COLOR_CHANGE) as [-> | N2]; [reflexivity|]. destruct (Z.eqb_spec (cmd_of (scmd s)) STOP) as [-> | N3]; [reflexivity|].
  cbn [orb map]. destruct (is_work _); [|reflexivity]. cbn [when filter].
  rewrite (proj2 (Z.eqb_neq _ _) N1), (proj2 (Z.eqb_neq _ _) N2), (proj2 (Z.eqb_neq _ _) N3). reflexivity.
Qed.
Lemma deeds_points l : sewn_at (deeds l) = needle_points l.
Proof.
  induction l as [|s l IH]; [reflexivity|]. rewrite points_cons, <- IH. cbn [deeds flat_map]. fold (deeds l). unfold sewn_at. rewrite flat_map_app. f_equal.
  cbv zeta. unfold is_cmd. change (Z.land (scmd s) 255) with (cmd_of (scmd s)). destruct (Z.eqb_spec (cmd_of (scmd s)) STITCH) as [E1 | N1]; [reflexivity|].
  destruct ((cmd_of (scmd s) =? COLOR_CHANGE) || (cmd_of (scmd s) =? STOP)); reflexivity.
Qed.
Lemma carries_end j w l e : scmd e = END -> carries j w l -> carries j w (l ++ [e]).
Proof.
  intros He H. induction H; cbn [app]; try (constructor; assumption).
  apply carries_other; [unfold cmd_of; rewrite He; right; left; reflexivity|constructor].
Qed.
Lemma carries_closed j w l : carries j w l -> carries j w (closed l).
Proof. intros H. unfold closed. destruct (needle_after 0 0 l) as [x y]. apply carries_end; [reflexivity|exact H]. Qed.

Section WorkPec.
Variables (qcos qsin : Q -> Q) (qorient : Q -> Q -> Q -> Q -> Q -> Q * Q).
Notation N := (QNum qcos qsin qorient).
Hypothesis (Hturn : forall t, ~ (qcos t * qcos t + qsin t * qsin t == 0)%Q) (Hdir : direction_bounded qorient).

(** The commands l do what the design p asks for. *)
Definition does_the_work (set : settings N) (src : list (stitch Q)) (l : list (stitch Z)) : Prop :=
  exists w, carries (Some (0, 0)) w l /\ stitches_exact src (sewn_at w) /\
    map deed_command w
    = sewing_and_pauses (all_asked COLOR_CHANGE true (mkAsk (match s_explicit_trim N set with Some b => b | None => false end) false false) (until_end src)).

Lemma pec_work set (p : pattern N) out ths :
  savable qcos qsin qorient 2047 set (p_stitches N p) -> ~ sequins_requested set (p_stitches N p) ->
  plain_settings set -> requested_change set = COLOR_CHANGE ->
  Forall (fun a => has_command left_out a = false) (until_end (p_stitches N p)) -> breaks_clear (p_stitches N p) ->
  transcode N set p = Ok (out, ths) ->
  (sections_sewn false out -> pec_pattern out) /\ does_the_work set (p_stitches N p) (pec_kept out).
Proof.
  intros V Hq Hp Hch Hlo Hb E.
  destruct (encoded_representable qcos qsin qorient 2047 set p out _ ltac:(lia) Hdir (v_fit _ _ _ _ _ _ V) (v_source _ _ _ _ _ _ V)
    (v_speeds _ _ _ _ _ _ V) (v_change _ _ _ _ _ _ V) Hq E) as (R & _ & X). change (F N) with Q in *. split.
  - intros S1. split; [|split; [exact R|exact S1]]. destruct (C22_single_end N set p out _ E) as (body & e & Eo & He & Hn). exists body, e. split; [exact Eo|].
    split; [apply Z.eqb_eq; exact He|]. eapply Forall_impl; [|exact Hn]. intros a Ha. apply Z.eqb_neq. exact Ha.
  - exists (deeds (before_end (written out))). split; [|split].
    + unfold pec_kept. apply carries_closed. exact (carries_view _ true true 0 0 (representable_before _ 0 0 R)).
    + rewrite deeds_points, (written_end qcos qsin qorient set p out ths E).
      exact (proj2 (savable_points qcos qsin qorient 2047 set p out ths V E) (nothing_added_here qcos qsin qorient 2047 set p V Hp Hlo)).
    + rewrite deeds_commands. destruct (end_last_written out (C22_single_end N set p out ths E)) as [L Xe].
      replace (work (before_end (written out))) with (work (written out)) by (destruct L as [L|L]; [rewrite L; reflexivity|symmetry; apply work_before_end; assumption]).
      rewrite work_written. pose proof (C229_work N set p out ths E Hp ltac:(rewrite Hch; left; reflexivity) Hlo Hb) as W0. rewrite Hch in W0. change (F N) with Q in W0.
      rewrite W0. f_equal. apply asked_without_speeds. apply Forall_forall. intros a Ha. pose proof (v_speeds _ _ _ _ _ _ V) as S0. unfold no_speeds in S0. rewrite Forall_forall in S0.
      apply S0. exact (until_end_in _ _ Ha).
Qed.

(** Saved as PEC and loaded: between the same stitches the same colour changes and stops. *)
Theorem C235_pec : forall filler order name (set : settings N) (p : pattern N),
  set_order order -> Forall (fun c => 0 <= c < 128) (label_of name) ->
  savable qcos qsin qorient 2047 set (p_stitches N p) -> ~ sequins_requested set (p_stitches N p) ->
  plain_settings set -> requested_change set = COLOR_CHANGE ->
  Forall (fun a => has_command left_out a = false) (until_end (p_stitches N p)) -> breaks_clear (p_stitches N p) ->
  exists out ths, transcode N set p = Ok (out, ths) /\
  forall threads, sections_sewn false out -> pec_room out threads -> neighbours colours_differ threads ->
  exists file colours l meta, pec_write filler order name out threads = Ok file /\ pec_file_read file = Ok (l, colours, meta) /\
    does_the_work set (p_stitches N p) l.
Proof.
  intros filler order name set p Ho Ha V Hq Hp Hch Hlo Hb. destruct (savable_encodes qcos qsin qorient Hturn 2047 set p ltac:(lia) V) as (out & ths & E).
  exists out, ths. split; [exact E|]. intros threads S1 Rm Nb. destruct (pec_work set p out ths V Hq Hp Hch Hlo Hb E) as [P W].
  destruct (C71_pec_file filler order name out threads Ho Ha (P S1) Rm Nb) as (file & pal & pictures & Wf & _ & Rf).
  do 4 eexists. split; [exact Wf|]. split; [exact Rf|exact W].
Qed.
(** PES version 6, with the threads. *)
Theorem C235_pes : forall f32 filler order truncated md (set : settings N) (p : pattern N),
  (forall v, zlen (f32 v) = 4) -> set_order order -> Forall (fun c => 0 <= c < 128) (label_of (md (text_of "name"))) ->
  Forall (fun key => ascii_text (md (text_of key))) ["name"; "category"; "author"; "keywords"; "comments"]%string ->
  savable qcos qsin qorient 2047 set (p_stitches N p) -> ~ sequins_requested set (p_stitches N p) ->
  plain_settings set -> requested_change set = COLOR_CHANGE ->
  Forall (fun a => has_command left_out a = false) (until_end (p_stitches N p)) -> breaks_clear (p_stitches N p) ->
  exists out ths, transcode N set p = Ok (out, ths) /\
  forall threads, Forall ascii_thread threads -> sections_sewn false out -> pec_room out threads -> neighbours stored_differ threads ->
  exists file, pes_write f32 filler order 60 truncated md out threads = Ok file /\
  (zlen file < 2 ^ 32 -> exists l meta, pes_read file = Ok (l, map stored_thread threads, meta) /\ does_the_work set (p_stitches N p) l).
Proof.
  intros f32 filler order truncated md set p H1 Ho Ha Hm V Hq Hp Hch Hlo Hb. destruct (savable_encodes qcos qsin qorient Hturn 2047 set p ltac:(lia) V) as (out & ths & E).
  exists out, ths. split; [exact E|]. intros threads Ht S1 Rm Nb. destruct (pec_work set p out ths V Hq Hp Hch Hlo Hb E) as [P W].
  destruct (C73_pes_version_6 f32 filler order truncated md out threads H1 Ho Ha Hm Ht (P S1) Rm Nb) as (file & Wf & Rf).
  exists file. split; [exact Wf|]. intros Lf. destruct (Rf Lf) as (meta & Er & _). do 2 eexists. split; [exact Er|exact W].
Qed.
End WorkPec.

Definition pec_settings_here : settings ExNum := c116_set (pec_attributes ExNum inject_Z).
(** A design with a trim, a stop and a colour change that meets the conditions, and what its file holds. *)
Example C235_case :
  savable ex_cos ex_sin ex_orient 2047 pec_settings_here worked_design /\ ~ sequins_requested pec_settings_here worked_design /\
  plain_settings pec_settings_here /\ requested_change pec_settings_here = COLOR_CHANGE /\
  Forall (fun a => has_command left_out a = false) (until_end worked_design) /\ breaks_clear worked_design /\ neighbours colours_differ sample_threads /\
  exists out ths, transcode ExNum pec_settings_here (mkP ExNum worked_design sample_threads) = Ok (out, ths) /\
    sections_sewn false out /\ pec_room out sample_threads /\
    sewing_and_pauses (work (pec_kept out)) = [STITCH; STITCH; STITCH; STOP; STITCH; COLOR_CHANGE; STITCH].
Proof.
  split; [|split; [|split; [|split; [|split; [|split; [|split]]]]]].
  - eapply (C116_default_settings ex_cos ex_sin ex_orient [] worked_design); [each|each|each|each|each].
  - intros [H|[[_ H]|H]]; [discriminate H|discriminate H|]. revert H. apply (proj1 (Forall_Exists_neg _ _)). repeat constructor; discriminate.
  - split; [left; reflexivity|]. split; [left; reflexivity|]. left. reflexivity.
  - reflexivity.
  - each.
  - left. repeat constructor.
  - apply sample_neighbours.
  - do 2 eexists. split; [vm_compute; reflexivity|]. split; [|split].
    + repeat first [apply sections_end | apply sections_sew; [unfold is_sewing; cbn; tauto|] | apply sections_edge; [unfold is_change, is_stop; cbn; tauto|]
        | apply sections_other; [other|other|other|]].
    + split; [cbn; lia|]. split; [cbn; lia|]. split; [|vm_compute; reflexivity]. exists sample_threads. split; [apply incl_refl|cbn; lia].
    + vm_compute. reflexivity.
Qed.
Print Assumptions C235_pec.
Print Assumptions C235_pes.
