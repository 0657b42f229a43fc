(** Encoding and writing on floats: the steps fit, and what is read back. *)
From Coq Require Import ZArith Reals List Bool Lia Lra.
From Flocq Require Import Core.
From Verif Require Import PyBase EmbConst StreamModel StreamSpec StreamProofs FunctionsModel ThreadModel NumModel
  MatrixModel EncoderModel EncoderProofs EncoderSpec MetricSpec EncoderMetricProofs QuantProofs
  DstModel DstSpec DstFileProofs ExpModel EightBitProofs JefModel JefSpec PecModel PecSpec PecProofs PropertiesFormats SettingsModel PropertiesEncoder
  PropertiesPipeline FidelityProofs FloatModel FloatSpec FloatProofs FloatMetricProofs FloatTotalProofs.
Import ListNotations.
Open Scope Z_scope.

(** The integer positions in the file, for float coordinates. *)
Definition fwritten (l : list (stitch R)) : list (stitch Z) := apply_rel 0 0 (quantise qz_f 0 0 l).

Section FloatPipeline.
Variables (fcos fsin : R -> R) (forient : R -> R -> R -> R -> R -> R * R).
Notation N := (FNum fcos fsin forient).

(** The point at distance l from (x0, y0) in the direction of (x1, y1), of which only this is used: on each axis it is at most a unit
    further away than l. *)
Definition direction_near : Prop := forall x0 y0 x1 y1 l, (Rabs x0 <= bpow radix2 20 -> Rabs y0 <= bpow radix2 20 -> 1 <= l <= 2047 ->
  Rabs (fst (forient x0 y0 x1 y1 l) - x0) <= l + 1 /\ Rabs (snd (forient x0 y0 x1 y1 l) - y0) <= l + 1)%R.

(** Where the settings (their translation, scale and rotation) put a command. *)
Definition put (set : settings N) (a : stitch R) : R * R := point_in_matrix_space N (init_matrix N set) (sx a) (sy a).

(** Settings and designs for a format with steps of at most [m]: rounding on, maximum lengths from 1 to [m], long stitches split; the
    settings put every command within 2^20 units on each axis; the lengths that the design sets are from 1 to [m]. *)
Definition flength_within (m : Z) (l : option (limit N)) : Prop := exists v, l = Some (Fin N v) /\ (1 <= v <= IZR m)%R.
Record float_savable (m : Z) (set : settings N) (src : list (stitch R)) : Prop := mkFloatSavable {
  w_round : s_round N set = Some true;
  w_stitch : flength_within m (s_max_stitch N set);
  w_jump : flength_within m (s_max_jump N set);
  w_long : s_long_stitch_contingency N set = None \/
    s_long_stitch_contingency N set = Some CONTINGENCY_LONG_STITCH_SEW_TO \/
    s_long_stitch_contingency N set = Some CONTINGENCY_LONG_STITCH_JUMP_NEEDLE;
  w_sequin : s_sequin_contingency N set = None \/
    exists v, s_sequin_contingency N set = Some v /\
     In v [CONTINGENCY_SEQUIN_REMOVE; CONTINGENCY_SEQUIN_UTILIZE; CONTINGENCY_SEQUIN_JUMP; CONTINGENCY_SEQUIN_STITCH];
  w_needles : s_needle_count N set <> Some 0;
  w_change : requested_change set <> NEEDLE_SET;
  w_placed : Forall (fun a => (Rabs (fst (put set a)) <= bpow radix2 20 /\ Rabs (snd (put set a)) <= bpow radix2 20)%R) src;
  w_lengths : Forall (fun a => is_cmd OPTION_MAX_JUMP_LENGTH a = true \/ is_cmd OPTION_MAX_STITCH_LENGTH a = true ->
    (1 <= sx a <= IZR m)%R) src;
  w_split : Forall (fun a => is_cmd CONTINGENCY_LONG_STITCH_NONE a = false) src;
  w_matrix : Forall (fun a => has_command matrix_commands a = false) src;
  w_speeds : no_speeds src }.

(** ** Lemmas *)
Lemma classify_ffits : forall m (a : stitch R),
  (is_cmd OPTION_MAX_JUMP_LENGTH a = true \/ is_cmd OPTION_MAX_STITCH_LENGTH a = true -> (1 <= sx a <= IZR m)%R) ->
  is_cmd CONTINGENCY_LONG_STITCH_NONE a = false -> has_command matrix_commands a = false ->
  fop_bounded m a (classify (cmd_of (scmd a))).
Proof.
  intros m a H1 H2 H3. unfold has_command, matrix_commands in H3. cbn [existsb] in H3. unfold is_cmd in *. unfold cmd_of. change COMMAND_MASK with 255.
  generalize dependent (Z.land (scmd a) 255). intros c H1 H2 H3. unfold classify.
  repeat match goal with
  | |- context [if ?c =? ?k then _ else _] => destruct (Z.eqb_spec c k) as [?|?]; [cbn [fop_bounded]; try exact I|]
  end; cbn [fop_bounded]; try exact I;
  first [ exfalso; subst c; vm_compute in H3; discriminate
        | exfalso; subst c; vm_compute in H2; discriminate
        | apply H1; left; subst c; reflexivity | apply H1; right; subst c; reflexivity
        | right; reflexivity | left; reflexivity
        | unfold EncoderMetricProofs.sequins_ok; tauto ].
Qed.

Lemma source_ffits : forall m set src, float_savable m set src ->
  Forall (fun a => fcoord fcos fsin forient (init_matrix N set) a /\ fop_bounded m a (classify (cmd_of (scmd a)))) src.
Proof.
  intros m set src V. pose proof (w_placed _ _ _ V) as A1. pose proof (w_lengths _ _ _ V) as A2. pose proof (w_split _ _ _ V) as A3.
  pose proof (w_matrix _ _ _ V) as A4. clear V. rewrite Forall_forall in *. intros a Ia. split.
  - exact (A1 a Ia).
  - apply classify_ffits; auto.
Qed.

Lemma transcode_ffits : direction_near -> forall m set (p : pattern N) out threads, 1 <= m <= 2047 ->
  float_savable m set (p_stitches N p) -> transcode N set p = Ok (out, threads) -> fwalk m 0 0 out.
Proof.
  intros Hd m set p out threads Hm V E.
  destruct (w_stitch _ _ _ V) as (v1 & F2 & B2). destruct (w_jump _ _ _ V) as (v2 & F3 & B3).
  apply (transcode_fwalk fcos fsin forient m Hm Hd set p out threads); try assumption.
  - cbn [init_config rounding]. rewrite (w_round _ _ _ V). reflexivity.
  - rewrite F2. exact B2.
  - rewrite F3. exact B3.
  - unfold long_ok, get. destruct (w_long _ _ _ V) as [-> | [-> | ->]]; tauto.
  - cbn [init_state sequin_contingency]. unfold EncoderMetricProofs.sequins_ok, get.
    destruct (w_sequin _ _ _ V) as [-> | (v & -> & Hv)].
    + destruct (s_strip_sequins N set) as [[]|]; tauto.
    + cbn [In] in Hv. intuition.
  - exact (source_ffits m set _ V).
Qed.

Lemma fwritten_cmds : forall l, map scmd (fwritten l) = map scmd l.
Proof.
  intros l. unfold fwritten. generalize 0 at 1 3. generalize 0 at 1 2.
  induction l as [|a l IH]; intros y x; [reflexivity|]. cbn [quantise apply_rel map scmd]. rewrite IH. reflexivity.
Qed.

Lemma fencoded_written : direction_near -> forall m set (p : pattern N) out threads, 1 <= m <= 2047 ->
  float_savable m set (p_stitches N p) -> transcode N set p = Ok (out, threads) ->
  iwalk m 0 0 (fwritten out) /\
  Forall (fun a => In (cmd_of (scmd a)) [STITCH; JUMP; TRIM; STOP; END; COLOR_CHANGE] \/
    (In (cmd_of (scmd a)) [SEQUIN_MODE; SEQUIN_EJECT] /\ sequins_requested set (p_stitches N p))) (fwritten out) /\
  sequin_discipline (fwritten out).
Proof.
  intros Hd m set p out threads Hm V E. split; [|split].
  - apply (fwalk_written m Hm out 0 0 0 0); [exact (transcode_ffits Hd _ _ _ _ _ Hm V E)|apply fnear_0|apply fnear_0].
  - apply (forall_cmds R Z (fun c => In (cmd_of c) _ \/ In (cmd_of c) _ /\ _) out); [apply fwritten_cmds|].
    pose proof (w_speeds _ _ _ V) as Hq. pose proof (w_change _ _ _ V) as Hc.
    rewrite <- (transcode_speeds N false) in E by exact Hq. apply C23_core_commands in E.
    eapply Forall_impl; [|exact E]. intros a Ha. unfold is_cmd in Ha. unfold cmd_of. change COMMAND_MASK with 255.
    assert (S : ~ speeds_requested (with_speeds N false set)) by (unfold speeds_requested; cbn; tauto).
    change (requested_change (with_speeds N false set)) with (requested_change set) in Ha.
    change (sequins_requested (with_speeds N false set)) with (sequins_requested set) in Ha.
    rewrite !Z.eqb_eq in Ha. cbn [In]. change (NumModel.F N) with R in *.
    generalize dependent (Z.land (scmd a) 255). intros k Ha.
    destruct Ha as [->|[->|[->|[->|[->|[[-> _]|[[-> ?]|[[[->| ->] ?]|[_ ?]]]]]]]]]; try tauto.
  - apply (discipline_cmds R Z out); [apply fwritten_cmds|]. apply (C28_sequin_discipline N set p out threads E).
Qed.

Lemma fend_last : forall out : list (stitch R), ends_once out -> end_last (fwritten out) /\
  Exists (fun s => cmd_of (scmd s) = END) (fwritten out).
Proof.
  intros out (body & e & -> & He & Hb).
  assert (X : forall (l : list (stitch Z)) b (e : stitch R), map scmd l = map scmd (b ++ [e]) -> is_cmd END e = true ->
    Forall (fun a => is_cmd END a = false) b ->
    (exists a, l = before_end l ++ [a]) /\ Exists (fun s => cmd_of (scmd s) = END) l).
  { induction l as [|a l IH]; intros b e' E He' Hb'.
    - destruct b; discriminate.
    - destruct b as [|a' b].
      + cbn [app map] in E. injection E as E1 E2. destruct l; [|discriminate]. unfold is_cmd in He'. apply Z.eqb_eq in He'.
        assert (Q : cmd_of (scmd a) = END) by (unfold cmd_of; change COMMAND_MASK with 255; rewrite E1; exact He').
        split; [|left; exact Q]. cbn [before_end]. rewrite Q, Z.eqb_refl. eexists. reflexivity.
      + cbn [app map] in E. injection E as E1 E2. inversion Hb' as [|? ? Ha Hr]; subst.
        destruct (IH b e' E2 He' Hr) as [[a1 L] Ex]. split; [|right; exact Ex].
        cbn [before_end]. unfold is_cmd in Ha. unfold cmd_of. change COMMAND_MASK with 255. rewrite E1, Ha.
        exists a1. cbn [app]. rewrite <- L. reflexivity. }
  destruct (X (fwritten (body ++ [e])) body e (fwritten_cmds _) He Hb) as [A B].
  split; [right; exact A|exact B].
Qed.

Lemma fencoded_representable : forall m (set : settings N) (p : pattern N) out threads, 1 <= m <= 2047 ->
  direction_near -> float_savable m set (p_stitches N p) -> ~ sequins_requested set (p_stitches N p) ->
  transcode N set p = Ok (out, threads) ->
  representable m [STITCH; JUMP] [COLOR_CHANGE; STOP; TRIM; END] 0 0 (fwritten out) /\
  end_last (fwritten out) /\ Exists (fun s => cmd_of (scmd s) = END) (fwritten out).
Proof.
  intros m set p out threads Hm Ho V Hr E.
  destruct (fencoded_written Ho m set p out threads Hm V E) as (W & C & _).
  split; [|apply fend_last; exact (C22_single_end N set p out threads E)].
  apply reorder. apply iwalk_representable; [exact W|]. eapply Forall_impl; [|exact C].
  intros a [Ha|[_ Ha]]; [exact Ha|contradiction].
Qed.

(** ** C166 *)
(** Encoding raises nothing. *)
Theorem C166_encodes : forall m (set : settings N) (p : pattern N), 1 <= m <= 2047 -> float_savable m set (p_stitches N p) ->
  exists out threads, transcode N set p = Ok (out, threads).
Proof.
  intros m set p Hm V. apply transcode_ftotal.
  - destruct (w_stitch _ _ _ V) as (v1 & F2 & B2). destruct (w_jump _ _ _ V) as (v2 & F3 & B3). unfold ready.
    cbn [init_state max_stitch max_jump]. rewrite F2, F3. cbn [get limit_pos]. split; lra.
  - cbn [init_config needle_count]. unfold get. pose proof (w_needles _ _ _ V). destruct (s_needle_count N set); [congruence|lia].
  - assert (G : forall l, Forall (fun a => fcoord fcos fsin forient (init_matrix N set) a /\ fop_bounded m a (classify (cmd_of (scmd a)))) l ->
      Forall (fun a => op_safe a (classify (cmd_of (scmd a)))) (until_end l)).
    { induction l as [|a l IH]; intros H; [constructor|]. inversion H as [|? ? [_ Ha] Hl]; subst. cbn [until_end].
      destruct (is_cmd END a); [constructor|]. constructor; [|apply IH; exact Hl].
      destruct (classify (cmd_of (scmd a))); cbn [fop_bounded op_safe] in *; try exact I; try contradiction; lra. }
    apply G. exact (source_ffits m set _ V).
Qed.

(** The written displacements are within the format's range, and zero for commands that do not move the needle. *)
Theorem C166_steps_fit : forall m (set : settings N) (p : pattern N) out threads,
  direction_near -> 1 <= m <= 2047 -> float_savable m set (p_stitches N p) ->
  transcode N set p = Ok (out, threads) ->
  Forall (fun d => - m <= sx d <= m /\ - m <= sy d <= m /\ (travels (scmd d) \/ sx d = 0 /\ sy d = 0)) (quantise qz_f 0 0 out).
Proof.
  intros m set p out threads Hd Hm V E.
  destruct (fencoded_written Hd m set p out threads Hm V E) as (W & _ & _). unfold fwritten in W.
  revert W. generalize (quantise qz_f 0 0 out). generalize 0 at 1 3. generalize 0 at 1 2. intros y x l. revert x y.
  induction l as [|d l IH]; intros x y W; [constructor|]. cbn [apply_rel iwalk sx sy scmd] in W. destruct W as (S & T & W).
  constructor; [|exact (IH _ _ W)]. unfold step_within in S. split; [lia|]. split; [lia|]. destruct T as [T|T]; [left; exact T|right; lia].
Qed.

(** The writer of DST raises nothing, and what is read back are the commands of the encoded pattern at the written positions. *)
Theorem C166_dst : forall trims (set : settings N) (p : pattern N) out threads,
  direction_near -> float_savable 121 set (p_stitches N p) -> transcode N set p = Ok (out, threads) ->
  exists bs, dst_body qz_f trims out = Ok bs /\ bytes_ok bs /\
    dst_read_raw bs = closed (dst_view (trim_offsets trims) (before_end (fwritten out))).
Proof.
  intros trims set p out threads Ho V E.
  destruct (fencoded_written Ho 121 set p out threads ltac:(lia) V E) as (W & C & D).
  destruct (dst_roundtrip_gen true trims (fwritten out)) as (bs & B1 & B2 & B3).
  { apply (iwalk_dst (fwritten out) [] 0 0 W); [|exact D].
    eapply Forall_impl; [|exact C]. intros a [Ha|[Ha _]]; cbn [In] in *; tauto. }
  exists bs. split; [|auto]. unfold dst_body in *. unfold fwritten in B1. rewrite quantise_snap in B1. exact B1.
Qed.
Theorem C166_exp : forall (set : settings N) (p : pattern N) out threads,
  direction_near -> float_savable 127 set (p_stitches N p) -> ~ sequins_requested set (p_stitches N p) ->
  transcode N set p = Ok (out, threads) ->
  exp_read (exp_write qz_f out) = closed (renamed (as_color_change [END]) (fwritten out)).
Proof.
  intros set p out threads Ho V Hr E.
  destruct (fencoded_written Ho 127 set p out threads ltac:(lia) V E) as (W & C & _).
  rewrite <- exp_roundtrip.
  - unfold exp_write, fwritten. rewrite quantise_snap. reflexivity.
  - apply iwalk_representable; [exact W|]. eapply Forall_impl; [|exact C]. intros a [Ha|[_ Ha]]; [exact Ha|contradiction].
Qed.
Theorem C166_pec : forall (set : settings N) (p : pattern N) out threads q,
  direction_near -> float_savable 2047 set (p_stitches N p) -> ~ sequins_requested set (p_stitches N p) ->
  transcode N set p = Ok (out, threads) ->
  pec_read (pec_encode qz_f out ++ 0 :: q) = closed (pec_view true true 0 0 (before_end (fwritten out))).
Proof.
  intros set p out threads q Ho V Hr E.
  destruct (fencoded_representable 2047 set p out threads ltac:(lia) Ho V Hr E) as (R & _ & X).
  rewrite <- (pec_roundtrip (fwritten out) q R X). unfold pec_encode, fwritten. rewrite quantise_snap. reflexivity.
Qed.

Theorem C166_jef : forall (set : settings N) (p : pattern N) out threads
    teq near near2 (thread_of : Z -> tref) trims m date w h hw hh,
  direction_near -> float_savable 127 set (p_stitches N p) -> requested_change set = COLOR_CHANGE ->
  ~ sequins_requested set (p_stitches N p) ->
  Forall (fun a => is_cmd TIE_ON a = false /\ is_cmd TIE_OFF a = false) (p_stitches N p) ->
  transcode N set p = Ok (out, threads) ->
  sews out -> starts_sewing out -> Z.of_nat (thread_commands out) < 2 ^ 27 ->
  (forall t, 1 <= near t < 2 ^ 32) -> (forall t i, 1 <= near2 t i < 2 ^ 32) -> length date = 14%nat ->
  exists palette file,
    jef_write qz_f teq near near2 trims m date w h hw hh threads out = Ok file /\
    jef_write_palette teq near near2 threads out = Ok palette /\
    jef_read thread_of file
    = Ok (closed (jef_view (if trims then Z.to_nat m else 0) false (before_end (fwritten out))),
          map (fun i => Some (thread_of i)) (filter (fun i => negb (i =? 0)) palette)).
Proof.
  intros set p out threads teq near near2 thread_of trims m date w h hw hh Ho V Hc Hr Ht E Hw Hst Hn N1 N2 Hd.
  destruct (fencoded_representable 127 set p out threads ltac:(lia) Ho V Hr E) as (Rp & L & _).
  pose proof (C25_threads_match_changes N set p out threads E Hc Ht Hw) as T.
  pose proof (fwritten_cmds out) as WC.
  assert (Cc : color_changes (fwritten out) = color_changes out /\ thread_commands (fwritten out) = thread_commands out).
  { assert (Y : forall (f : Z -> bool) (l : list (stitch Z)) (l' : list (stitch R)), map scmd l = map scmd l' ->
       length (filter (fun s => f (scmd s)) l) = length (filter (fun s => f (scmd s)) l')).
    { intros f l. induction l as [|a l IH]; intros [|a' l'] Q; try discriminate; [reflexivity|].
      cbn [map] in Q. injection Q as Q1 Q2. cbn [filter]. rewrite Q1. specialize (IH _ Q2).
      destruct (f (scmd a')); cbn [length]; congruence. }
    split; [exact (Y (fun c => cmd_of c =? COLOR_CHANGE) _ _ WC)|
      exact (Y (fun c => (cmd_of c =? COLOR_CHANGE) || (cmd_of c =? STOP)) _ _ WC)]. }
  destruct Cc as [C1 C2].
  assert (M : map (fun s => cmd_of (scmd s)) (fwritten out) = map (fun s => cmd_of (scmd s)) out).
  { rewrite <- (map_map scmd cmd_of (fwritten out)), <- (map_map scmd cmd_of out), WC. reflexivity. }
  destruct (C11_jef_write_read tref teq near near2 thread_of trims m date w h hw hh threads (fwritten out))
    as (palette & file & A & B & D); try assumption.
  - destruct out as [|a out']; [exact Hst|]. destruct (fwritten (a :: out')) as [|b l]; [discriminate|].
    cbn [map] in WC. injection WC as WC _. unfold starts_sewing in *. rewrite WC. exact Hst.
  - rewrite C1. change (count_cmd COLOR_CHANGE out) with (Z.of_nat (color_changes out)) in T. lia.
  - rewrite C2. exact Hn.
  - exists palette, file. split; [|split; [|exact D]].
    + rewrite <- A. unfold jef_write, jef_write_palette. rewrite M. unfold jef_body, fwritten. rewrite quantise_snap. reflexivity.
    + rewrite <- B. unfold jef_write_palette. rewrite M. reflexivity.
Qed.

(** ** C167 *)
(** The point [z] is at most half a unit away from where the settings put the stitch, on each axis. *)
Definition fhalf_unit (set : settings N) (a : stitch R) (z : Z * Z) : Prop :=
  (Rabs (fst (put set a) - IZR (fst z)) <= / 2 /\ Rabs (snd (put set a) - IZR (snd z)) <= / 2)%R.
(** The stitches of the design up to its END, in order, are among the needle points; or are all of them. *)
Definition fstitches_kept (set : settings N) (src : list (stitch R)) (points : list (Z * Z)) : Prop :=
  exists zs, Forall2 (fhalf_unit set) (filter sews_src (until_end src)) zs /\ EncoderSpec.subseq zs points.
Definition fstitches_exact (set : settings N) (src : list (stitch R)) (points : list (Z * Z)) : Prop :=
  Forall2 (fhalf_unit set) (filter sews_src (until_end src)) points.

Definition fnear_point (p : R * R) (z : Z * Z) : Prop := fnear (fst p) (fst z) /\ fnear (snd p) (snd z).
Lemma fpoints_quantised : forall m l x y xx yy, 1 <= m <= 2047 -> fwalk m x y l -> fnear x xx -> fnear y yy ->
  Forall2 fnear_point (needle_points l) (needle_points (apply_rel xx yy (quantise qz_f xx yy l))).
Proof.
  induction l as [|s l IH]; intros x y xx yy Hm W Nx Ny; [constructor|]. cbn [quantise apply_rel sx sy scmd]. rewrite !points_cons. cbn [scmd sx sy].
  cbn [fwalk] in W. destruct W as [(Gx & Gy & _) W].
  pose proof (fnear_next m Hm _ _ _ Nx Gx) as Nx'. pose proof (fnear_next m Hm _ _ _ Ny Gy) as Ny'.
  apply Forall2_app; [|exact (IH _ _ _ _ Hm W Nx' Ny')]. destruct (_ =? _); constructor; [|constructor]. split; assumption.
Qed.

Definition rounded_to (set : settings N) (a : stitch R) (q : R * R) : Prop :=
  (exists z, q = (IZR (fst z), IZR (snd z)) /\ fhalf_unit set a z).
Lemma fsewn : forall m set (a : stitch R) q src, float_savable m set src -> sewn_at (N := N) set a = Ok q -> rounded_to set a q.
Proof.
  intros m set a q src V E. unfold sewn_at in E. rewrite (w_round _ _ _ V) in E. unfold rounded_to, fhalf_unit.
  assert (P : put set a = point_in_matrix_space N (init_matrix N set) (@sx (NumModel.F N) a) (@sy (NumModel.F N) a)) by reflexivity.
  rewrite P. clear P. destruct (point_in_matrix_space N (init_matrix N set) (@sx (NumModel.F N) a) (@sy (NumModel.F N) a)) as [px py].
  cbn [fround FNum bindr] in E. injection E as <-. cbn [fst snd].
  exists (ZnearestE px, ZnearestE py). split; [reflexivity|]. split; apply near_half.
Qed.
(** Without transformations, doubles stay where they are. *)
Theorem C167_put_plain : forall (set : settings N) a, s_translate N set = None -> s_scale N set = None -> s_rotate N set = None ->
  coordinates_within 20 [a] -> put set a = (sx a, sy a).
Proof.
  intros set a P1 P2 P3 A. inversion A as [|? ? [[Fx Bx] [Fy By]] _]; subst. unfold put, init_matrix. rewrite P1, P2, P3.
  exact (identity_point fcos fsin forient (sx a) (sy a) Bx By Fx Fy).
Qed.
Lemma fsubseq_near : forall set qs ps, EncoderSpec.subseq qs ps -> forall zs l, Forall2 fnear_point ps zs -> Forall2 (rounded_to set) l qs ->
  exists ws, EncoderSpec.subseq ws zs /\ Forall2 (fhalf_unit set) l ws.
Proof.
  intros set. induction 1 as [|p q l _ IH|p q l _ IH]; intros zs src F W.
  - inversion F; subst. inversion W; subst. exists []. split; constructor.
  - inversion F as [|? z ? zs' Hz Fz]; subst. destruct (IH _ _ Fz W) as (ws & A & B). exists ws. split; [constructor; exact A|exact B].
  - inversion F as [|? z ? zs' Hz Fz]; subst. inversion W as [|a ? src' ? Wp Wq]; subst. destruct (IH _ _ Fz Wq) as (ws & A & B).
    exists (z :: ws). split; [constructor; exact A|]. constructor; [|exact B].
    destruct Wp as (w & -> & Hw). destruct Hz as [[_ N1] [_ N2]]. cbn [fst snd] in *.
    specialize (N1 (whole_Z _)). specialize (N2 (whole_Z _)). apply eq_IZR in N1, N2. destruct w, z. cbn [fst snd] in *. subst. exact Hw.
Qed.
Lemma forall2_len : forall A B (P : A -> B -> Prop) l l', Forall2 P l l' -> length l = length l'.
Proof. induction 1; cbn [length]; congruence. Qed.
Lemma subseq_refl' : forall A (l : list A), EncoderSpec.subseq l l.
Proof. induction l; constructor; assumption. Qed.
Lemma subseq_len : forall A (a b : list A), EncoderSpec.subseq a b -> length a = length b -> a = b.
Proof.
  assert (L : forall A (a b : list A), EncoderSpec.subseq a b -> (length a <= length b)%nat).
  { intros A a b H. induction H; cbn [length]; lia. }
  intros A a b H. induction H as [|p q l H IH|p q l H IH]; intros E; cbn [length] in E.
  - reflexivity.
  - apply L in H. lia.
  - f_equal. apply IH. lia.
Qed.

Lemma fencoded_points : direction_near -> forall m (set : settings N) (p : pattern N) out threads, 1 <= m <= 2047 ->
  float_savable m set (p_stitches N p) -> transcode N set p = Ok (out, threads) ->
  fstitches_kept set (p_stitches N p) (needle_points (fwritten out)) /\
  (plain_settings set ->
   Forall (fun a => has_command stitching_commands a = false) (p_stitches N p) ->
   fstitches_exact set (p_stitches N p) (needle_points (fwritten out))).
Proof.
  intros Hd m set p out threads Hm V E.
  pose proof (fpoints_quantised m out 0 0 0 0 Hm (transcode_ffits Hd m set p out threads Hm V E) fnear_0 fnear_0) as Pq.
  assert (U : forall l : list (stitch R), incl (until_end l) l).
  { induction l as [|a l IH]; intros b Hb; [exact Hb|]. cbn [until_end] in Hb. destruct (is_cmd END a); [contradiction|].
    destruct Hb as [->|Hb]; [left; reflexivity|right; exact (IH b Hb)]. }
  assert (G : forall l qs, incl l (p_stitches N p) -> Forall2 (fun a q => sewn_at (N := N) set a = Ok q) l qs -> Forall2 (rounded_to set) l qs).
  { intros l qs I F. induction F as [|a q l qs H _ IH]; constructor.
    - exact (fsewn m set a q (p_stitches N p) V H).
    - apply IH. intros b Hb. apply I. right. exact Hb. }
  assert (I0 : incl (filter sews_src (until_end (p_stitches N p))) (p_stitches N p)).
  { intros a Ha. apply filter_In in Ha. apply U. apply Ha. }
  assert (Hmx : Forall (fun a => has_command matrix_commands a = false) (until_end (p_stitches N p))).
  { pose proof (w_matrix _ _ _ V) as A. rewrite Forall_forall in *. intros a Ia. apply A. apply U. exact Ia. }
  split.
  - destruct (C24_penetrations_kept N set p out threads E Hmx) as (qs & Q & S).
    destruct (fsubseq_near _ _ _ S _ _ Pq (G _ _ I0 Q)) as (ws & A & B). exists ws. split; [exact B|exact A].
  - intros Hp Hs.
    assert (Hs' : Forall (fun a => has_command (matrix_commands ++ stitching_commands) a = false) (until_end (p_stitches N p))).
    { rewrite Forall_forall in *. intros a Ia. unfold has_command in *. rewrite existsb_app. apply orb_false_iff. split; [apply Hmx; exact Ia|apply Hs, U, Ia]. }
    pose proof (C24_no_other_penetrations N set p out threads E Hp Hs') as Q.
    destruct (fsubseq_near _ _ _ (subseq_refl' _ _) _ _ Pq (G _ _ I0 Q)) as (ws & A & B). unfold fstitches_exact.
    replace (needle_points (fwritten out)) with ws; [exact B|]. apply subseq_len; [exact A|].
    apply forall2_len in B, Pq, Q. unfold fwritten. change (NumModel.F N) with R in *. congruence.
Qed.

(** Saved as EXP or DST and loaded again, every stitch of the design is there, in order, within half a unit; nothing else is sewn
    unless tie stitches, sequins or sewn long stitches are asked for. *)
Theorem C167_exp : forall (set : settings N) (p : pattern N), direction_near ->
  float_savable 127 set (p_stitches N p) -> ~ sequins_requested set (p_stitches N p) ->
  exists out threads, transcode N set p = Ok (out, threads) /\
    fstitches_kept set (p_stitches N p) (needle_points (exp_read (exp_write qz_f out))) /\
    (plain_settings set -> Forall (fun a => has_command stitching_commands a = false) (p_stitches N p) ->
     fstitches_exact set (p_stitches N p) (needle_points (exp_read (exp_write qz_f out)))).
Proof.
  intros set p Hd V Hr. destruct (C166_encodes 127 set p ltac:(lia) V) as (out & ths & E). exists out, ths. split; [exact E|].
  rewrite (C166_exp set p out ths Hd V Hr E), points_closed, points_renamed.
  exact (fencoded_points Hd 127 set p out ths ltac:(lia) V E).
Qed.
Lemma fwritten_end : forall set (p : pattern N) out threads, transcode N set p = Ok (out, threads) ->
  needle_points (before_end (fwritten out)) = needle_points (fwritten out).
Proof.
  intros set p out threads E. destruct (fend_last out (C22_single_end N set p out threads E)) as [L X].
  destruct L as [L|L]; [rewrite L; reflexivity|]. apply points_before_end; assumption.
Qed.
Theorem C167_dst : forall trims (set : settings N) (p : pattern N), direction_near ->
  float_savable 121 set (p_stitches N p) ->
  exists out threads bs, transcode N set p = Ok (out, threads) /\ dst_body qz_f trims out = Ok bs /\
    fstitches_kept set (p_stitches N p) (needle_points (dst_read_raw bs)) /\
    (plain_settings set -> Forall (fun a => has_command stitching_commands a = false) (p_stitches N p) ->
     fstitches_exact set (p_stitches N p) (needle_points (dst_read_raw bs))).
Proof.
  intros trims set p Hd V. destruct (C166_encodes 121 set p ltac:(lia) V) as (out & ths & E).
  destruct (C166_dst trims set p out ths Hd V E) as (bs & B1 & _ & B3).
  exists out, ths, bs. split; [exact E|]. split; [exact B1|]. rewrite B3, points_closed, points_dst_view, (fwritten_end set p out ths E).
  exact (fencoded_points Hd 121 set p out ths ltac:(lia) V E).
Qed.
(** PEC files may come back with more stitches (C13), and with these. *)
Theorem C167_pec : forall (set : settings N) (p : pattern N) rest, direction_near ->
  float_savable 2047 set (p_stitches N p) -> ~ sequins_requested set (p_stitches N p) ->
  exists out threads, transcode N set p = Ok (out, threads) /\
    fstitches_kept set (p_stitches N p) (needle_points (pec_read (pec_encode qz_f out ++ 0 :: rest))).
Proof.
  intros set p rest Hd V Hr. destruct (C166_encodes 2047 set p ltac:(lia) V) as (out & ths & E). exists out, ths. split; [exact E|].
  rewrite (C166_pec set p out ths rest Hd V Hr E), points_closed.
  destruct (fencoded_points Hd 2047 set p out ths ltac:(lia) V E) as [(zs & Z1 & Z2) _]. exists zs. split; [exact Z1|].
  eapply subseq_trans; [apply points_pec_view|]. rewrite (fwritten_end set p out ths E). exact Z2.
Qed.
Theorem C167_jef : forall (set : settings N) (p : pattern N) teq near near2 (thread_of : Z -> tref) trims m date w h hw hh,
  direction_near -> float_savable 127 set (p_stitches N p) -> requested_change set = COLOR_CHANGE ->
  ~ sequins_requested set (p_stitches N p) ->
  Forall (fun a => is_cmd TIE_ON a = false /\ is_cmd TIE_OFF a = false) (p_stitches N p) ->
  (forall t, 1 <= near t < 2 ^ 32) -> (forall t i, 1 <= near2 t i < 2 ^ 32) -> length date = 14%nat ->
  exists out threads, transcode N set p = Ok (out, threads) /\
  (sews out -> starts_sewing out -> Z.of_nat (thread_commands out) < 2 ^ 27 ->
   exists file l ths, jef_write qz_f teq near near2 trims m date w h hw hh threads out = Ok file /\
     jef_read thread_of file = Ok (l, ths) /\
     fstitches_kept set (p_stitches N p) (needle_points l) /\
     (plain_settings set -> Forall (fun a => has_command stitching_commands a = false) (p_stitches N p) ->
      fstitches_exact set (p_stitches N p) (needle_points l))).
Proof.
  intros set p teq near near2 thread_of trims m date w h hw hh Hd V Hc Hr Ht N1 N2 Hdate.
  destruct (C166_encodes 127 set p ltac:(lia) V) as (out & ths & E). exists out, ths. split; [exact E|]. intros S1 S2 S3.
  destruct (C166_jef set p out ths teq near near2 thread_of trims m date w h hw hh Hd V Hc Hr Ht E S1 S2 S3 N1 N2 Hdate)
    as (palette & file & W & _ & Rd).
  do 3 eexists. split; [exact W|]. split; [exact Rd|]. rewrite points_closed, points_jef_view, (fwritten_end set p out ths E).
  exact (fencoded_points Hd 127 set p out ths ltac:(lia) V E).
Qed.
(** The code's own direction is near enough, with any cosine and sine between -1 and 1. *)
Theorem C166_direction : forall (angle : R -> R -> R -> R -> R),
  (forall t, Rabs (fcos t) <= 1 /\ Rabs (fsin t) <= 1)%R -> forall x0 y0 x1 y1 l,
  (Rabs x0 <= bpow radix2 20 -> Rabs y0 <= bpow radix2 20 -> 1 <= l <= 2047 ->
   Rabs (fst (oriented_f fcos fsin angle x0 y0 x1 y1 l) - x0) <= l + 1 /\
   Rabs (snd (oriented_f fcos fsin angle x0 y0 x1 y1 l) - y0) <= l + 1)%R.
Proof.
  intros angle H x0 y0 x1 y1 l Bx By Hl. unfold oriented_f. cbn [fst snd]. destruct (H (angle x0 y0 x1 y1)) as [Hc Hs].
  assert (G : forall x t, (Rabs x <= bpow radix2 20 -> Rabs t <= 1 -> Rabs (rnd (x + rnd (l * t)) - x) <= l + 1)%R).
  { intros x t B T.
    assert (P : (Rabs (l * t) <= l)%R) by (rewrite Rabs_mult, (Rabs_pos_eq l) by lra; nra).
    pose proof (rnd_err 11 (l * t)%R ltac:(lia) ltac:(eapply Rle_trans; [exact P|]; change (bpow radix2 11) with 2048%R; lra)) as E1.
    assert (M : (bpow radix2 (11 - 54) <= / 4)%R) by (change (/ 4)%R with (bpow radix2 (-2)); apply bpow_le; lia).
    assert (M2 : (bpow radix2 (21 - 54) <= / 4)%R) by (change (/ 4)%R with (bpow radix2 (-2)); apply bpow_le; lia).
    assert (B20 : bpow radix2 20 = 1048576%R) by (cbn; lra). assert (B21 : bpow radix2 21 = 2097152%R) by (cbn; lra).
    rewrite B20 in B. apply Rabs_le_inv in E1, P, B.
    pose proof (rnd_err 21 (x + rnd (l * t))%R ltac:(lia) ltac:(rewrite B21; apply Rabs_le; lra)) as E2.
    apply Rabs_le_inv in E2. apply Rabs_le. lra. }
  split; apply G; assumption.
Qed.
End FloatPipeline.
Print Assumptions C166_direction.
Print Assumptions C166_encodes.
Print Assumptions C166_steps_fit.
Print Assumptions C166_dst.
Print Assumptions C166_exp.
Print Assumptions C166_pec.
Print Assumptions C166_jef.
Print Assumptions C167_exp.
Print Assumptions C167_dst.
Print Assumptions C167_put_plain.
Print Assumptions C167_pec.
Print Assumptions C167_jef.

(** ** The hypotheses can be met *)
(** A direction along the axes, and a design with halves and quarters of a unit, a long move, a trim, a colour break and a length command,
    under the settings that write_embroidery makes up for EXP. *)
Definition ex_direction (x0 y0 x1 y1 l : R) : R * R := ((if Rle_dec x0 x1 then x0 + l else x0 - l)%R, y0).
Lemma ex_direction_near : direction_near ex_direction.
Proof.
  intros x0 y0 x1 y1 l _ _ Hl. unfold ex_direction. cbn [fst snd]. replace (y0 - y0)%R with 0%R by ring. rewrite Rabs_R0.
  split; [|lra]. destruct (Rle_dec x0 x1); [replace (x0 + l - x0)%R with l by ring|replace (x0 - l - x0)%R with (- l)%R by ring];
  apply Rabs_le; lra.
Qed.
Notation FEx := (FNum cos sin ex_direction).
Definition quarter (n : Z) : R := (IZR n * bpow radix2 (-2))%R.
Definition c166_src : list (stitch R) :=
  [mkS (quarter 42) (quarter 9) STITCH; mkS (quarter 5001) (quarter (-83)) STITCH; mkS (quarter 5001) (quarter (-83)) TRIM;
   mkS 50%R 0%R OPTION_MAX_STITCH_LENGTH; mkS (quarter 5001) (quarter 3) COLOR_BREAK; mkS (quarter 5) (quarter 4002) STITCH;
   mkS (quarter (-46)) (quarter 1) STITCH; mkS 0%R 0%R END].
Definition c166_set : settings FEx := read_settings FEx (prepare FEx (exp_attributes FEx IZR) []).
Lemma quarter_place : forall n, Z.abs n <= 2 ^ 20 -> f64 (quarter n) /\ (Rabs (quarter n) <= bpow radix2 20)%R.
Proof.
  intros n Hn. unfold quarter. split; [apply f64_digits; lia|].
  rewrite Rabs_mult, (Rabs_pos_eq (bpow radix2 (-2))) by apply bpow_ge_0. rewrite <- abs_IZR. apply IZR_le in Hn.
  change (IZR (2 ^ 20)) with (bpow radix2 20) in Hn. pose proof (bpow_ge_0 radix2 20). change (bpow radix2 (-2)) with (/ 4)%R. lra.
Qed.
Lemma whole_place : forall n, Z.abs n <= 2 ^ 20 -> f64 (IZR n) /\ (Rabs (IZR n) <= bpow radix2 20)%R.
Proof.
  intros n Hn. split; [apply f64_Z; lia|]. rewrite <- abs_IZR. apply IZR_le in Hn. exact Hn.
Qed.
Lemma c166_coordinates : coordinates_within 20 c166_src.
Proof.
  unfold coordinates_within, c166_src. repeat (apply Forall_cons || apply Forall_nil); cbn [sx sy];
  (split; (apply quarter_place || apply (whole_place 50) || apply (whole_place 0)); vm_compute; discriminate).
Qed.
Lemma c166_savable : float_savable cos sin ex_direction 127 c166_set c166_src.
Proof.
  constructor.
  - reflexivity.
  - exists 127%R. split; [reflexivity|]. lra.
  - exists 127%R. split; [reflexivity|]. lra.
  - left. reflexivity.
  - right. exists CONTINGENCY_SEQUIN_JUMP. split; [reflexivity|]. cbn [In]. tauto.
  - discriminate.
  - discriminate.
  - eapply Forall_impl; [|exact c166_coordinates]. intros a A.
    rewrite (C167_put_plain cos sin ex_direction c166_set a); [|reflexivity|reflexivity|reflexivity|constructor; [exact A|constructor]].
    destruct A as [[_ Bx] [_ By]]. split; assumption.
  - unfold c166_src. repeat (apply Forall_cons || apply Forall_nil); cbn [sx]; intros H; try (exfalso; destruct H; discriminate). lra.
  - unfold c166_src. repeat (apply Forall_cons || apply Forall_nil); reflexivity.
  - unfold c166_src. repeat (apply Forall_cons || apply Forall_nil); reflexivity.
  - unfold no_speeds, c166_src. repeat (apply Forall_cons || apply Forall_nil); split; reflexivity.
Qed.
(** Four points come back from the EXP file, each within half a unit of its stitch. *)
Example C167_case : exists out ths, transcode FEx c166_set (mkP FEx c166_src []) = Ok (out, ths) /\
  fstitches_exact cos sin ex_direction c166_set c166_src (needle_points (exp_read (exp_write qz_f out))) /\
  length (needle_points (exp_read (exp_write qz_f out))) = 4%nat.
Proof.
  destruct (C167_exp cos sin ex_direction c166_set (mkP FEx c166_src []) ex_direction_near c166_savable) as (out & ths & E & _ & X).
  - unfold sequins_requested. intros [H|[[H _]|H]]; try discriminate. unfold c166_src in H. cbn [p_stitches] in H.
    repeat (apply Exists_cons in H; destruct H as [H|H]; [discriminate|]). apply Exists_nil in H. exact H.
  - exists out, ths. split; [exact E|].
    assert (Q : fstitches_exact cos sin ex_direction c166_set c166_src (needle_points (exp_read (exp_write qz_f out)))).
    { apply X; [split; [left; reflexivity|]; split; left; reflexivity|]. cbn [p_stitches]. unfold c166_src. repeat (apply Forall_cons || apply Forall_nil); reflexivity. }
    split; [exact Q|]. apply forall2_len in Q. rewrite <- Q. reflexivity.
Qed.

(** The same design moved by the settings. *)
Definition c166_moved : settings FEx := read_settings FEx (prepare FEx (exp_attributes FEx IZR) [existT (value FEx) KTranslate (10%R, (-5)%R)]).
Example C166_case_moved : float_savable cos sin ex_direction 127 c166_moved c166_src /\
  put cos sin ex_direction c166_moved (mkS (quarter 42) (quarter 9) STITCH) = (quarter 82, quarter (-11)).
Proof.
  assert (P : forall n k, Z.abs n <= 2 ^ 19 -> Z.abs k <= 2 ^ 19 ->
    put cos sin ex_direction c166_moved (mkS (quarter n) (quarter k) STITCH) = (quarter (n + 40), quarter (k - 20))).
  { intros n k Hn Hk.
    assert (G : forall n, Z.abs n <= 2 ^ 20 -> rnd (quarter n) = quarter n) by (intros; apply rnd_f64, quarter_place; assumption).
    assert (T : (rnd 10 = 10 /\ rnd (-5) = -5 /\ rnd 1 = 1)%R).
    { split; [apply (rnd_Z 10); cbn; lia|]. split; [apply (rnd_Z (-5)); cbn; lia|apply (rnd_Z 1); cbn; lia]. }
    destruct T as (T1 & T2 & T3).
    unfold put, init_matrix. cbn. unfold point_in_matrix_space, post_translate, matrix_multiply, get_translate, get_identity.
    cbn [m0 m1 m2 m3 m4 m5 m6 m7 m8 f0 f1 fadd fmul FNum].
    repeat progress rewrite ?Rmult_0_r, ?Rmult_0_l, ?Rmult_1_r, ?Rmult_1_l, ?rnd_0, ?Rplus_0_r, ?Rplus_0_l, ?T1, ?T2, ?T3, ?(G n), ?(G k) by lia.
    assert (S1 : (quarter n + 10)%R = quarter (n + 40)) by (unfold quarter; rewrite plus_IZR; change (bpow radix2 (-2)) with (/ 4)%R; lra).
    assert (S2 : (quarter k + -5)%R = quarter (k - 20)) by (unfold quarter; rewrite minus_IZR; change (bpow radix2 (-2)) with (/ 4)%R; lra).
    rewrite S1, S2, !G by lia. reflexivity. }
  split; [|exact (P 42 9 ltac:(vm_compute; discriminate) ltac:(vm_compute; discriminate))].
  constructor.
  - reflexivity.
  - exists 127%R. split; [reflexivity|]. lra.
  - exists 127%R. split; [reflexivity|]. lra.
  - left. reflexivity.
  - right. exists CONTINGENCY_SEQUIN_JUMP. split; [reflexivity|]. cbn [In]. tauto.
  - discriminate.
  - discriminate.
  - assert (Z0 : (0 = quarter 0)%R) by (unfold quarter; lra).
    assert (Z50 : (50 = quarter 200)%R) by (unfold quarter; change (bpow radix2 (-2)) with (/ 4)%R; lra).
    unfold c166_src. rewrite Z0, Z50. repeat (apply Forall_cons || apply Forall_nil);
    (match goal with |- context [put _ _ _ _ (mkS (quarter ?n) (quarter ?k) ?c)] =>
      change (put cos sin ex_direction c166_moved (mkS (quarter n) (quarter k) c))
        with (put cos sin ex_direction c166_moved (mkS (quarter n) (quarter k) STITCH)) end;
     rewrite P by (vm_compute; discriminate); cbn [fst snd]; split; apply quarter_place; vm_compute; discriminate).
  - unfold c166_src. repeat (apply Forall_cons || apply Forall_nil); cbn [sx]; intros H; try (exfalso; destruct H; discriminate). lra.
  - unfold c166_src. repeat (apply Forall_cons || apply Forall_nil); reflexivity.
  - unfold c166_src. repeat (apply Forall_cons || apply Forall_nil); reflexivity.
  - unfold no_speeds, c166_src. repeat (apply Forall_cons || apply Forall_nil); split; reflexivity.
Qed.
