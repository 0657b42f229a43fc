(** Encoding followed by writing: the steps fit, and what is read back. *)
From Coq Require Import ZArith QArith Qabs List Bool Lia Lqa.
From Verif Require Import PyBase EmbConst StreamModel StreamSpec StreamProofs FunctionsModel ThreadModel NumModel NumQ
  MatrixModel EncoderModel EncoderProofs EncoderSpec MetricSpec EncoderMetricProofs QuantModel QuantProofs
  DstModel DstSpec DstFileProofs ExpModel EightBitProofs XxxModel TbfModel JefModel JefSpec PecModel PecSpec PecProofs PropertiesFormats PropertiesEncoder SettingsModel
  PropertiesSettings Tactics.
Import ListNotations.
Open Scope Z_scope.

Section Speeds.
Context (N : Num).
(** No SLOW and FAST commands: DST, EXP, JEF, PEC and TBF have none. *)
Definition no_speeds {C} (l : list (stitch C)) : Prop :=
  Forall (fun a => is_cmd SLOW a = false /\ is_cmd FAST a = false) l.

(** Without SLOW and FAST in the source it does not matter whether speeds are written. *)
Definition with_speeds (b : bool) (set : settings N) : settings N :=
  mkSettings N (s_max_stitch N set) (s_max_jump N set) (s_full_jump N set) (s_round N set) (s_needle_count N set)
    (s_thread_change_command N set) (s_strip_sequins N set) (s_sequin_contingency N set) (Some b)
    (s_explicit_trim N set) (s_tie_on N set) (s_tie_off N set) (s_long_stitch_contingency N set)
    (s_translate N set) (s_scale N set) (s_rotate N set).

Lemma main_loop_speeds : forall c b seq src rest pos (s : st N), no_speeds rest ->
  main_loop N (mkConfig (full_jump c) (rounding c) (needle_count c) (thread_change_command c) b) seq src pos rest s
  = main_loop N c seq src pos rest s.
Proof.
  intros c b seq src. induction rest as [|a rest IH]; intros pos s H; [reflexivity|]. cbn [main_loop].
  inversion H as [|? ? [H1 H2] Hr]; subst. unfold is_cmd in *.
  change (placed N (mkConfig (full_jump c) (rounding c) (needle_count c) (thread_change_command c) b) s a)
    with (placed N c s a).
  destruct (placed N c s a) as [[x y]|]; [|reflexivity]. cbn [bindr].
  replace (exec N (mkConfig (full_jump c) (rounding c) (needle_count c) (thread_change_command c) b) seq src pos
      (a :: rest) a x y (classify (cmd_of (scmd a))) (set_high N s (Z.land (scmd a) FLAGS_MASK)))
    with (exec N c seq src pos (a :: rest) a x y (classify (cmd_of (scmd a))) (set_high N s (Z.land (scmd a) FLAGS_MASK))).
  - destruct (exec N c seq src pos (a :: rest) a x y (classify (cmd_of (scmd a))) (set_high N s (Z.land (scmd a) FLAGS_MASK))) as [s1|]; [|reflexivity]. cbn [bindr].
    destruct (_ =? END); [reflexivity|]. apply IH. exact Hr.
  - unfold cmd_of. change COMMAND_MASK with 255. generalize dependent (Z.land (scmd a) 255). intros k K1 K2.
    assert (C1 : classify k <> OpSlow /\ classify k <> OpFast).
    { unfold classify.
      repeat match goal with
      | |- context [if ?c =? ?k then _ else _] =>
          destruct (Z.eqb_spec c k) as [?|?]; [split; try discriminate; subst; discriminate|]
      end; split; discriminate. }
    destruct C1 as [C1 C2]. destruct (classify k); try reflexivity; congruence.
Qed.

Lemma transcode_speeds : forall b set p, no_speeds (p_stitches N p) ->
  transcode N (with_speeds b set) p = transcode N set p.
Proof.
  intros b set p H. unfold transcode.
  change (init_config N (with_speeds b set)) with
    (mkConfig (full_jump (init_config N set)) (rounding (init_config N set)) (needle_count (init_config N set))
       (thread_change_command (init_config N set)) b).
  cbn [thread_change_command needle_count].
  destruct (build_thread_change_sequence _ _ _ _) as [seq|]; [|reflexivity]. cbn [bindr].
  change (init_state N (with_speeds b set)) with (init_state N set).
  rewrite main_loop_speeds by exact H. reflexivity.
Qed.

End Speeds.

Section Pipeline.
(** cos and sin in degrees, and the point at distance l from (x0, y0) in the direction of
    (x1, y1), of which only this is used: *)
Variables (qcos qsin : Q -> Q) (qorient : Q -> Q -> Q -> Q -> Q -> Q * Q).
Definition direction_bounded : Prop := forall x0 y0 x1 y1 l, (0 < l)%Q ->
  (- l <= fst (qorient x0 y0 x1 y1 l) - x0 /\ fst (qorient x0 y0 x1 y1 l) - x0 <= l)%Q /\
  (- l <= snd (qorient x0 y0 x1 y1 l) - y0 /\ snd (qorient x0 y0 x1 y1 l) - y0 <= l)%Q.
Notation N := (QNum qcos qsin qorient).

(** Settings and source under which a format with steps of at most [m] can be written: rounding
    on, both maximum lengths positive and at most [m], long stitches split, sequins treated in one
    of the four documented ways; the commands in the source that change these do it likewise. *)
Definition length_within (m : Z) (l : option (limit N)) : Prop :=
  exists v, l = Some (Fin N v) /\ (0 < v /\ v <= inject_Z m)%Q.
Definition settings_fit (m : Z) (set : settings N) : Prop :=
  s_round N set = Some true /\ length_within m (s_max_stitch N set) /\ length_within m (s_max_jump N set) /\
  (s_long_stitch_contingency N set = None \/
   s_long_stitch_contingency N set = Some CONTINGENCY_LONG_STITCH_SEW_TO \/
   s_long_stitch_contingency N set = Some CONTINGENCY_LONG_STITCH_JUMP_NEEDLE) /\
  (s_sequin_contingency N set = None \/
   exists v, s_sequin_contingency N set = Some v /\
     In v [CONTINGENCY_SEQUIN_REMOVE; CONTINGENCY_SEQUIN_UTILIZE; CONTINGENCY_SEQUIN_JUMP; CONTINGENCY_SEQUIN_STITCH]).
Definition source_fits (m : Z) (l : list (stitch Q)) : Prop :=
  Forall (fun a =>
    (is_cmd OPTION_MAX_JUMP_LENGTH a = true \/ is_cmd OPTION_MAX_STITCH_LENGTH a = true ->
       (0 < sx a /\ sx a <= inject_Z m)%Q) /\
    is_cmd CONTINGENCY_LONG_STITCH_NONE a = false) l.
(** ** Lemmas *)
Lemma classify_fits : forall m a, 
  ((is_cmd OPTION_MAX_JUMP_LENGTH a = true \/ is_cmd OPTION_MAX_STITCH_LENGTH a = true ->
       (0 < sx a /\ sx a <= inject_Z m)%Q) /\
    is_cmd CONTINGENCY_LONG_STITCH_NONE a = false) ->
  op_bounded (inject_Z m) a (classify (cmd_of (scmd a))).
Proof.
  intros m a [H1 H2]. unfold is_cmd in *. unfold cmd_of. change COMMAND_MASK with 255.
  generalize dependent (Z.land (scmd a) 255). intros c H1 H2. unfold classify.
  repeat match goal with
  | |- context [if ?c =? ?k then _ else _] => destruct (Z.eqb_spec c k) as [?|?]; [cbn [op_bounded]; try exact I|]
  end; cbn [op_bounded]; try exact I.
  - apply H1. left. subst c. reflexivity.
  - apply H1. right. subst c. reflexivity.
  - subst c. discriminate.
  - right. reflexivity.
  - left. reflexivity.
  - unfold EncoderMetricProofs.sequins_ok. tauto.
  - unfold EncoderMetricProofs.sequins_ok. tauto.
  - unfold EncoderMetricProofs.sequins_ok. tauto.
  - unfold EncoderMetricProofs.sequins_ok. tauto.
Qed.

Lemma transcode_fits : direction_bounded -> forall m set p out threads, 0 < m -> settings_fit m set ->
  source_fits m (p_stitches N p) -> transcode N set p = Ok (out, threads) ->
  walk (good true (inject_Z m)) 0 0 out.
Proof.
  intros Ho m set p out threads Hm (F1 & (v1 & F2 & B2) & (v2 & F3 & B3) & F4 & F5) Hs E.
  eapply (transcode_walk qcos qsin qorient true (inject_Z m)) with (set := set); try exact E.
  - change 0%Q with (inject_Z 0). rewrite <- Zlt_Qlt. exact Hm.
  - intros _. apply integral_Z.
  - exact Ho.
  - cbn [init_config rounding]. rewrite F1. reflexivity.
  - rewrite F2. exact B2.
  - rewrite F3. exact B3.
  - unfold long_ok, get. destruct F4 as [-> | [-> | ->]]; tauto.
  - cbn [init_state sequin_contingency]. unfold EncoderMetricProofs.sequins_ok, get.
    destruct F5 as [-> | (v & -> & Hv)].
    + destruct (s_strip_sequins N set) as [[]|]; tauto.
    + cbn [In] in Hv. intuition.
  - eapply Forall_impl; [|exact Hs]. intros a. apply classify_fits.
Qed.

Lemma written_cmds : forall l, map scmd (written l) = map scmd l.
Proof.
  intros l. unfold written. generalize 0 at 1 3. generalize 0 at 1 2.
  induction l as [|a l IH]; intros y x; [reflexivity|]. cbn [quantise apply_rel map scmd]. rewrite IH. reflexivity.
Qed.

(** A property of the commands alone holds of the written list. *)
Lemma forall_cmds : forall A B (P : Z -> Prop) (l : list (stitch A)) (l' : list (stitch B)),
  map scmd l' = map scmd l -> Forall (fun a => P (scmd a)) l -> Forall (fun a => P (scmd a)) l'.
Proof.
  intros A B P l l' E H. rewrite <- Forall_map in *. rewrite E. exact H.
Qed.

Lemma count_cmds : forall A B k (l : list (stitch A)) (l' : list (stitch B)),
  map scmd l' = map scmd l -> count_cmd k l' = count_cmd k l.
Proof.
  intros A B k l. induction l as [|a l IH]; intros [|a' l'] E; try discriminate; [reflexivity|].
  cbn [map] in E. injection E as E1 E2. specialize (IH _ E2). unfold count_cmd, is_cmd in *. cbn [filter].
  rewrite E1. destruct (_ =? _); cbn [length]; lia.
Qed.

Lemma discipline_cmds : forall A B (l : list (stitch A)) (l' : list (stitch B)),
  map scmd l' = map scmd l -> sequin_discipline l -> sequin_discipline l'.
Proof.
  intros A B l l' E H pre t post Eq. subst l'. rewrite map_app in E. symmetry in E. apply map_eq_app in E.
  destruct E as (pre' & q & -> & E1 & E2). destruct q as [|t' post']; [discriminate|]. injection E2 as E2 E3.
  specialize (H pre' t' post' eq_refl). unfold is_cmd in *. rewrite E2 in H.
  rewrite (count_cmds A B SEQUIN_MODE pre' pre) by (symmetry; exact E1). exact H.
Qed.

(** The written list of an encoded pattern: bounded steps, core commands, sequin discipline. *)
Lemma encoded_written : direction_bounded -> forall m set p out threads, 0 < m -> settings_fit m set ->
  source_fits m (p_stitches N p) -> no_speeds (p_stitches N p) -> requested_change set <> NEEDLE_SET ->
  transcode N set p = Ok (out, threads) ->
  iwalk m 0 0 (written out) /\
  Forall (fun a => In (cmd_of (scmd a)) [STITCH; JUMP; TRIM; STOP; END; COLOR_CHANGE] \/
    (In (cmd_of (scmd a)) [SEQUIN_MODE; SEQUIN_EJECT] /\ sequins_requested set (p_stitches N p))) (written out) /\
  sequin_discipline (written out).
Proof.
  intros Ho m set p out threads Hm Hf Hs Hq Hc E. split; [|split].
  - apply (walk_written m out 0 0 0 0); [exact (transcode_fits Ho _ _ _ _ _ Hm Hf Hs E)|apply near_0|apply near_0].
  - apply (forall_cmds Q Z (fun c => In (cmd_of c) _ \/ In (cmd_of c) _ /\ _) out); [apply written_cmds|].
    rewrite <- (transcode_speeds N false) in E by exact Hq. apply C23_core_commands in E.
    eapply Forall_impl; [|exact E]. intros a Ha. unfold is_cmd in Ha. unfold cmd_of. change COMMAND_MASK with 255.
    assert (S : ~ speeds_requested (with_speeds N false set)) by (unfold speeds_requested; cbn; tauto).
    change (requested_change (with_speeds N false set)) with (requested_change set) in Ha.
    change (sequins_requested (with_speeds N false set)) with (sequins_requested set) in Ha.
    rewrite !Z.eqb_eq in Ha. cbn [In]. change (F (QNum qcos qsin qorient)) with Q in *.
    generalize dependent (Z.land (scmd a) 255). intros k Ha.
    destruct Ha as [->|[->|[->|[->|[->|[[-> _]|[[-> ?]|[[[->| ->] ?]|[_ ?]]]]]]]]]; try tauto.
  - apply (discipline_cmds Q Z out); [apply written_cmds|]. apply (C28_sequin_discipline N set p out threads E).
Qed.

Lemma iwalk_representable : forall m l px py, iwalk m px py l ->
  Forall (fun a => In (cmd_of (scmd a)) [STITCH; JUMP; TRIM; STOP; END; COLOR_CHANGE]) l ->
  representable m [STITCH; JUMP] [TRIM; COLOR_CHANGE; STOP; END] px py l.
Proof.
  intros m. induction l as [|a l IH]; intros px py W H; [exact I|]. cbn [iwalk representable] in *.
  inversion H as [|? ? Ha Hl]; subst. destruct W as (S & T & W). split; [|exact (IH _ _ W Hl)].
  destruct T as [T|T].
  - left. split; [|exact S]. unfold travels in T. unfold cmd_of in *. change COMMAND_MASK with 255 in *. cbn [In] in *.
    destruct T as [T|[T|T]]; try tauto; try (rewrite T; tauto).
    rewrite T in Ha. repeat (destruct Ha as [Ha|Ha]; [discriminate|]). contradiction.
  - cbn [In] in *. destruct Ha as [Ha|[Ha|Ha]]; [left; tauto|left; tauto|]. right. split; [|exact T]. tauto.
Qed.

Lemma iwalk_dst : forall l pre px py, iwalk 121 px py l ->
  Forall (fun a => In (cmd_of (scmd a)) [STITCH; JUMP; TRIM; STOP; END; COLOR_CHANGE; SEQUIN_MODE; SEQUIN_EJECT]) l ->
  sequin_discipline (pre ++ l) -> dst_representable true (Z.odd (count_cmd SEQUIN_MODE pre)) px py l.
Proof.
  induction l as [|a l IH]; intros pre px py W H D; [exact I|]. cbn [iwalk dst_representable] in *.
  inversion H as [|? ? Ha Hl]; subst. destruct W as (S & T & W).
  pose proof (D pre a l eq_refl) as [D1 D2]. unfold is_cmd in D1, D2.
  split.
  - assert (T' : cmd_of (scmd a) = STITCH \/ cmd_of (scmd a) = JUMP \/ cmd_of (scmd a) = SEQUIN_EJECT \/
                 sx a = px /\ sy a = py) by (unfold travels in T; unfold cmd_of; change COMMAND_MASK with 255; tauto).
    clear T. unfold cmd_of in *. change COMMAND_MASK with 255 in *. rewrite !Z.eqb_eq in D1, D2.
    rewrite <- Z.negb_odd in D1. rewrite negb_true_iff in D1. cbn [In] in Ha.
    destruct Ha as [Ha|[Ha|[Ha|[Ha|[Ha|[Ha|[Ha|[Ha|[]]]]]]]]]; rewrite <- Ha in *;
      repeat (destruct T' as [T'|T']; [try discriminate T'|]); tauto.
  - assert (Q : Z.odd (count_cmd SEQUIN_MODE (pre ++ [a])) =
       if cmd_of (scmd a) =? SEQUIN_MODE then negb (Z.odd (count_cmd SEQUIN_MODE pre)) else Z.odd (count_cmd SEQUIN_MODE pre)).
    { unfold count_cmd. rewrite filter_app, app_length. cbn [filter].
      change (is_cmd SEQUIN_MODE a) with (cmd_of (scmd a) =? SEQUIN_MODE).
      destruct (cmd_of (scmd a) =? SEQUIN_MODE); cbn [length].
      - rewrite Nat2Z.inj_add, Z.odd_add. change (Z.odd (Z.of_nat 1)) with true. destruct (Z.odd _); reflexivity.
      - rewrite Nat.add_0_r. reflexivity. }
    rewrite <- Q. apply IH; [exact W|exact Hl|]. rewrite <- app_assoc. exact D.
Qed.
End Pipeline.

(** ** C20 *)
Section C20.
Variables (qcos qsin : Q -> Q) (qorient : Q -> Q -> Q -> Q -> Q -> Q * Q).
Notation N := (QNum qcos qsin qorient).
Notation settings_fit := (settings_fit qcos qsin qorient).

(** Every written displacement is within the format's range, for every maximum step. *)
Theorem C20_steps_fit : forall m (set : settings N) (p : pattern N) out threads,
  direction_bounded qorient -> 0 < m -> settings_fit m set -> source_fits m (p_stitches N p) ->
  transcode N set p = Ok (out, threads) ->
  Forall (fun d => - m <= sx d <= m /\ - m <= sy d <= m) (quantise qz_q 0 0 out).
Proof.
  intros m set p out threads Ho Hm Hf Hs E.
  apply (iwalk_steps m _ 0 0). apply (walk_written m out 0 0 0 0).
  - exact (transcode_fits qcos qsin qorient Ho m set p out threads Hm Hf Hs E).
  - apply near_0.
  - apply near_0.
Qed.

(** DST: the writer does not raise, with any number of jumps per trim, and what is read back are
    the commands of the encoded pattern at their rounded positions. *)
Theorem C20_dst : forall trims (set : settings N) (p : pattern N) out threads,
  direction_bounded qorient -> settings_fit 121 set -> source_fits 121 (p_stitches N p) ->
  no_speeds (p_stitches N p) -> requested_change set <> NEEDLE_SET ->
  transcode N set p = Ok (out, threads) ->
  exists bs, dst_body qz_q trims out = Ok bs /\ bytes_ok bs /\
    dst_read_raw bs = closed (dst_view (trim_offsets trims) (before_end (written out))).
Proof.
  intros trims set p out threads Ho Hf Hs Hq Hc E.
  destruct (encoded_written qcos qsin qorient Ho 121 set p out threads) as (W & C & D); try assumption; [lia|].
  destruct (dst_roundtrip_gen true trims (written out)) as (bs & B1 & B2 & B3).
  { apply (iwalk_dst (written out) [] 0 0 W); [|exact D].
    eapply Forall_impl; [|exact C]. intros a [Ha|[Ha _]]; cbn [In] in *; tauto. }
  exists bs. split; [|auto]. unfold dst_body in *. unfold written in B1. rewrite quantise_snap in B1. exact B1.
Qed.

(** EXP, unless sequins are asked for. *)
Theorem C20_exp : forall (set : settings N) (p : pattern N) out threads,
  direction_bounded qorient -> settings_fit 127 set -> source_fits 127 (p_stitches N p) ->
  no_speeds (p_stitches N p) -> requested_change set <> NEEDLE_SET -> ~ sequins_requested set (p_stitches N p) ->
  transcode N set p = Ok (out, threads) ->
  exp_read (exp_write qz_q out) = closed (renamed (as_color_change [END]) (written out)).
Proof.
  intros set p out threads Ho Hf Hs Hq Hc Hr E.
  destruct (encoded_written qcos qsin qorient Ho 127 set p out threads) as (W & C & _); try assumption; [lia|].
  rewrite <- exp_roundtrip.
  - unfold exp_write, written. rewrite quantise_snap. reflexivity.
  - apply iwalk_representable; [exact W|]. eapply Forall_impl; [|exact C]. intros a [Ha|[_ Ha]]; [exact Ha|contradiction].
Qed.

Lemma end_last_written : forall out, ends_once out -> end_last (written out) /\
  Exists (fun s => cmd_of (scmd s) = END) (written out).
Proof.
  intros out (body & e & -> & He & Hb).
  assert (X : forall (l : list (stitch Z)) b (e : stitch Q), map scmd l = map scmd (b ++ [e]) -> is_cmd END e = true ->
    Forall (fun a => is_cmd END a = false) b ->
    (exists a, l = before_end l ++ [a]) /\ Exists (fun s => cmd_of (scmd s) = END) l).
  { induction l as [|a l IH]; intros b e' E He' Hb'.
    - destruct b; discriminate.
    - destruct b as [|a' b].
      + cbn [app map] in E. injection E as E1 E2. destruct l; [|discriminate]. unfold is_cmd in He'. apply Z.eqb_eq in He'.
        assert (Q : cmd_of (scmd a) = END) by (unfold cmd_of; change COMMAND_MASK with 255; rewrite E1; exact He').
        split; [|left; exact Q]. cbn [before_end]. rewrite Q, Z.eqb_refl. eexists. reflexivity.
      + cbn [app map] in E. injection E as E1 E2. inversion Hb' as [|? ? Ha Hr]; subst.
        destruct (IH b e' E2 He' Hr) as [[a1 L] Ex]. split; [|right; exact Ex].
        cbn [before_end]. unfold is_cmd in Ha. unfold cmd_of. change COMMAND_MASK with 255. rewrite E1, Ha.
        exists a1. cbn [app]. rewrite <- L. reflexivity. }
  destruct (X (written (body ++ [e])) body e (written_cmds _) He Hb) as [A B].
  split; [right; exact A|exact B].
Qed.

Lemma reorder : forall m l px py,
  representable m [STITCH; JUMP] [TRIM; COLOR_CHANGE; STOP; END] px py l ->
  representable m [STITCH; JUMP] [COLOR_CHANGE; STOP; TRIM; END] px py l.
Proof.
  intros m. induction l as [|a l IH]; intros px py H; [exact I|]. cbn [representable In] in *.
  destruct H as [H1 H2]. split; [tauto|apply IH; exact H2].
Qed.

Lemma encoded_representable : forall m (set : settings N) (p : pattern N) out threads, 0 < m ->
  direction_bounded qorient -> settings_fit m set -> source_fits m (p_stitches N p) ->
  no_speeds (p_stitches N p) -> requested_change set <> NEEDLE_SET -> ~ sequins_requested set (p_stitches N p) ->
  transcode N set p = Ok (out, threads) ->
  representable m [STITCH; JUMP] [COLOR_CHANGE; STOP; TRIM; END] 0 0 (written out) /\
  end_last (written out) /\ Exists (fun s => cmd_of (scmd s) = END) (written out).
Proof.
  intros m set p out threads Hm Ho Hf Hs Hq Hc Hr E.
  destruct (encoded_written qcos qsin qorient Ho m set p out threads) as (W & C & _); try assumption.
  split; [|apply end_last_written; exact (C22_single_end N set p out threads E)].
  apply reorder. apply iwalk_representable; [exact W|]. eapply Forall_impl; [|exact C].
  intros a [Ha|[_ Ha]]; [exact Ha|contradiction].
Qed.

(** PEC. *)
Theorem C20_pec : forall (set : settings N) (p : pattern N) out threads q,
  direction_bounded qorient -> settings_fit 2047 set -> source_fits 2047 (p_stitches N p) ->
  no_speeds (p_stitches N p) -> requested_change set <> NEEDLE_SET -> ~ sequins_requested set (p_stitches N p) ->
  transcode N set p = Ok (out, threads) ->
  pec_read (pec_encode qz_q out ++ 0 :: q) = closed (pec_view true true 0 0 (before_end (written out))).
Proof.
  intros set p out threads q Ho Hf Hs Hq Hc Hr E.
  destruct (encoded_representable 2047 set p out threads) as (R & _ & X); try assumption; [lia|].
  rewrite <- (pec_roundtrip (written out) q R X). unfold pec_encode, written. rewrite quantise_snap. reflexivity.
Qed.

(** JEF: if something is sewn, the encoded pattern does not begin with a colour change, and the
    file is not too large for its header, the writer succeeds with the encoded pattern's own
    threads and the reader accepts the file. *)
Theorem C20_jef : forall (set : settings N) (p : pattern N) out threads
    teq near near2 (thread_of : Z -> tref) trims m date w h hw hh,
  direction_bounded qorient -> settings_fit 127 set -> source_fits 127 (p_stitches N p) ->
  no_speeds (p_stitches N p) -> requested_change set = COLOR_CHANGE -> ~ sequins_requested set (p_stitches N p) ->
  Forall (fun a => is_cmd TIE_ON a = false /\ is_cmd TIE_OFF a = false) (p_stitches N p) ->
  transcode N set p = Ok (out, threads) ->
  sews out -> starts_sewing out -> Z.of_nat (thread_commands out) < 2 ^ 27 ->
  (forall t, 1 <= near t < 2 ^ 32) -> (forall t i, 1 <= near2 t i < 2 ^ 32) -> length date = 14%nat ->
  exists palette file,
    jef_write qz_q teq near near2 trims m date w h hw hh threads out = Ok file /\
    jef_write_palette teq near near2 threads out = Ok palette /\
    jef_read thread_of file
    = Ok (closed (jef_view (if trims then Z.to_nat m else 0) false (before_end (written out))),
          map (fun i => Some (thread_of i)) (filter (fun i => negb (i =? 0)) palette)).
Proof.
  intros set p out threads teq near near2 thread_of trims m date w h hw hh Ho Hf Hs Hq Hc Hr Ht E Hw Hst Hn N1 N2 Hd.
  destruct (encoded_representable 127 set p out threads) as (R & L & _); try assumption; [lia|rewrite Hc; discriminate|].
  pose proof (C25_threads_match_changes N set p out threads E Hc Ht Hw) as T.
  pose proof (written_cmds out) as WC.
  assert (Cc : color_changes (written out) = color_changes out /\ thread_commands (written out) = thread_commands out).
  { assert (Y : forall f (l : list (stitch Z)) (l' : list (stitch Q)), map scmd l = map scmd l' ->
       length (filter (fun s => f (scmd s)) l) = length (filter (fun s => f (scmd s)) l')).
    { intros f l. induction l as [|a l IH]; intros [|a' l'] Q; try discriminate; [reflexivity|].
      cbn [map] in Q. injection Q as Q1 Q2. cbn [filter]. rewrite Q1. specialize (IH _ Q2).
      destruct (f (scmd a')); cbn [length]; congruence. }
    split; [exact (Y (fun c => cmd_of c =? COLOR_CHANGE) _ _ WC)|
      exact (Y (fun c => (cmd_of c =? COLOR_CHANGE) || (cmd_of c =? STOP)) _ _ WC)]. }
  destruct Cc as [C1 C2].
  assert (M : map (fun s => cmd_of (scmd s)) (written out) = map (fun s => cmd_of (scmd s)) out).
  { rewrite <- (map_map scmd cmd_of (written out)), <- (map_map scmd cmd_of out), WC. reflexivity. }
  destruct (C11_jef_write_read tref teq near near2 thread_of trims m date w h hw hh threads (written out))
    as (palette & file & A & B & D); try assumption.
  - destruct out as [|a out']; [exact Hst|]. destruct (written (a :: out')) as [|b l]; [discriminate|].
    cbn [map] in WC. injection WC as WC _. unfold starts_sewing in *. rewrite WC. exact Hst.
  - rewrite C1. change (count_cmd COLOR_CHANGE out) with (Z.of_nat (color_changes out)) in T. lia.
  - rewrite C2. exact Hn.
  - exists palette, file. split; [|split; [|exact D]].
    + rewrite <- A. unfold jef_write, jef_write_palette. rewrite M. unfold jef_body, written. rewrite quantise_snap. reflexivity.
    + rewrite <- B. unfold jef_write_palette. rewrite M. reflexivity.
Qed.

(** The settings write_embroidery completes for these formats fit, if the caller sets no lengths,
    rounding, long stitch or sequin contingency of their own. *)
Definition leaves_alone (ks : list key) (d : sdict N) : Prop := Forall (fun k => lookup N k d = None) ks.

Theorem C20_default_settings : forall (d : sdict N),
  leaves_alone [KMaxStitch; KMaxJump; KRound; KLongStitch; KSequin] d ->
  settings_fit 121 (read_settings N (prepare N (dst_attributes N inject_Z) d)) /\
  settings_fit 127 (read_settings N (prepare N (exp_attributes N inject_Z) d)) /\
  settings_fit 127 (read_settings N (prepare N (jef_attributes N inject_Z) d)) /\
  settings_fit 2047 (read_settings N (prepare N (pec_attributes N inject_Z) d)) /\
  settings_fit 127 (read_settings N (prepare N (tbf_attributes N inject_Z) d)) /\
  settings_fit 124 (read_settings N (prepare N (xxx_attributes N inject_Z) d)).
Proof.
  intros d H. inversion H as [|? ? H1 Ha]; subst. inversion Ha as [|? ? H2 Hb]; subst.
  inversion Hb as [|? ? H3 Hc]; subst. inversion Hc as [|? ? H4 Hd]; subst. inversion Hd as [|? ? H5 _]; subst.
  assert (G : forall m (w : attributes N), w KMaxStitch = Some (Fin N (inject_Z m)) -> w KMaxJump = Some (Fin N (inject_Z m)) ->
    w KRound = Some true -> 0 < m ->
    (w KSequin = None \/ w KSequin = Some CONTINGENCY_SEQUIN_UTILIZE \/ w KSequin = Some CONTINGENCY_SEQUIN_JUMP) ->
    settings_fit m (read_settings N (prepare N w d))).
  { intros m w W1 W2 W3 W4 W5. unfold PropertiesPipeline.settings_fit, read_settings, length_within.
    cbn [s_round s_max_stitch s_max_jump s_long_stitch_contingency s_sequin_contingency].
    rewrite !C50_settings_override, H1, H2, H3, H4, H5. cbn [in_dec list_rec list_rect key_eq].
    assert (P : (0 < inject_Z m /\ inject_Z m <= inject_Z m)%Q).
    { split; [|apply Qle_refl]. change 0%Q with (inject_Z 0). rewrite <- Zlt_Qlt. exact W4. }
    repeat match goal with |- context [in_dec key_eq ?k ?l] =>
      let b := eval vm_compute in (if in_dec key_eq k l then true else false) in
      destruct (in_dec key_eq k l) as [?|?];
      [match b with true => idtac | false => exfalso; cbn [In] in *; intuition discriminate end
      |match b with false => idtac | true => exfalso; cbn [In] in *; tauto end] end.
    split; [exact W3|]. split; [eexists; split; [exact W1|exact P]|]. split; [eexists; split; [exact W2|exact P]|].
    split; [left; reflexivity|].
    destruct W5 as [-> | [-> | ->]]; [left; reflexivity| |]; right; eexists; (split; [reflexivity|]); cbn [In]; tauto. }
  split; [|split; [|split; [|split; [|split]]]]; apply G; try reflexivity; auto.
Qed.
End C20.
Print Assumptions C20_steps_fit.
Print Assumptions C20_dst.
Print Assumptions C20_exp.
Print Assumptions C20_pec.
Print Assumptions C20_jef.
Print Assumptions C20_default_settings.

(** ** The hypotheses can be met *)
Lemma scaled_bound : forall r d m, (0 < r)%Q -> (Qabs d <= m)%Q -> (- r <= r * d / m /\ r * d / m <= r)%Q.
Proof.
  intros r d m Hr Hd. destruct (Qeq_dec m 0) as [E|E].
  - assert (Z : (r * d / m == 0)%Q) by (unfold Qdiv; rewrite E; change (/ 0)%Q with 0%Q; ring). rewrite Z. lra.
  - pose proof (Qabs_nonneg d) as P. assert (Pm : (0 < m)%Q) by lra. apply Qabs_le in Hd.
    split; [apply Qle_shift_div_l|apply Qle_shift_div_r]; try assumption; nra.
Qed.

Lemma ex_orient_bounded : direction_bounded ex_orient.
Proof.
  intros x0 y0 x1 y1 l Hl. unfold ex_orient. cbn [fst snd].
  set (m := if Qle_bool (Qabs (x1 - x0)) (Qabs (y1 - y0)) then Qabs (y1 - y0) else Qabs (x1 - x0)).
  assert (M : (Qabs (x1 - x0) <= m /\ Qabs (y1 - y0) <= m)%Q).
  { unfold m. pose proof (le_bool_spec (Qabs (x1 - x0)) (Qabs (y1 - y0))) as L. destruct (Qle_bool _ _); lra. }
  pose proof (scaled_bound l (x1 - x0) m Hl (proj1 M)). pose proof (scaled_bound l (y1 - y0) m Hl (proj2 M)). lra.
Qed.

(** A source with long moves, fractional coordinates, sequins, a break, ties and a length command. *)
Definition c20_src : list (stitch Q) :=
  [mkS (21 # 2) (7 # 3) STITCH; st_at 300 20 STITCH; mkS (601 # 2) (q 40) SEQUIN_EJECT; st_at 350 40 JUMP;
   st_at 300 40 TRIM; st_at 50 0 OPTION_MAX_STITCH_LENGTH; st_at 20 0 COLOR_BREAK; mkS (61 # 3) (q 5) STITCH; st_at 20 900 STITCH;
   st_at 20 900 STOP; st_at 0 0 END].
Definition c20_user : sdict ExNum := [existT (value ExNum) KTieOn (TieBool true); existT (value ExNum) KExplicitTrim true].
Definition c20_settings (w : attributes ExNum) : settings ExNum :=
  read_settings ExNum (prepare ExNum w c20_user).
Lemma c20_user_ok : leaves_alone ex_cos ex_sin ex_orient [KMaxStitch; KMaxJump; KRound; KLongStitch; KSequin] c20_user.
Proof. unfold leaves_alone. repeat (apply Forall_cons; [reflexivity|]). apply Forall_nil. Qed.

Example C20_case : exists out ths,
  transcode ExNum (c20_settings (dst_attributes ExNum inject_Z)) (mkP ExNum c20_src []) = Ok (out, ths) /\
  settings_fit _ _ _ 121 (c20_settings (dst_attributes ExNum inject_Z)) /\
  source_fits 121 c20_src /\ no_speeds c20_src /\
  requested_change (c20_settings (dst_attributes ExNum inject_Z)) <> NEEDLE_SET /\
  length out = 41%nat /\ length ths = 2%nat.
Proof.
  eexists. eexists. split; [vm_compute; reflexivity|].
  split; [exact (proj1 (C20_default_settings ex_cos ex_sin ex_orient _ c20_user_ok))|].
  split; [repeat (constructor; [split; [intros [H|H]; try discriminate H; split; vm_compute; congruence|reflexivity]|]); constructor|].
  split; [repeat (constructor; [split; reflexivity|]); constructor|]. split; [discriminate|]. split; reflexivity.
Qed.

(** ** C55 *)
(** What is not kept, even by the formats' own settings. *)
Definition default_encoded (w : attributes ExNum) (src : list (stitch Q)) : res (list (stitch Q) * list tref) :=
  transcode ExNum (read_settings ExNum (prepare ExNum w [])) (mkP ExNum src []).

(** DST: each SLOW or FAST is written as a stitch. *)
Theorem C55_dst_speed_refuted : exists src out ths bs,
  src = [st_at 0 0 SLOW; st_at 10 0 STITCH; st_at 20 0 STITCH] /\
  default_encoded (dst_attributes ExNum inject_Z) src = Ok (out, ths) /\
  dst_body qz_q 3 out = Ok bs /\
  length (filter (is_cmd STITCH) src) = 2%nat /\ length (filter (is_cmd STITCH) (dst_read_raw bs)) = 3%nat.
Proof.
  do 4 eexists. split; [reflexivity|]. split; [vm_compute; reflexivity|]. split; [vm_compute; reflexivity|].
  split; reflexivity.
Qed.
Print Assumptions C55_dst_speed_refuted.

(** XXX: a stitch as long as the format's own maximum is read back as a jump. *)
Theorem C55_xxx_long_stitch_refuted : exists src out ths,
  src = [st_at 0 0 STITCH; st_at 124 0 STITCH] /\
  default_encoded (xxx_attributes ExNum inject_Z) src = Ok (out, ths) /\
  exists l th, xxx_read 0 (xxx_tail qz_q out []) = Ok (l, th) /\
    length (filter (is_cmd STITCH) src) = 2%nat /\ length (filter (is_cmd STITCH) l) = 1%nat.
Proof.
  do 3 eexists. split; [reflexivity|]. split; [vm_compute; reflexivity|].
  do 2 eexists. split; [vm_compute; reflexivity|]. split; reflexivity.
Qed.
Print Assumptions C55_xxx_long_stitch_refuted.

(** JEF: with two colour changes in front the file cannot be read. *)
Theorem C55_jef_leading_changes_refuted : exists src out ths file,
  src = [st_at 0 0 COLOR_CHANGE; st_at 0 0 COLOR_CHANGE; st_at 10 0 STITCH] /\
  default_encoded (jef_attributes ExNum inject_Z) src = Ok (out, ths) /\
  jef_write qz_q (fun _ _ => false) (fun _ => 1) (fun _ _ => 2) false 3 (repeat 48 14) 10 10 5 5 ths out = Ok file /\
  jef_read (fun i => i) file = Err IndexError.
Proof.
  do 4 eexists. split; [reflexivity|]. split; [vm_compute; reflexivity|].
  split; [vm_compute; reflexivity|]. vm_compute. reflexivity.
Qed.
Print Assumptions C55_jef_leading_changes_refuted.

(** TBF: a jump to where the needle is comes back as a trim. *)
Theorem C55_tbf_jump_refuted : exists src out ths order,
  src = [st_at 10 0 STITCH; st_at 10 0 JUMP; st_at 20 0 STITCH] /\
  default_encoded (tbf_attributes ExNum inject_Z) src = Ok (out, ths) /\
  tbf_thread_order out = Ok order /\
  exists l, tbf_read order (tbf_body qz_q out) = Ok l /\
    existsb (is_cmd TRIM) src = false /\ existsb (is_cmd TRIM) l = true.
Proof.
  do 4 eexists. split; [reflexivity|]. split; [vm_compute; reflexivity|]. split; [vm_compute; reflexivity|].
  eexists. split; [vm_compute; reflexivity|]. split; reflexivity.
Qed.
Print Assumptions C55_tbf_jump_refuted.
