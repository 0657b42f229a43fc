(** Properties C122 to C125: the needles of encoded designs, and designs saved as TBF, U01 and XXX
    and loaded again. *)
From Coq Require Import Ascii String ZArith QArith Qabs List Bool Lia Lqa.
From Verif Require Import PyBase EmbConst PatternModel FunctionsModel StreamModel StreamSpec StreamProofs ThreadModel NumModel NumQ
  MatrixModel EncoderModel EncoderProofs EncoderSpec MetricSpec EncoderMetricProofs QuantModel QuantProofs
  TextModel TextProofs HelperModel DstFileModel TbfModel U01Model XxxModel FormatSpec EightBitProofs WholeModel WholeSpec WholeProofs
  PropertiesEncoder SettingsModel PropertiesSettings PropertiesPipeline FidelitySpec FidelityProofs PropertiesFidelity PropertiesWhole
  NeedleProofs MachineSpec MachineProofs.
Import ListNotations.
Open Scope Z_scope.

(** ** C122: needles *)
Section C122.
Context (N : Num).
(** How many needles there are. *)
Definition needles_set (set : settings N) : Z := match s_needle_count N set with Some n => n | None => 5 end.
(** The commands that can name a thread and a needle; whether a design names the needle [n]. *)
Definition thread_commands_of {C} (l : list (stitch C)) : list (stitch C) :=
  filter (has_command [SET_CHANGE_SEQUENCE; NEEDLE_SET; COLOR_CHANGE; COLOR_BREAK]) l.
Definition names_needle {C} (l : list (stitch C)) (n : Z) : Prop := exists a, In a (thread_commands_of l) /\ needle_of (scmd a) = Some n.

Lemma sets_thread_has : forall C (a : stitch C), sets_thread (scmd a) = has_command [SET_CHANGE_SEQUENCE; NEEDLE_SET; COLOR_CHANGE; COLOR_BREAK] a.
Proof. intros C a. unfold sets_thread, has_command, is_cmd, cmd_of. cbn [existsb]. rewrite orb_false_r, !orb_assoc. reflexivity. Qed.
Lemma filter_commands : forall C (l : list (stitch C)), filter sets_thread (map scmd l) = map scmd (thread_commands_of l).
Proof.
  intros C. induction l as [|a l IH]; [reflexivity|]. unfold thread_commands_of. cbn [map filter]. rewrite sets_thread_has.
  destruct (has_command _ a); cbn [map]; rewrite IH; reflexivity.
Qed.

(** Asked to change threads by needle, with at most 254 needles, the encoder keeps the design's
    thread list as it is, and every needle change names a needle; with fewer than 255 commands
    about threads, one the design names itself or one of those there are. *)
Theorem C122_needles : forall (set : settings N) p out threads, transcode N set p = Ok (out, threads) ->
  requested_change set = NEEDLE_SET -> needles_set set <= 254 ->
  threads = map Own (p_threads N p) /\
  Forall (fun a => is_cmd NEEDLE_SET a = true -> exists n, needle_of (scmd a) = Some n /\ 0 <= n <= 254 /\
    (zlen (thread_commands_of (p_stitches N p)) < 255 -> names_needle (p_stitches N p) n \/ 1 <= n <= needles_set set)) out.
Proof.
  intros set p out threads E Hk Hn. destruct (transcode_needles N set p out threads E Hk Hn) as [A B]. split; [exact A|].
  eapply Forall_impl; [|exact B]. intros a Ha K. destruct (Ha K) as (n & E1 & E2 & E3). exists n. split; [exact E1|]. split; [exact E2|].
  intros L. rewrite filter_commands, map_length in E3. unfold zlen in L. destruct E3 as [(c & I & S & Ec)|E3]; [lia| |right; exact E3].
  left. apply in_map_iff in I as (b & <- & Ib). exists b. split; [|exact Ec]. apply filter_In. rewrite <- sets_thread_has. auto.
Qed.
End C122.

(** ** C123 and C124: TBF and U01 *)
Section Machines.
Variables (qcos qsin : Q -> Q) (qorient : Q -> Q -> Q -> Q -> Q -> Q * Q).
Notation N := (QNum qcos qsin qorient).
Notation settings_fit := (settings_fit qcos qsin qorient).

(** As [settings_fit], without the rounding. *)
Definition lengths_fit (m : Z) (set : settings N) : Prop :=
  length_within qcos qsin qorient m (s_max_stitch N set) /\ length_within qcos qsin qorient m (s_max_jump N set) /\
  (s_long_stitch_contingency N set = None \/
   s_long_stitch_contingency N set = Some CONTINGENCY_LONG_STITCH_SEW_TO \/
   s_long_stitch_contingency N set = Some CONTINGENCY_LONG_STITCH_JUMP_NEEDLE) /\
  (s_sequin_contingency N set = None \/
   exists v, s_sequin_contingency N set = Some v /\
     In v [CONTINGENCY_SEQUIN_REMOVE; CONTINGENCY_SEQUIN_UTILIZE; CONTINGENCY_SEQUIN_JUMP; CONTINGENCY_SEQUIN_STITCH]).
(** What is asked of the settings and of the design, for a machine with steps of at most [m]: the
    lengths fit, no transformation, thread changes by needle with 2 to 254 needles, and no sequins;
    the design has no matrix commands and the lengths it sets fit. *)
Record machine_savable (m : Z) (set : settings N) (src : list (stitch Q)) : Prop := mkMS {
  w_fit : lengths_fit m set;
  w_plain : untransformed qcos qsin qorient set;
  w_change : requested_change set = NEEDLE_SET;
  w_needles : needles_set N set <= 254;
  w_sequins : ~ sequins_requested set src;
  w_source : source_fits m src;
  w_matrix : Forall (fun a => has_command matrix_commands a = false) (until_end src) }.

Hypothesis (Hturn : forall t, ~ (qcos t * qcos t + qsin t * qsin t == 0)%Q) (Hdir : direction_bounded qorient).

Lemma machine_encodes : forall m set (p : pattern N), 0 < m -> machine_savable m set (p_stitches N p) ->
  exists out, transcode N set p = Ok (out, map Own (p_threads N p)) /\ 
    Forall (fun a => is_cmd NEEDLE_SET a = true -> exists n, needle_of (scmd a) = Some n /\ 0 <= n <= 254) out.
Proof.
  intros m set p Hm [((v1 & F2 & B2) & (v2 & F3 & B3) & F4 & F5) (U1 & U2 & U3) Hk Hc Hq Hs Hx].
  assert (E : exists out threads, transcode N set p = Ok (out, threads)).
  { apply C115_encode_total; [exact Hturn| | | | |].
    - rewrite F2. exact (proj1 B2).
    - rewrite F3. exact (proj1 B3).
    - rewrite U2. exact I.
    - intros K. unfold requested_change in Hk. rewrite K in Hk. destruct (s_thread_change_command N set) as [k|]; [|discriminate].
      destruct (Z.eqb_spec k NEEDLE_SET); cbn in Hk; [discriminate|contradiction].
    - unfold source_fits in Hs. rewrite Forall_forall in Hs, Hx |- *. intros a Ia. split.
      + intros K. unfold has_command in K. cbn [existsb] in K. rewrite orb_false_r in K. apply orb_true_iff in K.
        apply (proj1 (Hs a (until_end_in _ _ Ia)) K).
      + intros K. specialize (Hx a Ia). unfold has_command, matrix_commands in *. cbn [existsb] in *. exfalso.
        rewrite orb_false_r in K. repeat rewrite orb_false_iff in Hx. destruct Hx as (_ & Hx1 & _ & Hx2 & _).
        rewrite Hx1, Hx2 in K. discriminate. }
  destruct E as (out & ths & E). destruct (C122_needles N set p out ths E Hk Hc) as [T A]. exists out. rewrite <- T. split; [exact E|].
  eapply Forall_impl; [|exact A]. intros a Ha K. destruct (Ha K) as (n & E1 & E2 & _). eauto.
Qed.

Lemma lengths_walk : forall m set (p : pattern N) out threads, 0 < m -> lengths_fit m set ->
  source_fits m (p_stitches N p) -> transcode N set p = Ok (out, threads) ->
  walk (good (rounding (init_config N set)) (inject_Z m)) 0 0 out.
Proof.
  intros m set p out threads Hm ((v1 & F2 & B2) & (v2 & F3 & B3) & F4 & F5) Hs E.
  eapply (transcode_walk qcos qsin qorient _ (inject_Z m)) with (set := set); try exact E.
  - change 0%Q with (inject_Z 0). rewrite <- Zlt_Qlt. exact Hm.
  - intros _. apply integral_Z.
  - exact Hdir.
  - reflexivity.
  - rewrite F2. exact B2.
  - rewrite F3. exact B3.
  - unfold long_ok, get. destruct F4 as [-> | [-> | ->]]; tauto.
  - cbn [init_state sequin_contingency]. unfold EncoderMetricProofs.sequins_ok, get.
    destruct F5 as [-> | (v & -> & Hv)].
    + destruct (s_strip_sequins N set) as [[]|]; tauto.
    + cbn [In] in Hv. intuition.
  - eapply Forall_impl; [|exact Hs]. intros a. apply classify_fits.
Qed.

Lemma quantised_cmds : forall C (qz : C -> Z -> Z) l x y, map scmd (quantise qz x y l) = map scmd l.
Proof. intros C qz. induction l as [|a l IH]; intros x y; [reflexivity|]. cbn [quantise map scmd]. rewrite IH. reflexivity. Qed.
Lemma no_ejects : forall set (p : pattern N) out threads, ~ sequins_requested set (p_stitches N p) ->
  transcode N set p = Ok (out, threads) -> Forall (fun e => cmd_of (scmd e) <> SEQUIN_EJECT) (quantise qz_q 0 0 out).
Proof.
  intros set p out threads Hq E. apply (forall_cmds Q Z (fun c => cmd_of c <> SEQUIN_EJECT) out); [apply quantised_cmds|].
  pose proof (C23_core_commands N set p out threads E) as C. eapply Forall_impl; [|exact C]. intros a Ha K. unfold is_cmd in Ha.
  unfold cmd_of in K. change COMMAND_MASK with 255 in K. change (F N) with Q in *. rewrite K in Ha. rewrite !Z.eqb_eq in Ha.
  destruct Ha as [Ha|[Ha|[Ha|[Ha|[Ha|[[Ha _]|[[Ha _]|[[_ Ha]|[[Ha|Ha] _]]]]]]]]]; try discriminate Ha; contradiction.
Qed.
Lemma no_speed_commands : forall set (p : pattern N) out threads, no_speeds (p_stitches N p) ->
  transcode N set p = Ok (out, threads) -> Forall quiet_ev (quantise qz_q 0 0 out).
Proof.
  intros set p out threads Hq E. apply (forall_cmds Q Z (fun c => cmd_of c <> SLOW /\ cmd_of c <> FAST) out); [apply quantised_cmds|].
  rewrite <- (transcode_speeds N false) in E by exact Hq.
  pose proof (C23_core_commands N _ p out threads E) as C. eapply Forall_impl; [|exact C]. intros a Ha. unfold is_cmd in Ha.
  assert (S : ~ speeds_requested (with_speeds N false set)) by (unfold speeds_requested; cbn; tauto).
  unfold cmd_of. change COMMAND_MASK with 255. change (F N) with Q in *. rewrite !Z.eqb_eq in Ha.
  destruct Ha as [-> | [-> | [-> | [-> | [-> | [[-> _]|[[-> _]|[[[-> | ->] _]|[_ Ha]]]]]]]]]; try (split; discriminate). contradiction.
Qed.
Lemma needles_there : forall out : list (stitch Q),
  Forall (fun a => is_cmd NEEDLE_SET a = true -> exists n, needle_of (scmd a) = Some n /\ 0 <= n <= 254) out ->
  Forall needle_there (quantise qz_q 0 0 out).
Proof.
  intros out H.
  apply (forall_cmds Q Z (fun c => cmd_of c = NEEDLE_SET -> exists n, needle_of c = Some n /\ 0 <= n <= 254) out); [apply quantised_cmds|].
  eapply Forall_impl; [|exact H]. intros a Ha K. apply Ha. unfold is_cmd. unfold cmd_of in K. change COMMAND_MASK with 255 in K. rewrite K. reflexivity.
Qed.
(** No needle change names needle 0. *)
Definition needles_count_from_one {C} (l : list (stitch C)) : Prop := ~ In (Some 0) (needle_numbers l).
Lemma needles_fine : forall out : list (stitch Q),
  Forall (fun a => is_cmd NEEDLE_SET a = true -> exists n, needle_of (scmd a) = Some n /\ 0 <= n <= 254) out ->
  needles_count_from_one out -> Forall needle_fine (quantise qz_q 0 0 out).
Proof.
  intros out H Z0.
  apply (forall_cmds Q Z (fun c => cmd_of c = NEEDLE_SET -> exists n, needle_of c = Some n /\ 1 <= n <= 254) out); [apply quantised_cmds|].
  rewrite Forall_forall in H |- *. intros a Ia K.
  assert (C : is_cmd NEEDLE_SET a = true).
  { unfold is_cmd. unfold cmd_of in K. change COMMAND_MASK with 255 in K. rewrite K. reflexivity. }
  destruct (H a Ia C) as (n & En & Bn). exists n. split; [exact En|]. destruct (Z.eq_dec n 0) as [->|]; [|lia].
  exfalso. apply Z0. rewrite <- En. unfold needle_numbers. apply in_map_iff. exists a. split; [reflexivity|]. apply filter_In. auto.
Qed.
Lemma needles_quantised : forall C (qz : C -> Z -> Z) l x y, needle_numbers (quantise qz x y l) = needle_numbers l.
Proof. intros C qz. induction l as [|a l IH]; intros x y; [reflexivity|]. cbn [quantise]. rewrite !needles_cons, IH. reflexivity. Qed.
Lemma needles_before_end : forall set (p : pattern N) out threads, transcode N set p = Ok (out, threads) ->
  needle_numbers (before_end out) = needle_numbers out.
Proof.
  intros set p out threads E. destruct (C22_single_end N set p out threads E) as (body & e & -> & He & Hb).
  assert (B : before_end (body ++ [e]) = body).
  { clear E. induction Hb as [|a l Ha _ IH]; cbn [app before_end].
    - unfold is_cmd in He. unfold cmd_of. change COMMAND_MASK with 255. rewrite He. reflexivity.
    - unfold is_cmd in Ha. unfold cmd_of. change COMMAND_MASK with 255. rewrite Ha, IH. reflexivity. }
  rewrite B, needles_app, needles_cons. unfold is_cmd in He. apply Z.eqb_eq in He. unfold cmd_of. change COMMAND_MASK with 255.
  change (F N) with Q in *. rewrite He. cbn. rewrite app_nil_r. reflexivity.
Qed.

Lemma tbf_needles_any : forall C (qz : C -> Z -> Z) l x y, tbf_needles (quantise qz x y l) = tbf_needles l.
Proof.
  intros C qz. unfold tbf_needles. induction l as [|s l IH]; intros x y; [reflexivity|].
  cbn [quantise filter scmd]. destruct (cmd_of (scmd s) =? NEEDLE_SET); cbn [map scmd]; rewrite IH; reflexivity.
Qed.

(** TBF, with rounding on as its writer asks for: if the header has room, the file is written and
    read back with the design's thread colours, its stitches and the needle changes. *)
Theorem C123_tbf : forall info (set : settings N) (p : pattern N),
  machine_savable 127 set (p_stitches N p) -> s_round N set = Some true -> tbf_colors info = map t_color (p_threads N p) ->
  exists out, transcode N set p = Ok (out, map Own (p_threads N p)) /\
  (tbf_room info out -> exists file l, tbf_write info out = Ok file /\
     tbf_read_file file = Ok (shown_name info, map (fun t => Some (t_color t)) (p_threads N p), l) /\
     stitches_kept (p_stitches N p) (needle_points l) /\
     (nothing_added qcos qsin qorient set (p_stitches N p) -> stitches_exact (p_stitches N p) (needle_points l)) /\
     (needles_count_from_one out -> needle_numbers l = needle_numbers out)).
Proof.
  intros info set p V R Hi. destruct (machine_encodes 127 set p ltac:(lia) V) as (out & E & Hn). exists out. split; [exact E|]. intros room.
  pose proof (lengths_walk 127 set p _ _ ltac:(lia) (w_fit _ _ _ V) (w_source _ _ _ V) E) as W.
  cbn [init_config rounding] in W. rewrite R in W. cbn [get] in W.
  pose proof (walk_written 127 out 0 0 0 0 W near_0 near_0) as W'.
  pose proof (iwalk_machine 127 _ 0 0 W' (no_ejects set p _ _ (w_sequins _ _ _ V) E)) as M.
  set (evl := quantise qz_q 0 0 out) in *.
  assert (Eo : exists order, tbf_thread_order out = Ok order /\ List.length order = 256%nat /\
     order = map nval (tbf_needles evl) ++ repeat 0 (256 - List.length (tbf_needles out))).
  { unfold tbf_thread_order. assert (L : Z.of_nat (List.length (tbf_needles out)) = needle_changes out) by apply needles_length.
    destruct room as (_ & _ & _ & _ & _ & _ & Rk). change (F N) with Q in *. rewrite L.
    destruct (Z.ltb_spec 256 (needle_changes out)) as [?|_]; [lia|].
    assert (X : existsb (fun n : option Z => match n with None => true | Some _ => false end) (tbf_needles out) = false).
    { clear - Hn. induction Hn as [|a l Ha _ IH]; [reflexivity|]. unfold tbf_needles in *. cbn [filter].
      destruct (cmd_of (scmd a) =? NEEDLE_SET) eqn:K; [|exact IH]. cbn [map existsb]. rewrite IH, orb_false_r.
      destruct (Ha K) as (n & En & _). unfold needle_of in En. destruct (decode_embroidery_command (scmd a)) as [[[? ?] ?] ?]. subst. reflexivity. }
    rewrite X. eexists. split; [reflexivity|]. split; [rewrite app_length, map_length, repeat_length; lia|].
    unfold evl. rewrite tbf_needles_any. reflexivity. }
  destruct Eo as (order & E1 & E2 & E3).
  destruct (C22_single_end N set p out _ E) as (body & e & Eo & _). change (F N) with Q in *.
  assert (room' := room). assert (E1' := E1). rewrite Eo in room', E1'.
  destruct (tbf_layout info body e order room' E1' E2) as (file & x0 & y0 & x1 & y1 & Wf & X & Y & F1 & F2 & F3 & F4 & F5 & F6 & F7 & F8 & F9 & F10 & F11 & F12).
  rewrite <- Eo in *.
  destruct (tbf_points evl (repeat 0 (256 - List.length (tbf_needles out))) 0 0 M) as (evs & R1 & R2 & R3).
  exists file, (closed (apply_rel 0 0 evs)). split; [exact Wf|].
  assert (Rd : tbf_read order (tbf_body qz_q out) = Ok (closed (apply_rel 0 0 evs))).
  { unfold tbf_read, tbf_body. fold evl. rewrite E3, R1. cbn [bindr]. rewrite apply_rel_end. reflexivity. }
  split.
  { unfold tbf_read_file. unfold field in F1, F10.
    change (firstn 16 (skipn 131 file)) with (firstn 0x10 (skipn 0x83 file)) in *. rewrite F1.
    assert (A : Forall Utf8Proofs.ascii (pad_right 16 (tbf_title info))).
    { destruct room as (Rn & _). apply ascii_pad_right. unfold tbf_title, short_ascii in *. destruct (tbf_name info); [apply Rn|]. asc. }
    rewrite (proj2 (Utf8Proofs.utf8_ascii _ A)), F10, F12, Rd. cbn [bindr]. rewrite F11, Hi, map_map, DstHeaderProofs.strip_pad_right. reflexivity. }
  rewrite points_closed, R2, before_end_apply. change (apply_rel 0 0 evl) with (written out). rewrite (written_end qcos qsin qorient set p _ _ E).
  destruct (encoded_points_any qcos qsin qorient set p out _ (w_plain _ _ _ V) (w_matrix _ _ _ V) E) as [P1 P2].
  split; [exact P1|]. split; [intros [C D]; exact (P2 C D)|].
  intros Zr. rewrite needles_closed, needles_apply, R3 by (apply needles_fine; assumption).
  unfold evl. rewrite <- quantise_before_end, needles_quantised. apply (needles_before_end set p out _ E).
Qed.

(** U01, without speed commands; with or without rounding, with steps up to 254. *)
Theorem C124_u01 : forall (set : settings N) (p : pattern N),
  machine_savable 254 set (p_stitches N p) -> no_speeds (p_stitches N p) ->
  exists out file, transcode N set p = Ok (out, map Own (p_threads N p)) /\ u01_write out = Ok file /\
     stitches_kept (p_stitches N p) (needle_points (u01_read_file file)) /\
     (nothing_added qcos qsin qorient set (p_stitches N p) -> stitches_exact (p_stitches N p) (needle_points (u01_read_file file))) /\
     (needles_count_from_one out -> needle_numbers (u01_read_file file) = map (option_map u01_needle) (needle_numbers out)).
Proof.
  intros set p V Hs. destruct (machine_encodes 254 set p ltac:(lia) V) as (out & E & Hn).
  pose proof (lengths_walk 254 set p _ _ ltac:(lia) (w_fit _ _ _ V) (w_source _ _ _ V) E) as W.
  pose proof (walk_written_any _ 254 out 0 0 0 0 W near_0 near_0) as W'.
  pose proof (iwalk_machine 255 _ 0 0 W' (no_ejects set p _ _ (w_sequins _ _ _ V) E)) as M.
  destruct (u01_points (quantise qz_q 0 0 out) 0 0 M (no_speed_commands set p _ _ Hs E) (needles_there out Hn)) as (bs & E1 & R2 & R3).
  destruct (C22_single_end N set p out _ E) as (body & e & Eo & _). change (F N) with Q in *.
  assert (E1' : u01_body qz_q (body ++ [e]) = Ok bs) by (rewrite <- Eo; exact E1).
  destruct (u01_layout body e bs E1') as (file & x0 & y0 & x1 & y1 & Wf & X & Y & F1 & F2 & F3 & F4 & F5 & F6 & F7 & F8).
  rewrite <- Eo in *.
  exists out, file. split; [exact E|]. split; [exact Wf|]. unfold u01_read_file, u01_read. rewrite F8, apply_rel_end, points_closed, needles_closed, R2.
  rewrite before_end_apply. change (apply_rel 0 0 (quantise qz_q 0 0 out)) with (written out). rewrite (written_end qcos qsin qorient set p _ _ E).
  destruct (encoded_points_any qcos qsin qorient set p out _ (w_plain _ _ _ V) (w_matrix _ _ _ V) E) as [P1 P2].
  split; [exact P1|]. split; [intros [C D]; exact (P2 C D)|].
  intros Zr. rewrite needles_apply, R3 by (apply needles_fine; assumption).
  rewrite <- quantise_before_end, needles_quantised. f_equal. apply (needles_before_end set p out _ E).
Qed.

(** ** XXX, with steps up to 123 *)
(** The colour of a thread of the encoded design; threads the design lacks get any colour. *)
Definition colored (t : tref) (c : Z) : Prop := match t with Own t => c = t_color t | Filler => True end.
Lemma iwalk_xxx : forall l px py, iwalk 123 px py l ->
  Forall (fun a => In (cmd_of (scmd a)) [STITCH; JUMP; TRIM; STOP; END; COLOR_CHANGE]) l -> xxx_ok px py l.
Proof.
  induction l as [|a l IH]; intros px py W H; [exact I|]. cbn [iwalk xxx_ok] in *.
  inversion H as [|? ? Ha Hl]; subst. destruct W as (S & T & W). split; [|exact (IH _ _ W Hl)].
  unfold travels in T. unfold cmd_of in *. change COMMAND_MASK with 255 in *. unfold step_within in *. cbn [In] in Ha.
  destruct Ha as [Ha|[Ha|[Ha|[Ha|[Ha|[Ha|[]]]]]]]; rewrite <- Ha in *.
  - left. auto.
  - right; left. split; [reflexivity|lia].
  - right; right. destruct T as [[T|[T|T]]|T]; try discriminate T. tauto.
  - right; right. destruct T as [[T|[T|T]]|T]; try discriminate T. tauto.
  - right; right. destruct T as [[T|[T|T]]|T]; try discriminate T. tauto.
  - right; right. destruct T as [[T|[T|T]]|T]; try discriminate T. tauto.
Qed.
Lemma points_renamed_none : forall l : list (stitch Z), needle_points (renamed (as_color_change []) l) = needle_points l.
Proof.
  induction l as [|s l IH]; [reflexivity|]. cbn [renamed]. unfold as_color_change at 1. cbn [existsb].
  rewrite points_cons. destruct (Z.eqb_spec (cmd_of (scmd s)) STOP) as [Es|Es]; rewrite points_cons, IH; cbn [scmd sx sy].
  - rewrite Es. reflexivity.
  - unfold cmd_of. rewrite <- Z.land_assoc, Z.land_diag. reflexivity.
Qed.
Theorem C125_xxx : forall (set : settings N) (p : pattern N),
  savable qcos qsin qorient 123 set (p_stitches N p) -> ~ sequins_requested set (p_stitches N p) ->
  exists out threads, transcode N set p = Ok (out, threads) /\
  (forall colors, Forall2 colored threads colors -> Forall (fun c => 0 <= c < 2 ^ 24) colors -> zlen colors < 65536 ->
   exists file l, xxx_write colors out = Ok file /\ xxx_read_file file = Ok (l, colors) /\
     stitches_kept (p_stitches N p) (needle_points l) /\
     (nothing_added qcos qsin qorient set (p_stitches N p) -> stitches_exact (p_stitches N p) (needle_points l))).
Proof.
  intros set p V Hq. destruct (savable_encodes qcos qsin qorient Hturn 123 set p ltac:(lia) V) as (out & ths & E).
  exists out, ths. split; [exact E|]. intros colors _ Hc Hl.
  destruct (encoded_written qcos qsin qorient Hdir 123 set p out ths ltac:(lia) (v_fit _ _ _ _ _ _ V) (v_source _ _ _ _ _ _ V)
    (v_speeds _ _ _ _ _ _ V) (v_change _ _ _ _ _ _ V) E) as (W & C & _).
  assert (X : xxx_ok 0 0 (written out)).
  { apply iwalk_xxx; [exact W|]. eapply Forall_impl; [|exact C]. intros a [Ha|[_ Ha]]; [exact Ha|contradiction]. }
  destruct (C22_single_end N set p out ths E) as (body & e & Eo & _). change (F N) with Q in *.
  assert (X' := X). rewrite Eo in X'. destruct (C120_xxx_file colors body e X' Hc Hl) as (file & Wf & _ & Rf). rewrite <- Eo in *.
  do 2 eexists. split; [exact Wf|]. split; [exact Rf|]. rewrite points_closed, points_renamed_none, (written_end qcos qsin qorient set p out ths E).
  exact (savable_points qcos qsin qorient 123 set p out ths V E).
Qed.

(** The settings write_embroidery completes for TBF and U01 will do, if the caller leaves these
    alone and the design does not ask for sequins; for XXX the caller has to set the lengths. *)
Theorem C123_default_settings : forall (d : sdict N) src,
  leaves_alone qcos qsin qorient [KMaxStitch; KMaxJump; KRound; KLongStitch; KSequin; KStripSequins] d ->
  leaves_alone qcos qsin qorient [KTranslate; KScale; KRotate; KNeedleCount; KThreadChange] d ->
  Forall (fun a => has_command matrix_commands a = false) (until_end src) ->
  Forall (fun a => is_cmd CONTINGENCY_SEQUIN_UTILIZE a = false) src ->
  (source_fits 127 src -> machine_savable 127 (for_format qcos qsin qorient (tbf_attributes N inject_Z) d) src /\
     s_round N (for_format qcos qsin qorient (tbf_attributes N inject_Z) d) = Some true) /\
  (source_fits 254 src -> machine_savable 254 (for_format qcos qsin qorient (u01_attributes N inject_Z) d) src).
Proof.
  intros d src H1 H2 Hx Hu.
  inversion H1 as [|? ? A1 H1a]; subst. inversion H1a as [|? ? A2 H1b]; subst. inversion H1b as [|? ? A3 H1c]; subst.
  inversion H1c as [|? ? A4 H1d]; subst. inversion H1d as [|? ? A5 H1e]; subst. inversion H1e as [|? ? A6 _]; subst.
  inversion H2 as [|? ? B1 H2a]; subst. inversion H2a as [|? ? B2 H2b]; subst. inversion H2b as [|? ? B3 H2c]; subst.
  inversion H2c as [|? ? B4 H2d]; subst. inversion H2d as [|? ? B5 _]; subst.
  assert (G : forall m m' (w : attributes N), w KMaxStitch = Some (Fin N (inject_Z m')) -> w KMaxJump = Some (Fin N (inject_Z m')) -> 0 < m' <= m ->
    (w KSequin = None \/ w KSequin = Some CONTINGENCY_SEQUIN_JUMP) -> w KThreadChange = Some NEEDLE_SET ->
    w KTranslate = None -> w KScale = None -> w KRotate = None -> source_fits m src ->
    machine_savable m (for_format qcos qsin qorient w d) src /\ s_round N (for_format qcos qsin qorient w d) = w KRound).
  { intros m m' w W1 W2 W3 W4 W5 W6 W7 W8 S.
    assert (L : for_format qcos qsin qorient w d = read_settings N (prepare N w d)) by reflexivity.
    set (set := for_format qcos qsin qorient w d) in *.
    assert (K : s_max_stitch N set = Some (Fin N (inject_Z m')) /\ s_max_jump N set = Some (Fin N (inject_Z m')) /\
       s_long_stitch_contingency N set = None /\ s_sequin_contingency N set = w KSequin /\ s_translate N set = None /\ s_scale N set = None /\
       s_rotate N set = None /\ s_needle_count N set = None /\ s_thread_change_command N set = Some NEEDLE_SET /\ s_strip_sequins N set = None /\
       s_round N set = w KRound).
    { rewrite L. unfold read_settings.
      cbn [s_max_stitch s_max_jump s_long_stitch_contingency s_sequin_contingency s_translate s_scale s_rotate s_needle_count s_thread_change_command s_strip_sequins s_round].
      repeat split; rewrite C50_settings_override;
        first [rewrite A1|rewrite A2|rewrite A3|rewrite A4|rewrite A5|rewrite A6|rewrite B1|rewrite B2|rewrite B3|rewrite B4|rewrite B5];
        (destruct (in_dec _ _ _) as [i|i]; [try assumption; try reflexivity; exfalso; clear - i; cbn [In] in i; intuition discriminate
                                           |try reflexivity; exfalso; clear - i; apply i; cbn [In]; tauto]). }
    destruct K as (K1 & K2 & K3 & K4 & K5 & K6 & K7 & K8 & K9 & K10 & K11).
    assert (P : (0 < inject_Z m' /\ inject_Z m' <= inject_Z m)%Q).
    { change 0%Q with (inject_Z 0). rewrite <- Zlt_Qlt, <- Zle_Qle. exact W3. }
    split; [|exact K11]. constructor.
    - split; [exists (inject_Z m'); split; assumption|]. split; [exists (inject_Z m'); split; assumption|]. split; [left; exact K3|].
      rewrite K4. destruct W4 as [-> | ->]; [left; reflexivity|]. right. eexists. split; [reflexivity|]. cbn [In]. tauto.
    - split; [exact K5|]. split; assumption.
    - unfold requested_change. rewrite K9, K8. reflexivity.
    - unfold needles_set. rewrite K8. lia.
    - unfold sequins_requested. rewrite K4, K10. intros [Q|[[_ Q]|Q]].
      + destruct W4 as [W4|W4]; rewrite W4 in Q; discriminate Q.
      + discriminate Q.
      + apply Exists_exists in Q as (a & Ia & Qa). rewrite Forall_forall in Hu. pose proof (Hu a Ia) as Hb. change (F N) with Q in *. congruence.
    - exact S.
    - exact Hx. }
  split; intros S.
  - eapply (G 127 127 (tbf_attributes N inject_Z)); try reflexivity; try assumption; [lia|left; reflexivity].
  - eapply (G 254 127 (u01_attributes N inject_Z)); try reflexivity; try assumption; [lia|right; reflexivity].
Qed.
End Machines.
Print Assumptions C122_needles.
Print Assumptions C123_tbf.
Print Assumptions C123_default_settings.
Print Assumptions C124_u01.
Print Assumptions C125_xxx.

(** A design with fractional coordinates, long stitches, a break that names needle 17, a colour
    change and speeds that meets the conditions, with nothing added. *)
Definition c123_src : list (stitch Q) :=
  [mkS (21 # 2) (7 # 3) STITCH; st_at 300 20 STITCH; st_at 350 40 JUMP; st_at 350 41 NEEDLE_AT;
   st_at 300 40 TRIM; st_at 50 0 OPTION_MAX_STITCH_LENGTH; st_at 20 0 (encode_thread_change COLOR_BREAK None (Some 17) None);
   mkS (61 # 3) (5 # 2) STITCH; st_at 20 300 STITCH; st_at 0 0 COLOR_CHANGE; st_at 20 300 STOP; st_at 0 0 END; st_at 5 5 STITCH].
Definition c123_threads : list thread := [mkT 0xFF0000 None None None None None None; mkT 0x0000FF None None None None None None].
Definition c123_set (w : attributes ExNum) : settings ExNum := for_format ex_cos ex_sin ex_orient w [].
Example C123_case :
  machine_savable ex_cos ex_sin ex_orient 127 (c123_set (tbf_attributes ExNum inject_Z)) c123_src /\
  machine_savable ex_cos ex_sin ex_orient 254 (c123_set (u01_attributes ExNum inject_Z)) c123_src /\ no_speeds c123_src /\
  nothing_added ex_cos ex_sin ex_orient (c123_set (tbf_attributes ExNum inject_Z)) c123_src.
Proof.
  destruct (C123_default_settings ex_cos ex_sin ex_orient [] c123_src) as [A B]; [each|each|each|each|].
  split; [apply A; each|]. split; [apply B; each|]. split; [each|].
  split; [|each]. split; [left; reflexivity|]. split; [left; reflexivity|]. left. reflexivity.
Qed.
Definition c123_info : tbf_info := mkTbf (Some (text_of "Rose")) None [0xFF0000; 0x0000FF].
(** The three needle changes, the stitches of both files and the TBF header having room. *)
Example C123_case_read :
  match transcode ExNum (c123_set (tbf_attributes ExNum inject_Z)) (mkP ExNum c123_src c123_threads) with
  | Ok (out, _) =>
      (needle_numbers out, forallb (fun s => Qle_bool (Qabs (sx s)) 1000 && Qle_bool (Qabs (sy s)) 1000) out, needle_changes out,
       match tbf_write c123_info out with
       | Ok file => match tbf_read_file file with Ok (_, cs, l) => (cs, needle_points l, needle_numbers l) | Err _ => ([], [], []) end
       | Err _ => ([], [], []) end)
  | Err _ => ([], false, 0, ([], [], []))
  end = ([Some 1; Some 17; Some 2], true, 3,
         ([Some 0xFF0000; Some 0x0000FF], [(10, 2); (300, 20); (350, 41); (20, 2); (20, 300)], [Some 1; Some 17; Some 2])).
Proof. vm_compute. reflexivity. Qed.
Example C124_case_read :
  match transcode ExNum (c123_set (u01_attributes ExNum inject_Z)) (mkP ExNum c123_src c123_threads) with
  | Ok (out, _) =>
      (needle_numbers out,
       match u01_write out with Ok file => (needle_points (u01_read_file file), needle_numbers (u01_read_file file)) | Err _ => ([], []) end)
  | Err _ => ([], ([], []))
  end = ([Some 1; Some 17; Some 2], ([(10, 2); (300, 20); (350, 41); (20, 3); (20, 300)], [Some 1; Some 3; Some 2])).
Proof. vm_compute. reflexivity. Qed.
(** For XXX the caller sets both lengths to 123. *)
Definition c125_user : sdict ExNum :=
  [existT (value ExNum) KMaxStitch (Fin ExNum (inject_Z 123)); existT (value ExNum) KMaxJump (Fin ExNum (inject_Z 123))].
Definition c125_set : settings ExNum := for_format ex_cos ex_sin ex_orient (xxx_attributes ExNum inject_Z) c125_user.
Example C125_case : savable ex_cos ex_sin ex_orient 123 c125_set c116_src /\ ~ sequins_requested c125_set c116_src /\
  nothing_added ex_cos ex_sin ex_orient c125_set c116_src /\
  match transcode ExNum c125_set (mkP ExNum c116_src c123_threads) with
  | Ok (out, ths) =>
      (ths, match xxx_write [0xFF0000; 0x0000FF] out with
            | Ok file => match xxx_read_file file with Ok (l, cs) => (needle_points l, cs) | Err _ => ([], []) end
            | Err _ => ([], []) end)
  | Err _ => ([], ([], []))
  end = (map Own c123_threads, ([(10, 2); (300, 20); (350, 41); (20, 2); (20, 300)], [0xFF0000; 0x0000FF])).
Proof.
  split; [|split; [|split; [|vm_compute; reflexivity]]].
  - constructor; [|repeat split|discriminate|discriminate|each|each|each].
    split; [reflexivity|]. split; [eexists; split; [reflexivity|split; vm_compute; congruence]|].
    split; [eexists; split; [reflexivity|split; vm_compute; congruence]|]. split; left; reflexivity.
  - intros [H|[[_ H]|H]]; [discriminate H|discriminate H|]. revert H. apply (proj1 (Forall_Exists_neg _ _)). repeat constructor; discriminate.
  - split; [|each]. split; [left; reflexivity|]. split; [left; reflexivity|]. left. reflexivity.
Qed.

(** ** C126: U01 with speed commands *)
(** With the settings the writer asks for, a stitch after SLOW and FAST is read as a trim and a
    jump, and a stitch in place after SLOW is not read at all. *)
Definition u01_points_of (src : list (stitch Q)) : res (list (Z * Z)) :=
  do '(out, _) <- transcode ExNum (c123_set (u01_attributes ExNum inject_Z)) (mkP ExNum src []);
  do file <- u01_write out;
  Ok (needle_points (u01_read_file file)).
Theorem C126_u01_speeds_refuted :
  (exists src, src = [st_at 0 0 STITCH; st_at 10 0 STITCH; st_at 0 0 SLOW; st_at 0 0 FAST; st_at 50 0 STITCH; st_at 60 0 STITCH] /\
     u01_points_of src = Ok [(0, 0); (10, 0); (60, 0)]) /\
  (exists src, src = [st_at 0 0 STITCH; st_at 10 0 STITCH; st_at 0 0 SLOW; st_at 10 0 STITCH; st_at 60 0 STITCH] /\
     u01_points_of src = Ok [(0, 0); (10, 0); (60, 0)]).
Proof. split; eexists; (split; [reflexivity|]); vm_compute; reflexivity. Qed.
Print Assumptions C126_u01_speeds_refuted.
