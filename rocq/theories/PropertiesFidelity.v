(** Properties C115 to C117: encoding raises nothing, and a design saved and loaded again has its
    stitches. *)
From Coq Require Import Ascii String ZArith QArith Qabs List Bool Lia Lqa.
From Verif Require Import PyBase EmbConst PatternModel StreamModel StreamSpec StreamProofs FunctionsModel ThreadModel NumModel NumQ
  MatrixModel EncoderModel EncoderProofs EncoderSpec MetricSpec EncoderMetricProofs EncoderTotalProofs QuantModel QuantProofs
  Utf8Model TextModel TrimProofs TrimKeepProofs
  DstModel DstSpec DstFileModel DstFileSpec DstFileProofs DstHeaderProofs DstEntryProofs DstWholeProofs DstAnyProofs
  ExpModel JefModel JefSpec PecModel PecSpec
  PropertiesEncoder SettingsModel PropertiesSettings PropertiesPipeline PropertiesDstFile FidelitySpec FidelityProofs.
Import ListNotations.
Open Scope Z_scope.

(** ** C115: encoding raises nothing *)
Section C115.
Variables (qcos qsin : Q -> Q) (qorient : Q -> Q -> Q -> Q -> Q -> Q * Q).
Notation N := (QNum qcos qsin qorient).

(** A given maximum length is positive (or infinite); a given scale is not zero on an axis. *)
Definition length_positive (l : option (limit N)) : Prop :=
  match l with Some (Fin _ v) => (0 < v)%Q | _ => True end.
Definition scale_invertible (s : option (scale_value N)) : Prop :=
  match s with
  | Some (ScaleXY _ x y) => ~ (x == 0)%Q /\ ~ (y == 0)%Q
  | Some (ScaleOne _ x) => ~ (x == 0)%Q
  | None => True
  end.
(** The same for the commands of the source that set lengths and scales. *)
Definition command_sound (a : stitch Q) : Prop :=
  (has_command [OPTION_MAX_JUMP_LENGTH; OPTION_MAX_STITCH_LENGTH] a = true -> (0 < sx a)%Q) /\
  (has_command [MATRIX_SCALE; MATRIX_SCALE_ORIGIN] a = true -> ~ (sx a == 0)%Q /\ ~ (sy a == 0)%Q).

Lemma sound_safe : forall a, command_sound a -> op_safe a (classify (cmd_of (scmd a))).
Proof.
  intros a [H1 H2]. unfold has_command, is_cmd in *. cbn [existsb] in *.
  unfold cmd_of. change COMMAND_MASK with 255. generalize dependent (Z.land (scmd a) 255). intros c H1 H2. unfold classify.
  repeat match goal with
  | |- context [if ?c =? ?k then _ else _] => destruct (Z.eqb_spec c k) as [?|?]; [cbn [op_safe]; try exact I|]
  end; cbn [op_safe]; try exact I; subst c; solve [apply H1; reflexivity|apply H2; reflexivity].
Qed.

Lemma settings_ready : (forall t, ~ (qcos t * qcos t + qsin t * qsin t == 0)%Q) -> forall set : settings N,
  length_positive (s_max_stitch N set) -> length_positive (s_max_jump N set) -> scale_invertible (s_scale N set) ->
  ready qcos qsin qorient (init_state N set).
Proof.
  intros Ht set H1 H2 H3. unfold ready. cbn [init_state max_stitch max_jump matrix].
  split; [destruct (s_max_stitch N set) as [[|]|]; [exact H1|exact I|exact I]|].
  split; [destruct (s_max_jump N set) as [[|]|]; [exact H2|exact I|exact I]|].
  unfold init_matrix.
  set (m1 := match s_translate N set with Some (tx, ty) => post_translate N (get_identity N) tx ty | None => get_identity N end).
  assert (R1 : regular qcos qsin qorient m1).
  { unfold m1. destruct (s_translate N set) as [[tx ty]|]; [apply regular_post_translate|]; apply regular_id. }
  clearbody m1.
  set (m2 := match s_scale N set with
      | Some (ScaleXY _ x y) => post_scale N m1 x y (f0 N) (f0 N)
      | Some (ScaleOne _ x) => post_scale N m1 x x (f0 N) (f0 N)
      | None => m1
      end).
  assert (R2 : regular qcos qsin qorient m2).
  { unfold m2. destruct (s_scale N set) as [[x y|x]|]; cbn [scale_invertible] in H3; [| |exact R1];
      apply regular_post_scale; tauto. }
  clearbody m2. destruct (s_rotate N set) as [t|]; [apply regular_post_rotate; assumption|exact R2].
Qed.

(** Whatever the commands and threads: with positive lengths, scales other than zero, a needle
    count other than zero and rotations that turn (cos and sin not both zero), every pattern can
    be encoded. *)
Theorem C115_encode_total : (forall t, ~ (qcos t * qcos t + qsin t * qsin t == 0)%Q) ->
  forall (set : settings N) (p : pattern N),
  length_positive (s_max_stitch N set) -> length_positive (s_max_jump N set) -> scale_invertible (s_scale N set) ->
  s_needle_count N set <> Some 0 ->
  Forall command_sound (until_end (p_stitches N p)) ->
  exists out threads, transcode N set p = Ok (out, threads).
Proof.
  intros Ht set p H1 H2 H3 H4 H5. apply transcode_total; [exact Ht|apply settings_ready; assumption| |].
  - cbn [init_config needle_count]. unfold get. destruct (s_needle_count N set); [congruence|lia].
  - eapply Forall_impl; [|exact H5]. intros a. apply sound_safe.
Qed.
End C115.

(** None of the conditions can be left out. *)
Definition only_needles (n : Z) : settings ExNum :=
  mkSettings ExNum None None None None (Some n) None None None None None None None None None None None.
Definition only_length (l : Q) : settings ExNum :=
  mkSettings ExNum (Some (Fin ExNum l)) None None None None None None None None None None None None None None None.
Definition only_scale (x y : Q) : settings ExNum :=
  mkSettings ExNum None None None None None None None None None None None None None None (Some (ScaleXY ExNum x y)) None.
Theorem C115_conditions_needed :
  transcode ExNum (only_needles 0) (mkP ExNum [] []) = Err ZeroDivisionError /\
  transcode ExNum (only_length 0%Q) (mkP ExNum [st_at 0 0 STITCH; st_at 10 0 STITCH] []) = Err ZeroDivisionError /\
  transcode ExNum (only_scale 0 1) (mkP ExNum [st_at 90 0 MATRIX_ROTATE] []) = Err ZeroDivisionError /\
  transcode ExNum (only_scale 1 1) (mkP ExNum [st_at 0 1 MATRIX_SCALE; st_at 90 0 MATRIX_ROTATE] []) = Err ZeroDivisionError /\
  transcode ExNum (only_scale 1 1) (mkP ExNum [st_at 0 0 OPTION_MAX_JUMP_LENGTH; st_at 5 0 JUMP] []) = Err ZeroDivisionError.
Proof. repeat split; vm_compute; reflexivity. Qed.
Lemma ex_turns : forall t, ~ (ex_cos t * ex_cos t + ex_sin t * ex_sin t == 0)%Q.
Proof.
  intros t. unfold ex_cos, ex_sin. destruct (Qeq_bool t 90) eqn:E1; cbn [orb]; [vm_compute; discriminate|].
  destruct (Qeq_bool t (-90)); [vm_compute; discriminate|]. destruct (Qeq_bool t 180); vm_compute; discriminate.
Qed.
(** A design with matrix and length commands that meets the conditions. *)
Definition c115_src : list (stitch Q) :=
  [st_at 5 5 STITCH; st_at 2 (-3) MATRIX_SCALE; st_at 40 9 STITCH; st_at 0 0 MATRIX_RESET; st_at 7 0 OPTION_MAX_STITCH_LENGTH;
   st_at 0 0 COLOR_CHANGE; st_at 3 3 SEQUIN_EJECT; st_at 30 0 STITCH; st_at 0 0 END; st_at 0 0 MATRIX_SCALE].
Example C115_case : Forall command_sound (until_end c115_src) /\ scale_invertible _ _ _ (s_scale _ (only_scale 1 2)) /\
  match transcode ExNum (only_scale 1 2) (mkP ExNum c115_src []) with Ok (o, _) => List.length o = 10%nat | Err _ => False end.
Proof.
  split; [|split; [split; vm_compute; discriminate|vm_compute; reflexivity]].
  repeat (constructor; [split; intros H; try discriminate H; vm_compute; try split; vm_compute; congruence|]). constructor.
Qed.
Print Assumptions C115_encode_total.
Print Assumptions C115_conditions_needed.

(** ** C116: a design saved as DST and loaded again *)
(** Everything the reader keeps of the DST body is still there after its trim interpolation. *)
Lemma points_interpolated : forall jumps dist clipping fuel l l', interpolate_trims jumps dist clipping fuel l = Ok l' ->
  needle_points l' = needle_points l.
Proof.
  intros jumps dist clipping fuel l l' H. apply interpolate_trims_keeps in H. unfold needle_points. f_equal.
  assert (X : forall k : list (stitch Q), filter (is_cmd STITCH) k = filter (is_cmd STITCH) (filter keeper k)).
  { induction k as [|s k IH]; [reflexivity|]. cbn [filter]. unfold keeper at 1. cbn [existsb].
    change (is_cmd STITCH s) with (cmd_of (scmd s) =? STITCH). destruct (cmd_of (scmd s) =? STITCH) eqn:E.
    - cbn [orb filter]. change (is_cmd STITCH s) with (cmd_of (scmd s) =? STITCH). rewrite E, IH. reflexivity.
    - cbn [orb]. destruct (_ || _); [|exact IH]. cbn [filter]. change (is_cmd STITCH s) with (cmd_of (scmd s) =? STITCH). rewrite E. exact IH. }
  rewrite X, (X l), H. reflexivity.
Qed.

Definition exact_point (z : Z * Z) : Q * Q := (inject_Z (fst z), inject_Z (snd z)).
Lemma points_of_int : forall l, needle_points (map of_int l) = map exact_point (needle_points l).
Proof.
  induction l as [|s l IH]; [reflexivity|]. cbn [map]. rewrite !points_cons, map_app, IH. f_equal. cbn [of_int scmd sx sy].
  destruct (_ =? _); reflexivity.
Qed.

(** A DST file with any body: its header is read and the body found behind it. *)
Lemma dst_file_any : forall extended t p (body : list (stitch Q)) e bs,
  info_ok extended p -> header_room extended p -> small (body ++ [e]) -> dst_body qz_q t (body ++ [e]) = Ok bs ->
  exists file h, dst_write extended t p (body ++ [e]) = Ok file /\
    forall count distance clipping fuel, (List.length file < fuel)%nat ->
    exists l, dst_read count distance clipping fuel file = Ok (l, h) /\ needle_points l = map exact_point (needle_points (dst_read_raw bs)) /\
      filter keeper l = filter keeper (map of_int (dst_read_raw bs)) /\
      interpolate_trims (Some count) (match distance with Some d => Some (d * 10)%Q | None => None end) clipping fuel
        (map of_int (dst_read_raw bs)) = Ok l.
Proof.
  intros extended t p body e bs Hi Hr [S1 S2] Ew. set (l := body ++ [e]) in *.
  assert (Nl : l <> []) by (unfold l; destruct body; discriminate).
  destruct (bounds_extent l Nl) as (x0 & y0 & x1 & y1 & Eb & X & Y).
  assert (El : match rev l with s :: _ => (q_cut (sx s), - q_cut (sy s)) | [] => (0, 0) end = (q_cut (sx e), - q_cut (sy e))).
  { unfold l. rewrite rev_app_distr. reflexivity. }
  assert (Sm : forall v, (exists s, In s l /\ (sx s == v)%Q) \/ (exists s, In s l /\ (sy s == v)%Q) -> 0 <= Z.abs (q_cut v) < 10 ^ 10).
  { intros v Hv. assert (B : (Qabs v < inject_Z (10 ^ 10))%Q).
    { rewrite Forall_forall in S2. destruct Hv as [(s & Hs & <-)|(s & Hs & <-)]; apply (S2 s Hs). }
    pose proof (whole_small v _ (whole_cut v) B). lia. }
  pose proof (Sm x0 (or_introl (proj1 X))) as B0. pose proof (Sm x1 (or_introl (proj1 (proj2 X)))) as B1.
  pose proof (Sm y0 (or_intror (proj1 Y))) as B2. pose proof (Sm y1 (or_intror (proj1 (proj2 Y)))) as B3.
  assert (Ie : In e l) by (unfold l; apply in_or_app; right; left; reflexivity).
  assert (B4 : - 10 ^ 10 < q_cut (sx e) < 10 ^ 10 /\ - 10 ^ 10 < - q_cut (sy e) < 10 ^ 10).
  { rewrite Forall_forall in S2. destruct (S2 e Ie) as [Q1 Q2].
    pose proof (whole_small _ _ (whole_cut _) Q1). pose proof (whole_small _ _ (whole_cut _) Q2). lia. }
  assert (B5 : 0 <= zlen l < 10 ^ 10) by (unfold zlen in *; lia).
  assert (B6 : 0 <= count_color_changes l < 10 ^ 10).
  { unfold count_color_changes, zlen in *. pose proof (filter_len (fun s : stitch Q => cmd_of (scmd s) =? COLOR_CHANGE) l). lia. }
  pose proof (header_text_entries extended p l _ _ _ _ _ _ Eb El) as Et.
  destruct (read_header_lines _ bs (entries_keys extended p (zlen l) (count_color_changes l) (Z.abs (q_cut x0)) (Z.abs (q_cut x1))
      (Z.abs (q_cut y0)) (Z.abs (q_cut y1)) (q_cut (sx e)) (- q_cut (sy e))) (entries_lines extended p _ _ _ _ _ _ _ _ Hi)
      (entries_size extended p _ _ _ _ _ _ _ _ Hr B5 B6 B0 B1 B2 B3 (proj1 B4) (proj2 B4))) as (h & Eh & Rh & Sh).
  eexists. eexists. split.
  { unfold dst_write. rewrite Et. cbn [bindr]. rewrite Eh. cbn [bindr]. rewrite Ew. cbn [bindr]. reflexivity. }
  intros count distance clipping fuel Hf. unfold dst_read. rewrite Rh, (read_all extended p _ _ _ _ _ _ _ _ Hi). cbn [bindr]. rewrite Sh.
  destruct (interpolate_trims_total (Some count) (match distance with Some d => Some (d * 10)%Q | None => None end) clipping fuel
      (map of_int (dst_read_raw bs))) as [l' E'].
  { rewrite map_length. unfold dst_read_raw. rewrite apply_rel_length, app_length. cbn [List.length].
    pose proof (read_loop_length _ bs false (Nat.le_refl _)). rewrite !app_length in Hf. lia. }
  exists l'. rewrite E'. cbn [bindr]. split; [reflexivity|].
  split; [rewrite (points_interpolated _ _ _ _ _ _ E'); apply points_of_int|]. split; [exact (interpolate_trims_keeps _ _ _ _ _ _ E')|reflexivity].
Qed.

Section C116.
Variables (qcos qsin : Q -> Q) (qorient : Q -> Q -> Q -> Q -> Q -> Q * Q).
Notation N := (QNum qcos qsin qorient).
Notation settings_fit := (settings_fit qcos qsin qorient).

(** What is asked of the settings and of the design, for a format with steps of at most [m]: the
    settings fit the format and ask for no transformation; the design has no matrix, speed or
    needle commands and the lengths it sets fit the format. *)
Record savable (m : Z) (set : settings N) (src : list (stitch Q)) : Prop := mkSavable {
  v_fit : settings_fit m set;
  v_plain : untransformed qcos qsin qorient set;
  v_needles : s_needle_count N set <> Some 0;
  v_change : requested_change set <> NEEDLE_SET;
  v_source : source_fits m src;
  v_speeds : no_speeds src;
  v_matrix : Forall (fun a => has_command matrix_commands a = false) (until_end src) }.
(** What makes the stitches come back one for one: no tie stitches, sequins, or stitches of SEW_TO. *)
Definition nothing_added (set : settings N) (src : list (stitch Q)) : Prop :=
  plain_settings set /\ Forall (fun a => has_command (matrix_commands ++ stitching_commands) a = false) (until_end src).

Hypothesis (Hturn : forall t, ~ (qcos t * qcos t + qsin t * qsin t == 0)%Q) (Hdir : direction_bounded qorient).

Lemma until_end_in : forall (l : list (stitch Q)) a, In a (until_end l) -> In a l.
Proof.
  induction l as [|b l IH]; intros a H; [exact H|]. cbn [until_end] in H. destruct (is_cmd END b); [contradiction|].
  destruct H as [->|H]; [left; reflexivity|right; apply IH; exact H].
Qed.
Lemma savable_encodes : forall m set (p : pattern N), 0 < m -> savable m set (p_stitches N p) ->
  exists out threads, transcode N set p = Ok (out, threads).
Proof.
  intros m set p Hm [(F1 & (v1 & F2 & B2) & (v2 & F3 & B3) & _) (U1 & U2 & U3) Hn _ Hs _ Hx].
  apply C115_encode_total; [exact Hturn| | | |exact Hn|].
  - rewrite F2. exact (proj1 B2).
  - rewrite F3. exact (proj1 B3).
  - rewrite U2. exact I.
  - unfold source_fits in Hs. rewrite Forall_forall in Hs, Hx |- *. intros a Ia. split.
    + intros K. unfold has_command in K. cbn [existsb] in K. rewrite orb_false_r in K. apply orb_true_iff in K.
      apply (proj1 (Hs a (until_end_in _ _ Ia)) K).
    + intros K. specialize (Hx a Ia). unfold has_command, matrix_commands in *. cbn [existsb] in *. exfalso.
      rewrite orb_false_r in K. repeat rewrite orb_false_iff in Hx. destruct Hx as (_ & Hx1 & _ & Hx2 & _).
      rewrite Hx1, Hx2 in K. discriminate.
Qed.

Lemma savable_points : forall m set (p : pattern N) out threads, savable m set (p_stitches N p) ->
  transcode N set p = Ok (out, threads) ->
  stitches_kept (p_stitches N p) (needle_points (written out)) /\
  (nothing_added set (p_stitches N p) -> stitches_exact (p_stitches N p) (needle_points (written out))).
Proof.
  intros m set p out threads V E.
  destruct (encoded_points qcos qsin qorient set p out threads (v_plain _ _ _ V) (proj1 (v_fit _ _ _ V)) (v_matrix _ _ _ V) E) as [A B].
  split; [exact A|]. intros [C D]. exact (B C D).
Qed.

Lemma written_end : forall set (p : pattern N) out threads, transcode N set p = Ok (out, threads) ->
  needle_points (before_end (written out)) = needle_points (written out).
Proof.
  intros set p out threads E. destruct (end_last_written out (C22_single_end N set p out threads E)) as [L X].
  destruct L as [L|L]; [rewrite L; reflexivity|]. apply points_before_end; assumption.
Qed.

(** Saved with any header texts, any number of jumps per trim and loaded with any settings for
    the trims: provided the header has room and the coordinates and the number of commands have
    at most ten digits. *)
Theorem C116_dst : forall extended trim_at info (set : settings N) (p : pattern N),
  savable 121 set (p_stitches N p) -> info_ok extended info -> header_room extended info ->
  exists out threads, transcode N set p = Ok (out, threads) /\
  (small out -> exists file loaded, dst_write extended trim_at info out = Ok file /\
    forall count distance clipping fuel, (List.length file < fuel)%nat ->
    exists l points, dst_read count distance clipping fuel file = Ok (l, loaded) /\
      needle_points l = map exact_point points /\
      stitches_kept (p_stitches N p) points /\
      (nothing_added set (p_stitches N p) -> stitches_exact (p_stitches N p) points)).
Proof.
  intros extended t info set p V Hi Hr. destruct (savable_encodes 121 set p ltac:(lia) V) as (out & ths & E).
  exists out, ths. split; [exact E|]. intros Sm.
  destruct (C20_dst qcos qsin qorient t set p out ths Hdir (v_fit _ _ _ V) (v_source _ _ _ V) (v_speeds _ _ _ V) (v_change _ _ _ V) E)
    as (bs & B1 & _ & B3).
  destruct (C22_single_end N set p out ths E) as (body & e & Eo & _). change (F N) with Q in *. rewrite Eo in Sm, B1 |- *.
  destruct (dst_file_any extended t info body e bs Hi Hr Sm B1) as (file & h & W & R).
  exists file, h. split; [exact W|]. intros count distance clipping fuel Hf.
  destruct (R count distance clipping fuel Hf) as (l & Rl & Pl & _). exists l, (needle_points (dst_read_raw bs)).
  split; [exact Rl|]. split; [exact Pl|].
  rewrite B3, points_closed, points_dst_view, (written_end set p out ths E). exact (savable_points 121 set p out ths V E).
Qed.

(** ** C117: EXP, JEF and PEC *)
Theorem C117_exp : forall (set : settings N) (p : pattern N),
  savable 127 set (p_stitches N p) -> ~ sequins_requested set (p_stitches N p) ->
  exists out threads, transcode N set p = Ok (out, threads) /\
    stitches_kept (p_stitches N p) (needle_points (exp_read (exp_write qz_q out))) /\
    (nothing_added set (p_stitches N p) -> stitches_exact (p_stitches N p) (needle_points (exp_read (exp_write qz_q out)))).
Proof.
  intros set p V Hq. destruct (savable_encodes 127 set p ltac:(lia) V) as (out & ths & E). exists out, ths. split; [exact E|].
  rewrite (C20_exp qcos qsin qorient set p out ths Hdir (v_fit _ _ _ V) (v_source _ _ _ V) (v_speeds _ _ _ V) (v_change _ _ _ V) Hq E).
  rewrite points_closed, points_renamed. exact (savable_points 127 set p out ths V E).
Qed.

(** PEC adds needle points after jumps, so the stitches are among others. *)
Theorem C117_pec : forall (set : settings N) (p : pattern N) rest,
  savable 2047 set (p_stitches N p) -> ~ sequins_requested set (p_stitches N p) ->
  exists out threads, transcode N set p = Ok (out, threads) /\
    stitches_kept (p_stitches N p) (needle_points (pec_read (pec_encode qz_q out ++ 0 :: rest))).
Proof.
  intros set p rest V Hq. destruct (savable_encodes 2047 set p ltac:(lia) V) as (out & ths & E). exists out, ths. split; [exact E|].
  rewrite (C20_pec qcos qsin qorient set p out ths rest Hdir (v_fit _ _ _ V) (v_source _ _ _ V) (v_speeds _ _ _ V) (v_change _ _ _ V) Hq E).
  rewrite points_closed. destruct (savable_points 2047 set p out ths V E) as [(zs & Z1 & Z2) _]. exists zs. split; [exact Z1|].
  eapply subseq_trans; [apply points_pec_view|]. rewrite (written_end set p out ths E). exact Z2.
Qed.

(** JEF, for designs that sew something, do not begin with colour changes when encoded and have
    no explicit ties, with dates of 14 characters and a palette of positive numbers. *)
Theorem C117_jef : forall (set : settings N) (p : pattern N) teq near near2 (thread_of : Z -> tref) trims m date w h hw hh,
  savable 127 set (p_stitches N p) -> ~ sequins_requested set (p_stitches N p) -> requested_change set = COLOR_CHANGE ->
  Forall (fun a => is_cmd TIE_ON a = false /\ is_cmd TIE_OFF a = false) (p_stitches N p) ->
  (forall t, 1 <= near t < 2 ^ 32) -> (forall t i, 1 <= near2 t i < 2 ^ 32) -> List.length date = 14%nat ->
  exists out threads, transcode N set p = Ok (out, threads) /\
  (sews out -> starts_sewing out -> Z.of_nat (thread_commands out) < 2 ^ 27 ->
   exists file l ths, jef_write qz_q teq near near2 trims m date w h hw hh threads out = Ok file /\
     jef_read thread_of file = Ok (l, ths) /\
     stitches_kept (p_stitches N p) (needle_points l) /\
     (nothing_added set (p_stitches N p) -> stitches_exact (p_stitches N p) (needle_points l))).
Proof.
  intros set p teq near near2 thread_of trims m date w h hw hh V Hq Hc Ht N1 N2 Hd.
  destruct (savable_encodes 127 set p ltac:(lia) V) as (out & ths & E). exists out, ths. split; [exact E|]. intros S1 S2 S3.
  destruct (C20_jef qcos qsin qorient set p out ths teq near near2 thread_of trims m date w h hw hh Hdir (v_fit _ _ _ V) (v_source _ _ _ V)
    (v_speeds _ _ _ V) Hc Hq Ht E S1 S2 S3 N1 N2 Hd) as (palette & file & W & _ & R).
  do 3 eexists. split; [exact W|]. split; [exact R|]. rewrite points_closed, points_jef_view, (written_end set p out ths E).
  exact (savable_points 127 set p out ths V E).
Qed.

(** The settings write_embroidery completes for these formats will do, if the caller sets no
    lengths, rounding, long stitch or sequin contingency, transformation, needle count or kind of
    thread change of their own; ties, trims and full jumps are theirs to choose. *)
Definition for_format (w : attributes N) (d : sdict N) : settings N := read_settings N (prepare N w d).
Theorem C116_default_settings : forall (d : sdict N) src,
  leaves_alone qcos qsin qorient [KMaxStitch; KMaxJump; KRound; KLongStitch; KSequin] d ->
  leaves_alone qcos qsin qorient [KTranslate; KScale; KRotate; KNeedleCount; KThreadChange] d ->
  no_speeds src -> Forall (fun a => has_command matrix_commands a = false) (until_end src) ->
  (source_fits 121 src -> savable 121 (for_format (dst_attributes N inject_Z) d) src) /\
  (source_fits 127 src -> savable 127 (for_format (exp_attributes N inject_Z) d) src) /\
  (source_fits 127 src -> savable 127 (for_format (jef_attributes N inject_Z) d) src) /\
  (source_fits 2047 src -> savable 2047 (for_format (pec_attributes N inject_Z) d) src).
Proof.
  intros d src H1 H2 Hs Hx. destruct (C20_default_settings qcos qsin qorient d H1) as (F1 & F2 & F3 & F4 & _).
  inversion H2 as [|? ? A1 Ha]; subst. inversion Ha as [|? ? A2 Hb]; subst. inversion Hb as [|? ? A3 Hc]; subst.
  inversion Hc as [|? ? A4 Hd]; subst. inversion Hd as [|? ? A5 _]; subst.
  assert (G : forall m (w : attributes N), settings_fit m (for_format w d) ->
     w KTranslate = None -> w KScale = None -> w KRotate = None -> w KThreadChange = None -> source_fits m src ->
     savable m (for_format w d) src).
  { intros m w F W1 W2 W3 W4 S. constructor; try assumption.
    - unfold untransformed, for_format, read_settings. cbn [s_translate s_scale s_rotate].
      rewrite !C50_settings_override, A1, A2, A3, W1, W2, W3. repeat destruct (in_dec _ _ _); auto.
    - unfold for_format, read_settings. cbn [s_needle_count]. rewrite C50_settings_override, A4.
      destruct (in_dec _ _ _) as [I|I]; [|discriminate]. cbn [In] in I. intuition discriminate.
    - unfold requested_change, for_format, read_settings. cbn [s_thread_change_command]. rewrite C50_settings_override, A5, W4.
      destruct (in_dec _ _ _); discriminate. }
  split; [|split; [|split]]; intros S; apply G; try assumption; reflexivity.
Qed.
End C116.
Print Assumptions C116_default_settings.

(** A design with fractional coordinates, long stitches and jumps, trims, breaks and a stop that
    meets all the conditions, with nothing added. *)
Definition c116_src : list (stitch Q) :=
  [mkS (21 # 2) (7 # 3) STITCH; st_at 300 20 STITCH; st_at 350 40 JUMP; st_at 350 41 NEEDLE_AT;
   st_at 300 40 TRIM; st_at 50 0 OPTION_MAX_STITCH_LENGTH; st_at 20 0 COLOR_BREAK; mkS (61 # 3) (5 # 2) STITCH; st_at 20 300 STITCH;
   st_at 20 300 STOP; st_at 0 0 END; st_at 5 5 STITCH].
Definition c116_set (w : attributes ExNum) : settings ExNum := for_format ex_cos ex_sin ex_orient w [].
Ltac each := repeat (constructor; [try (split; [intros [H|H]; try discriminate H; split; vm_compute; congruence|reflexivity]); try (split; reflexivity); try reflexivity|]); constructor.
Example C116_case :
  savable ex_cos ex_sin ex_orient 121 (c116_set (dst_attributes ExNum inject_Z)) c116_src /\
  nothing_added ex_cos ex_sin ex_orient (c116_set (dst_attributes ExNum inject_Z)) c116_src /\
  info_ok true (mkInfo (Some (text_of "Bear")) None None []) /\ header_room true (mkInfo (Some (text_of "Bear")) None None []).
Proof.
  split; [|split; [|split]].
  - eapply (C116_default_settings ex_cos ex_sin ex_orient [] c116_src); [each|each|each|each|each].
  - split; [|each]. split; [left; reflexivity|]. split; [left; reflexivity|]. left. reflexivity.
  - split.
    + split; [change (Forall Utf8Proofs.scalar [66; 101; 97; 114]); repeat (constructor; [unfold Utf8Proofs.scalar; lia|]); constructor|]. split; vm_compute; intuition discriminate.
    + intros _. split; [exact I|]. split; [exact I|]. constructor.
  - vm_compute. discriminate.
Qed.
Example C116_case_points :
  match transcode ExNum (c116_set (dst_attributes ExNum inject_Z)) (mkP ExNum c116_src []) with
  | Ok (out, _) =>
      (match dst_body qz_q 3 out with Ok bs => needle_points (dst_read_raw bs) | Err _ => [] end,
       forallb (fun s => Qle_bool (Qabs (sx s)) 1000 && Qle_bool (Qabs (sy s)) 1000) out, List.length out)
  | Err _ => ([], false, O)
  end = ([(10, 2); (300, 20); (350, 41); (20, 2); (20, 300)], true, 19%nat).
Proof. vm_compute. reflexivity. Qed.

(** ** C33 with clipping, for every pattern *)
(** Stitches, sequins, colour changes and needle changes all stay, in order and unchanged,
    whatever else the pattern holds; only other commands can go with a run of jumps. *)
Definition sews_or_changes (s : stitch Q) : bool := has_command [STITCH; SEQUIN_EJECT; COLOR_CHANGE; NEEDLE_SET] s.
Theorem C33_sewing_kept : forall jumps distance clipping l fuel, (List.length l <= fuel)%nat ->
  exists l', interpolate_trims jumps distance clipping fuel l = Ok l' /\
    filter sews_or_changes l' = filter sews_or_changes l.
Proof.
  intros j d c l fuel Hf. destruct (C79_interpolate_trims_total j d c l fuel Hf) as (l' & E). exists l'. split; [exact E|].
  assert (G : forall l : list (stitch Q), filter sews_or_changes l = filter keeper l).
  { intros x. apply filter_ext. intros a. unfold sews_or_changes, has_command, keeper, is_cmd. reflexivity. }
  rewrite !G. exact (interpolate_trims_keeps j d c fuel l l' E).
Qed.
Print Assumptions C33_sewing_kept.
Print Assumptions C116_dst.
Print Assumptions C117_exp.
Print Assumptions C117_pec.
Print Assumptions C117_jef.
