(** Equal threads are saved the same; what is sewn does not depend on the threads. *)
From Coq Require Import Ascii String ZArith QArith List Bool Lia.
From Verif Require Import PyBase EmbConst FunctionsModel HelperModel NumQ NumModel MatrixModel ThreadModel Utf8Model TextModel PatternModel NameModel
  ColorFileModel CsvModel ValueModel JsonModel GcodeModel DstFileModel Vp3Model XxxModel WholeModel JefModel JefThreads
  PecModel PecFileModel PesModel PngModel TextOutModel EncoderModel QuantModel PropertiesEncoder EqualProofs EqualEncodeProofs.
Import ListNotations.
Open Scope Z_scope.

(** ** C171: equal threads are saved the same *)
(** The threads of one list compare equal, one by one, to those of the other. *)
Definition equal_threads (l l' : list thread) : Prop := Forall2 (fun a b => thread_eqb a b = true) l l'.
(** The threads of an encoded pattern, the random ones being given. *)
Definition with_fillers (random : Z -> thread) (l : list tref) : list thread :=
  map (fun p => match snd p with Own t => t | Filler => random (fst p) end) (combine (map Z.of_nat (List.seq 0 (List.length l))) l).

Lemma equal_own l l' : equal_threads l l' -> forall i,
  match EncoderModel.get_thread_or_filler l i, EncoderModel.get_thread_or_filler l' i with
  | Own a, Own b => same a b | Filler, Filler => True | _, _ => False end.
Proof.
  intros H i. unfold EncoderModel.get_thread_or_filler. pose proof (nth_same (Z.to_nat i) l l' H) as K.
  rewrite (sames_len l l' H). destruct (_ <=? i); [exact I|]. destruct (nth_error l _), (nth_error l' _); try contradiction; [exact K|exact I].
Qed.
Lemma fillers_equal random : forall ts ts', Forall2 (fun a b => match a, b with Own a, Own b => same a b | Filler, Filler => True | _, _ => False end) ts ts' ->
  equal_threads (with_fillers random ts) (with_fillers random ts').
Proof.
  unfold with_fillers. intros ts ts' H. generalize 0%nat as k. induction H as [|a b ts ts' H F IH]; intros k; cbn [List.length List.seq map combine]; [constructor|].
  constructor; [|apply IH]. cbn [fst snd]. destruct a, b; try contradiction; [exact H|apply same_refl].
Qed.
(** The stitches of the encoded patterns are the same, or the same exception is raised, and the threads
    are equal: on numbers of any kind. *)
Theorem C171_encoded : forall N set l th th', equal_threads th th' ->
  match transcode N set (mkP N l th), transcode N set (mkP N l th') with
  | Ok (s, ts), Ok (s', ts') => s = s' /\ forall random, equal_threads (with_fillers random ts) (with_fillers random ts')
  | Err e, Err e' => e = e'
  | _, _ => False
  end.
Proof.
  intros N set l th th' H.
  set (R := fun a b => match a, b with Own a, Own b => same a b | Filler, Filler => True | _, _ => False end : Prop).
  pose proof (transcode_rel N R (Forall2 R) set l th th') as K.
  destruct (transcode N set (mkP N l th)) as [[s ts]|e], (transcode N set (mkP N l th')) as [[s' ts']|e'];
    (assert (K' := K (fun l l' t t' A B => Forall2_app A (Forall2_cons t t' B (Forall2_nil R))) (Forall2_nil R)); clear K; cbn [rrel fst snd] in K').
  all: assert (O : Forall2 R (map Own th) (map Own th')) by (clear -H; induction H; cbn [map]; constructor; [assumption|assumption]).
  all: specialize (K' (fun _ => O) (equal_own th th' H)).
  - destruct K' as [-> K']. split; [reflexivity|]. intros random. apply fillers_equal, K'.
  - contradiction.
  - contradiction.
  - exact K'.
Qed.

(** The threads with [random] fillers, as the writers ask for them. *)
Definition threads_of (random : Z -> thread) (l : list thread) (i : Z) : thread := PatternModel.get_thread_or_filler random l i.
(** The bytes of the file: in every format but TXT; the elements of SVG and JSON and the picture of PNG.
    [order] is how Python enumerates the set of the threads: alike for equal threads, since it is
    decided by hash and comparisons. *)
Theorem C171_written : forall th th', equal_threads th th' ->
  edr_write th = edr_write th' /\ col_write th = col_write th' /\ inf_write th = inf_write th' /\
  (forall C zero minus show show_distance show_angle v extents (l : list (stitch C)) extras,
     csv_write zero minus show show_distance show_angle v extents (CsvModel.mkC l th extras) = csv_write zero minus show show_distance show_angle v extents (CsvModel.mkC l th' extras)) /\
  (forall C F (l : list (stitch C)) (extras : list (text * value F)), json_write l th extras = json_write l th' extras) /\
  (forall travel extras l, gcode_write travel extras th l = gcode_write travel extras th' l) /\
  (forall extended trim_at name author copyright l,
     dst_write extended trim_at (mkInfo name author copyright th) l = dst_write extended trim_at (mkInfo name author copyright th') l) /\
  (forall random l, vp3_write random l th = vp3_write random l th') /\
  (forall name tp l, tbf_write (mkTbf name tp (map t_color th)) l = tbf_write (mkTbf name tp (map t_color th')) l) /\
  (forall l, xxx_write (map t_color th) l = xxx_write (map t_color th') l) /\
  (forall trims count_max date w h hw hh l,
     jef_write qz_q thread_eqb jef_near jef_near2 trims count_max date w h hw hh th l
     = jef_write qz_q thread_eqb jef_near jef_near2 trims count_max date w h hw hh th' l) /\
  (forall order, (forall l l', equal_threads l l' -> equal_threads (order l) (order l')) ->
     (forall random name l, pec_write random order name l th = pec_write random order name l th') /\
     (forall f32 random version truncated md l,
        pes_write f32 random order version truncated md l th = pes_write f32 random order version truncated md l th')) /\
  (forall random l, svg_paths (threads_of random th) l = svg_paths (threads_of random th') l) /\
  (forall st random l, png_picture st (fun i => t_color (threads_of random th i)) l = png_picture st (fun i => t_color (threads_of random th' i)) l).
Proof.
  intros th th' H. split; [apply edr_same, H|]. split; [apply col_same, H|]. split; [apply inf_same, H|].
  split. { intros. unfold csv_write. cbn [c_stitches c_extras c_threads]. rewrite (csv_threads_same th th' H). reflexivity. }
  split. { intros. unfold json_write. rewrite (json_same th th' H). reflexivity. }
  split. { intros. unfold gcode_write, gcode_text. rewrite (gcode_threads_same th th' H). reflexivity. }
  split. { intros. unfold dst_write, header_text. cbn [i_name i_author i_copyright i_threads]. rewrite (dst_lines_same th th' H). reflexivity. }
  split. { intros. apply vp3_same, H. }
  split. { intros. unfold tbf_write. cbn [tbf_name tbf_tp tbf_colors]. rewrite (tbf_low _ _ (colors_low th th' H)). reflexivity. }
  split. { intros. apply xxx_same, colors_low, H. }
  split. { intros. unfold jef_write, jef_write_palette. rewrite (jef_palette_same _ th th' None None false false H I). reflexivity. }
  split. { intros order O. split; intros; [apply pec_write_same|apply pes_same]; assumption. }
  split. { intros. apply svg_same, get_same, H. }
  intros. apply png_same, get_same, H.
Qed.

(** Not so in TXT, where all the bits of a colour are shown: two equal threads, two files. *)
Theorem C171_txt_refuted : exists th th' l a b, equal_threads th th' /\
  txt_write false (threads_of (fun _ => plain_thread 0) th) l = Ok a /\
  txt_write false (threads_of (fun _ => plain_thread 0) th') l = Ok b /\ a <> b.
Proof.
  exists [plain_thread 0xFF0000], [plain_thread 0xFFFF0000], [mkS 0%Q 0%Q STITCH].
  eexists. eexists. split; [repeat constructor|]. split; [vm_compute; reflexivity|]. split; [vm_compute; reflexivity|]. discriminate.
Qed.
(** With "mimic", or if the colours have no more than 24 bits, TXT files are the same too. *)
Theorem C171_txt : forall th th' random l mimic, equal_threads th th' ->
  mimic = true \/ (Forall (fun t => 0 <= t_color t < 2 ^ 24) th /\ Forall (fun t => 0 <= t_color t < 2 ^ 24) th') ->
  txt_write mimic (threads_of random th) l = txt_write mimic (threads_of random th') l.
Proof.
  intros th th' random l mimic H [-> | [A B]]; [reflexivity|]. unfold txt_write. destruct mimic; [reflexivity|].
  assert (E : t_color (threads_of random th 0) = t_color (threads_of random th' 0)).
  { unfold threads_of, PatternModel.get_thread_or_filler. destruct H as [|a b th th' H F]; [reflexivity|]. cbn [Z.to_nat nth_error].
    apply same_low in H. unfold low in H. inversion_clear A as [|? ? A1 A2]. inversion_clear B as [|? ? B1 B2].
    change 0xFFFFFF with (Z.ones 24) in H. rewrite !Z.land_ones, !Z.mod_small in H by lia. exact H. }
  rewrite E. assert (W : forall c, write_normal (threads_of random th) c l = write_normal (threads_of random th') c l); [|apply W].
  induction l as [|s l IH]; intros c; cbn [write_normal]; [reflexivity|]. rewrite E. destruct (name_of _ _); [|reflexivity]. rewrite IH. reflexivity.
Qed.

(** ** C172: what is sewn does not depend on the threads *)
(** Whatever the threads of a pattern, and however many: the encoded pattern has the same stitches, or the
    same exception is raised; it has as many threads, unless needles are set. *)
Theorem C172_stitches : forall N set l th th',
  match transcode N set (mkP N l th), transcode N set (mkP N l th') with
  | Ok (s, ts), Ok (s', ts') =>
      s = s' /\ (thread_change_command (init_config N set) <> NEEDLE_SET -> List.length ts = List.length ts')
  | Err e, Err e' => e = e'
  | _, _ => False
  end.
Proof.
  intros N set l th th'.
  pose proof (transcode_rel N (fun _ _ => True) (fun a b => thread_change_command (init_config N set) <> NEEDLE_SET -> List.length a = List.length b) set l th th') as K.
  assert (K' := K (fun l l' t t' A _ D => ltac:(rewrite !app_length, (A D); reflexivity)) (fun _ => eq_refl) (fun E D => False_ind _ (D E)) (fun _ => I)). clear K.
  destruct (transcode N set (mkP N l th)) as [[s ts]|e], (transcode N set (mkP N l th')) as [[s' ts']|e']; cbn [rrel fst snd] in K'; exact K'.
Qed.
(** Recolouring commutes with encoding. *)
Definition recolour (f : thread -> thread) (t : tref) : tref := match t with Own t => Own (f t) | Filler => Filler end.
Theorem C172_recolour : forall N f set l th,
  transcode N set (mkP N l (map f th))
  = match transcode N set (mkP N l th) with Ok (s, ts) => Ok (s, map (recolour f) ts) | Err e => Err e end.
Proof.
  intros N f set l th.
  pose proof (transcode_rel N (fun a b => b = recolour f a) (fun a b => b = map (recolour f) a) set l th (map f th)) as K.
  assert (A : forall l l' t t', l' = map (recolour f) l -> t' = recolour f t -> l' ++ [t'] = map (recolour f) (l ++ [t])).
  { intros a b t t' -> ->. rewrite map_app. reflexivity. }
  assert (B : map Own (map f th) = map (recolour f) (map Own th)) by (rewrite !map_map; reflexivity).
  specialize (K A eq_refl (fun _ => B)).
  assert (G : forall i, EncoderModel.get_thread_or_filler (map f th) i = recolour f (EncoderModel.get_thread_or_filler th i)).
  { intros i. unfold EncoderModel.get_thread_or_filler. rewrite map_length, nth_error_map. destruct (_ <=? i); [reflexivity|]. destruct (nth_error th _); reflexivity. }
  specialize (K G).
  destruct (transcode N set (mkP N l th)) as [[s ts]|e], (transcode N set (mkP N l (map f th))) as [[s' ts']|e']; cbn [rrel fst snd] in K; try contradiction.
  - destruct K as [-> ->]. reflexivity.
  - rewrite K. reflexivity.
Qed.

(** ** The hypotheses are met *)
Example C171_case : equal_threads [plain_thread 0xFF0000; mkT 0x10000FF (Some (text_of "Blue")) None None None None None]
                                  [plain_thread 0xFFFF0000; mkT 0xFF (Some (text_of "Blue")) None None None None None] /\
  edr_write [plain_thread 0xFFFF0000; mkT 0xFF None None None None None None] = [255; 0; 0; 0; 0; 0; 255; 0].
Proof. split; [repeat constructor|vm_compute; reflexivity]. Qed.
Example C171_order : forall l l', equal_threads l l' -> equal_threads (rev l) (rev l').
Proof.
  intros l l' H. induction H as [|a b l l' H F IH]; cbn [rev]; [constructor|]. apply Forall2_app; [exact IH|constructor; [exact H|constructor]].
Qed.
(** A pattern of two colours, with one thread or with three: the same stitches. *)
Definition c172_src : list (stitch Q) :=
  [mkS 0%Q 0%Q STITCH; mkS 10%Q 0%Q STITCH; mkS 10%Q 0%Q COLOR_BREAK; mkS 300%Q 0%Q STITCH; mkS 310%Q 5%Q STITCH; mkS 0%Q 0%Q END].
Example C172_case : exists s ts ts',
  transcode ExNum no_settings (mkP ExNum c172_src [plain_thread 1]) = Ok (s, ts) /\
  transcode ExNum no_settings (mkP ExNum c172_src [plain_thread 7; plain_thread 8; plain_thread 9]) = Ok (s, ts') /\
  ts = [Own (plain_thread 1); Filler] /\ ts' = [Own (plain_thread 7); Own (plain_thread 8)] /\ (4 < List.length s)%nat.
Proof.
  do 3 eexists. split; [vm_compute; reflexivity|]. split; [vm_compute; reflexivity|]. split; [reflexivity|]. split; [reflexivity|].
  cbn [List.length]. lia.
Qed.
Print Assumptions C171_encoded.
Print Assumptions C171_written.
Print Assumptions C171_txt_refuted.
Print Assumptions C171_txt.
Print Assumptions C172_stitches.
Print Assumptions C172_recolour.
