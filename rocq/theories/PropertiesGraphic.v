(** C192-C195: preview pictures as text, drawn by hand, and in CSV files. *)
From Coq Require Import Ascii String ZArith Bool List Lia.
From Verif Require Import PyBase EmbConst BitLemmas PatternModel StreamModel TextModel ThreadModel Utf8Model FunctionsModel NameModel
  ColorFileModel PecModel PecFileModel PesModel CsvModel CsvProofs PropertiesCsv ReadableSpec ReadableProofs PropertiesReadable GraphicModel GraphicSpec GraphicProofs.
Import ListNotations.
Open Scope Z_scope.

(** ** C192: a picture as text *)
(** Any picture with a positive stride: one line for each row there is, one character (here: one of two texts)
    for each of its pixels. *)
Theorem C192_picture_text : forall picture stride one zero, 0 < stride ->
  exists t, get_graphic_as_string picture stride one zero = Ok t /\
    lines_are (map (row_text picture stride one zero) (upto (rows_of picture stride))) t.
Proof. intros. apply graphic_text. assumption. Qed.
(** A picture that is not cut short has all the rows and columns. *)
Theorem C192_whole : forall picture stride height, 0 < stride -> zlen picture = stride * height ->
  rows_of picture stride = height /\ forall y, 0 <= y < height -> columns_of picture stride y = 8 * stride.
Proof.
  intros picture stride height Hs L. unfold rows_of, columns_of. rewrite L. split.
  - symmetry. apply Z.div_unique with (r := stride - 1); [left; lia|lia].
  - intros y Hy. assert (stride <= stride * (height - y)) by nia. lia.
Qed.
(** Without a stride there is no text. *)
Theorem C192_no_stride : forall picture one zero, get_graphic_as_string picture 0 one zero = Err ValueError.
Proof. reflexivity. Qed.
Example C192_case : get_graphic_as_string [0x81; 3; 0; 0x80; 4] 2 (text_of "#") (text_of ".") =
  Ok (text_of "#......###......" ++ [10] ++ text_of "...............#" ++ [10] ++ text_of "..#.....").
Proof. vm_compute. reflexivity. Qed.

(** ** C193: marking and unmarking pixels *)
(** [strokes_on] applies graphic_mark_bit and graphic_unmark_bit one after the other. *)
Theorem C193_strokes : forall stride height picture strokes,
  0 < stride -> zlen picture = stride * height -> Forall (fun b => 0 <= b < 256) picture ->
  Forall (fun s => 0 <= fst (place s) < 8 * stride /\ 0 <= snd (place s) < height) strokes ->
  exists picture', strokes_on picture stride strokes = Some picture' /\
    zlen picture' = zlen picture /\ Forall (fun b => 0 <= b < 256) picture' /\
    forall x y, 0 <= x < 8 * stride -> 0 <= y < height ->
      (forall s, last_at strokes x y s -> pixel_at picture' stride x y = marks s) /\
      (Forall (fun t => place t <> (x, y)) strokes -> pixel_at picture' stride x y = pixel_at picture stride x y).
Proof. intros. apply strokes_ok; assumption. Qed.
Example C193_case : strokes_on [1; 2; 4; 8] 2 [Mark 3 0; Unmark 0 0; Mark 15 1; Mark 0 0; Unmark 2 1; Unmark 0 0] = Some [8; 2; 0; 136].
Proof. vm_compute. reflexivity. Qed.

(** ** C194: pictures in CSV files *)
Lemma columns_sum picture stride : 0 < stride -> forall n, stride * (Z.of_nat n - 1) < zlen picture \/ n = O ->
  fold_right Z.add 0 (map (fun y => columns_of picture stride (Z.of_nat y)) (seq 0 n)) = 8 * Z.min (stride * Z.of_nat n) (zlen picture).
Proof.
  intros Hs. induction n as [|n IH]; intros H; [unfold zlen; cbn [seq map fold_right]; lia|].
  destruct H as [H|H]; [|discriminate]. rewrite seq_S, map_app. cbn [map].
  assert (A : forall l a, fold_right Z.add 0 (l ++ [a]) = fold_right Z.add 0 l + a).
  { induction l as [|b l IHl]; intros a; cbn [app fold_right]; [lia|rewrite IHl; lia]. }
  rewrite A, IH by (left; nia). cbn [Nat.add]. unfold columns_of. nia.
Qed.
Lemma row_length picture stride (a b : Z) y : zlen (row_text picture stride [a] [b] y) = Z.max 0 (columns_of picture stride y).
Proof.
  unfold row_text, upto, zlen. generalize (columns_of picture stride y). intros n.
  assert (G : forall l : list Z, List.length (flat_map (fun x => if pixel_at picture stride x y then [a] else [b]) l) = List.length l).
  { induction l as [|x l IH]; [reflexivity|]. cbn [flat_map]. rewrite app_length, IH. destruct (pixel_at picture stride x y); reflexivity. }
  rewrite G, map_length, seq_length. lia.
Qed.
Lemma row_chars picture stride (a b : Z) y : Forall (fun c => c = a \/ c = b) (row_text picture stride [a] [b] y).
Proof.
  unfold row_text. apply Forall_flat_map. apply Forall_forall. intros x _.
  destruct (pixel_at picture stride x y); constructor; auto.
Qed.
Lemma rows_bound picture stride : 0 < stride -> stride * (rows_of picture stride - 1) < zlen picture \/ rows_of picture stride = 0.
Proof.
  intros Hs. unfold rows_of. pose proof (Z.div_mod (zlen picture + stride - 1) stride ltac:(lia)) as D.
  pose proof (Z.mod_pos_bound (zlen picture + stride - 1) stride Hs) as B.
  set (q := (zlen picture + stride - 1) / stride) in *. clearbody q. left. nia.
Qed.
Lemma rows_all picture stride : 0 < stride -> zlen picture <= stride * rows_of picture stride /\ 0 <= rows_of picture stride.
Proof.
  intros Hs. unfold rows_of. pose proof (Z.div_mod (zlen picture + stride - 1) stride ltac:(lia)) as D.
  pose proof (Z.mod_pos_bound (zlen picture + stride - 1) stride Hs) as B. split; [lia|].
  apply Z.div_pos; [unfold zlen; lia|lia].
Qed.
Lemma text_size picture stride (a b : Z) t : 0 < stride ->
  lines_are (map (row_text picture stride [a] [b]) (upto (rows_of picture stride))) t ->
  zlen t + 1 <= Z.max 1 (8 * zlen picture + rows_of picture stride).
Proof.
  intros Hs H. pose proof (rows_bound picture stride Hs) as B. pose proof (rows_all picture stride Hs) as [A P].
  remember (map (row_text picture stride [a] [b]) (upto (rows_of picture stride))) as parts eqn:E.
  destruct parts as [|p parts]; [inversion H; subst; unfold zlen; cbn [List.length]; lia|].
  apply lines_size in H; [|discriminate]. rewrite E in H. unfold upto in H. rewrite !map_map in H.
  assert (Hn : (Z.to_nat (rows_of picture stride) <> 0)%nat).
  { intros Z0. unfold upto in E. rewrite Z0 in E. discriminate E. }
  rewrite (map_ext_in _ (fun y => columns_of picture stride (Z.of_nat y))) in H.
  - rewrite columns_sum in H by (try exact Hs; left; rewrite Z2Nat.id by exact P; destruct B; lia).
    rewrite Z2Nat.id in H by exact P.
    assert (L : zlen (map (fun x => row_text picture stride [a] [b] (Z.of_nat x)) (seq 0 (Z.to_nat (rows_of picture stride)))) = rows_of picture stride).
    { unfold zlen. rewrite map_length, seq_length. lia. }
    rewrite L in H. lia.
  - intros y Hy. apply in_seq in Hy. rewrite row_length. apply Z.max_r. unfold columns_of.
    assert (Z.of_nat y <= rows_of picture stride - 1) by lia. destruct B as [B|B]; [|lia].
    assert (stride * Z.of_nat y <= stride * (rows_of picture stride - 1)) by nia. lia.
Qed.

(** What CSV stores of an entry of the metadata. *)
Definition entry_storable (show_version : Z -> text) (e : text * meta) : Prop :=
  csv_text (fst e) /\
  match snd e with
  | Meta_text t => csv_text t
  | Meta_version n => csv_text (show_version n)
  | Meta_graphic picture stride _ => 0 < stride /\ 8 * zlen picture + rows_of picture stride <= 131072
  end.
(** The entry read back: a picture has become a text, a newline and then the lines of the picture. *)
Definition entry_shown (show_version : Z -> text) (e : text * meta) (e' : text * text) : Prop :=
  fst e' = fst e /\
  match snd e with
  | Meta_text t => snd e' = t
  | Meta_version n => snd e' = show_version n
  | Meta_graphic picture stride _ =>
      exists t, snd e' = 10 :: t /\
        lines_are (map (row_text picture stride (text_of "#") (text_of " ")) (upto (rows_of picture stride))) t
  end.
Lemma values_ok show_version : forall extras, Forall (entry_storable show_version) extras ->
  exists values, csv_values show_version extras = Ok values /\ Forall2 (entry_shown show_version) extras values /\
    Forall (fun '(k, w) => csv_text k /\ csv_text w) values /\ map fst values = map fst extras.
Proof.
  induction 1 as [|[k v] extras [Hk Hv] _ IH]; cbn [csv_values].
  - exists []. repeat split; constructor.
  - destruct IH as (values & -> & F2 & Fc & Em). cbn [fst snd] in *.
    assert (V : exists t, csv_value show_version v = Ok t /\ csv_text t /\ entry_shown show_version (k, v) (k, t)).
    { destruct v as [t|n|g stride th]; cbn [csv_value].
      - exists t. split; [reflexivity|]. split; [exact Hv|]. split; reflexivity.
      - exists (show_version n). split; [reflexivity|]. split; [exact Hv|]. split; reflexivity.
      - destruct Hv as [Hs Hl]. destruct (graphic_text [35] [32] g stride Hs) as (t & -> & Ht). exists (10 :: t).
        split; [reflexivity|]. split; [|split; [reflexivity|exists t; split; [reflexivity|exact Ht]]].
        assert (C1 : forall c, c = 35 \/ c = 32 \/ c = 10 -> 0 < c <= 0x10FFFF /\ ~ (0xD800 <= c <= 0xDFFF) /\ c <> 34 /\ c <> 13) by lia.
        split.
        + constructor; [apply C1; auto|]. eapply Forall_impl with (P := fun c => c = 35 \/ c = 32 \/ c = 10); [exact C1|].
          eapply lines_chars; [auto|exact Ht|]. apply Forall_map, Forall_forall. intros y _.
          eapply Forall_impl; [|apply row_chars]. cbn beta. intros c [Hc|Hc]; auto.
        + pose proof (text_size g stride 35 32 t Hs Ht). unfold zlen in *. cbn [List.length]. lia. }
    destruct V as (t & -> & Ct & Sh). cbn [bindr]. exists ((k, t) :: values). split; [reflexivity|].
    split; [constructor; assumption|]. split; [constructor; [split; assumption|exact Fc]|]. cbn [map fst]. congruence.
Qed.

(** A pattern with the metadata a PEC or PES file gives, saved as CSV and loaded. *)
Theorem C194_csv_pictures {C} (zero : C) minus show float_of show_distance show_angle other (ok : C -> Prop) show_version v extents
    stitches threads extras :
  (forall x, ok x -> csv_text (show x) /\ float_of (show x) = Ok x) ->
  (forall v x y x0 y0, ok x -> ok y -> ok x0 -> ok y0 ->
     Forall csv_text (more_columns show show_distance show_angle v (minus x x0) (minus y y0))) ->
  ok zero -> Forall csv_text extents ->
  zlen stitches < 2 ^ 64 -> zlen threads < 2 ^ 64 ->
  Forall (fun s => ok (sx s) /\ ok (sy s) /\ 0 <= scmd s < 2 ^ 32 /\ In (scmd s mod 256) named_commands) stitches ->
  Forall csv_thread threads ->
  Forall (entry_storable show_version) extras -> NoDup (map fst extras) ->
  exists file out, csv_save zero minus show show_distance show_angle show_version v extents stitches threads extras = Ok file /\
    csv_read zero float_of other file = Ok out /\ d_stitches out = stitches /\
    Forall2 (entry_shown show_version) extras (d_extras out).
Proof.
  intros Hshow Hmore Hz He Ls Lt Hs Ht Hm Nd. destruct (values_ok show_version extras Hm) as (values & Ev & F2 & Fc & Em).
  unfold csv_save. rewrite Ev. cbn [bindr].
  destruct (C66_csv_round_trip zero minus show float_of show_distance show_angle other ok v extents (mkC stitches threads values))
    as (file & W & Er); cbn [c_stitches c_threads c_extras]; try assumption; [rewrite Em; exact Nd|].
  exists file. eexists. split; [exact W|]. split; [exact Er|]. split; [reflexivity|exact F2].
Qed.
Example C194_case : exists file out,
  csv_save 0 Z.sub str_of_int (fun dx dy => str_of_int (Z.sqrt (dx * dx + dy * dy))) (fun _ _ => text_of "0.5") str_of_int Plain
    (map str_of_int [0; 0; 3; 4; 3; 4]) [mkS 0 0 STITCH; mkS 3 4 STITCH; mkS 3 4 END] [plain_thread 255]
    [(text_of "Name", Meta_text (text_of "leaf")); (text_of "pec_graphic_0", Meta_graphic [0xFF; 0x81; 0xFF] 1 None)] = Ok file /\
  csv_read 0 int_of_text (fun _ => 0) file = Ok out /\
  d_extras out = [(text_of "Name", text_of "leaf");
    (text_of "pec_graphic_0", [10] ++ text_of "########" ++ [10] ++ text_of "#      #" ++ [10] ++ text_of "########")].
Proof. do 2 eexists. split; [vm_compute; reflexivity|]. split; vm_compute; reflexivity. Qed.
Example C194_case_hyps : Forall (entry_storable str_of_int)
  [(text_of "Name", Meta_text (text_of "leaf")); (text_of "pec_graphic_0", Meta_graphic [0xFF; 0x81; 0xFF] 1 None)].
Proof.
  assert (T : forall t, forallb (fun c => (0 <? c) && (c <? 0xD800) && negb (c =? 34) && negb (c =? 13)) t = true ->
    (List.length t <= 100)%nat -> csv_text t).
  { intros t H L. split; [|unfold zlen; lia]. rewrite forallb_forall in H. apply Forall_forall. intros c Hc.
    specialize (H c Hc). destruct (Z.ltb_spec 0 c), (Z.ltb_spec c 0xD800), (Z.eqb_spec c 34), (Z.eqb_spec c 13); try discriminate; lia. }
  constructor; [|constructor; [|constructor]]; (split; [apply T; [vm_compute; reflexivity|cbn; lia]|]); cbn [snd].
  - apply T; [vm_compute; reflexivity|cbn; lia].
  - split; [reflexivity|vm_compute; discriminate].
Qed.

(** ** C195: saving a loaded PEC file as CSV *)
(** Saving fails exactly when a picture has no columns. *)
Theorem C195_saving_values : forall show_version extras,
  Forall (fun e => match snd e with Meta_graphic _ stride _ => 0 <= stride | _ => True end) extras ->
  if existsb (fun e => match snd e with Meta_graphic _ stride _ => stride =? 0 | _ => false end) extras
  then csv_values show_version extras = Err ValueError
  else exists values, csv_values show_version extras = Ok values.
Proof.
  intros show_version. induction 1 as [|[k v] extras H _ IH]; cbn [existsb csv_values]; [eexists; reflexivity|]. cbn [snd] in *.
  destruct v as [t|n|g stride th]; cbn [csv_value orb bindr].
  - destruct (existsb _ extras); [rewrite IH; reflexivity|]. destruct IH as [r ->]. eexists. reflexivity.
  - destruct (existsb _ extras); [rewrite IH; reflexivity|]. destruct IH as [r ->]. eexists. reflexivity.
  - destruct (Z.eqb_spec stride 0) as [->|N]; cbn [orb]; [reflexivity|].
    destruct (graphic_text [35] [32] g stride ltac:(lia)) as (t & -> & _). cbn [bindr].
    destruct (existsb _ extras); [rewrite IH; reflexivity|]. destruct IH as [r ->]. eexists. reflexivity.
Qed.
(** A PEC file of zeros is read; its picture has a stride of 0; the pattern cannot be saved as CSV. *)
Theorem C195_csv_from_pec_refuted : exists file stitches threads extras, a_file file /\
  pec_file_read file = Ok (stitches, threads, extras) /\
  forall (show : Z -> text) show_distance show_angle show_version v extents,
    csv_save 0 Z.sub show show_distance show_angle show_version v extents stitches threads extras = Err ValueError.
Proof.
  exists (repeat 0 525). destruct (pec_file_read (repeat 0 525)) as [[[l th] m]|e] eqn:E; [|vm_compute in E; discriminate E].
  exists l, th, m. split; [apply file_checked; vm_compute; reflexivity|]. split; [reflexivity|]. intros.
  unfold csv_save. assert (V : csv_values show_version m = Err ValueError); [|rewrite V; reflexivity].
  pose proof (C195_saving_values show_version m) as H.
  vm_compute in E. injection E as <- <- <-.
  refine (H _). apply Forall_forall. intros e He. cbn [In] in He. repeat destruct He as [<-|He]; try exact I; try (cbn [snd]; lia).
Qed.

Print Assumptions C192_picture_text.
Print Assumptions C192_whole.
Print Assumptions C192_no_stride.
Print Assumptions C193_strokes.
Print Assumptions C194_csv_pictures.
Print Assumptions C195_saving_values.
Print Assumptions C195_csv_from_pec_refuted.
