(** Properties of whole PEC and PES files: C71 to C75. *)
From Coq Require Import Ascii String ZArith QArith Qround Qminmax List Bool Lia.
From Verif Require Import PyBase EmbConst StreamModel StreamSpec HelperModel NumQ QuantModel
  BitLemmas ThreadModel ThreadProofs Utf8Model TextModel PatternModel PatternSpec PatternProofs
  Vp3Model PecModel PecSpec PecFileModel PecFileSpec PecGraphicsProofs PecFileProofs
  PesModel PesSpec PesProofs PropertiesThread PropertiesPattern.
Import ListNotations.
Open Scope Z_scope.

(** ** What the statements are about *)
(** A pattern for these formats: its only END is at its end, after rounding no step is longer
    than 2047 and no control command moves, and it has sewing between any two colour changes
    or stops (C52). *)
Remark pec_pattern_is : forall l, pec_pattern l <-> ends_once l /\ pec_representable (written l) /\ sections_sewn false l.
Proof. reflexivity. Qed.
(** Room in the file: a thread for every colour section, at most 255 threads with one more for
    every stop, at most 64 different ones, and less than 2^24 bytes of stitches. *)
Remark pec_room_is : forall l threads, pec_room l threads <->
  (thread_changes l < List.length threads)%nat /\ (List.length threads + stops l <= 255)%nat /\
  (exists d, incl threads d /\ (List.length d <= 64)%nat) /\ 6 * zlen l + 16 < 2 ^ 24.
Proof. reflexivity. Qed.
(** The commands read back: those of the rounded pattern without its END as the PEC block keeps
    them, then an END at the needle. *)
Remark pec_kept_is : forall l, pec_kept l = closed (pec_file_view true true 0 0 (before_end (written l))).
Proof. reflexivity. Qed.
(** The label read back: the first 8 characters without the spaces around them. *)
Remark name_text_is : forall name, name_text name =
  [(text_of "Name", Meta_text (strip (firstn 8 (match name with Some n => n | None => text_of "Untitled" end))))].
Proof. reflexivity. Qed.

(** Colours of the built-in palette that tell the threads of the pattern apart exactly as their
    own colours do. *)
Definition palette_for (threads : list thread) (pal : thread -> thread) : Prop :=
  (forall t, In t threads -> In (Some (pal t)) pec_threads) /\
  (forall a b, In a threads -> In b threads -> (pal a = pal b <-> rgb (t_color a) = rgb (t_color b))).
Definition colours_differ (a b : thread) : Prop := rgb (t_color a) <> rgb (t_color b).
Lemma palette_ok order l threads : set_order order -> pec_room l threads ->
  palette_for threads (palette_thread (order (expand threads l))).
Proof.
  intros Ho R. destruct (palette_facts order l threads Ho R) as (_ & F2 & _ & F4). split; [exact F2|].
  intros a b Ha Hb. rewrite <- same_rgb. apply F4; assumption.
Qed.
Lemma differ_same threads : neighbours colours_differ threads ->
  neighbours (fun a b => ~ same_color (t_color a) (t_color b)) threads.
Proof.
  apply neighbours_impl. intros x y _ _ H E. apply H. apply same_rgb, E.
Qed.

(** ** C71: PEC files *)
Theorem C71_pec_file : forall filler order name l threads,
  set_order order -> Forall (fun c => 0 <= c < 128) (label_of name) ->
  pec_pattern l -> pec_room l threads -> neighbours colours_differ threads ->
  exists file pal pictures, pec_write filler order name l threads = Ok file /\ palette_for threads pal /\
    pec_file_read file = Ok (pec_kept l, map pal threads, name_text name ++ pictures).
Proof.
  intros filler order name l threads Ho Ha P R N.
  destruct (pec_file filler order name l threads Ho Ha P R (differ_same _ N)) as (file & pictures & W & E & _).
  exists file, (palette_thread (order (expand threads l))), pictures. split; [exact W|]. split; [|exact E].
  apply palette_ok; assumption.
Qed.
Print Assumptions C71_pec_file.

(** ** C72: PES version 1 files *)
Theorem C72_pes_version_1 : forall f32 filler order truncated md l threads,
  set_order order -> Forall (fun c => 0 <= c < 128) (label_of (md (text_of "name"))) ->
  pec_pattern l -> pec_room l threads -> neighbours colours_differ threads ->
  exists file pal, pes_write f32 filler order 10 truncated md l threads = Ok file /\ palette_for threads pal /\
    (zlen file < 2 ^ 32 -> exists pictures, pes_read file
      = Ok (pec_kept l, map pal threads, version_entry 10 ++ name_text (md (text_of "name")) ++ pictures)).
Proof.
  intros f32 filler order truncated md l threads Ho Ha P R N.
  destruct (pes_v1 f32 filler order md l threads Ho Ha P R truncated (differ_same _ N)) as (file & W & E).
  exists file, (palette_thread (order (expand threads l))). split; [exact W|]. split; [|exact E].
  apply palette_ok; assumption.
Qed.
Print Assumptions C72_pes_version_1.

(** ** C73: PES version 6 files *)
(** Here the threads come back with their own colours and texts, and so do five entries of the
    metadata. *)
Theorem C73_pes_version_6 : forall f32 filler order truncated md l threads,
  (forall v, zlen (f32 v) = 4) ->
  set_order order -> Forall (fun c => 0 <= c < 128) (label_of (md (text_of "name"))) ->
  Forall (fun key => ascii_text (md (text_of key))) ["name"; "category"; "author"; "keywords"; "comments"]%string ->
  Forall ascii_thread threads ->
  pec_pattern l -> pec_room l threads -> neighbours stored_differ threads ->
  exists file, pes_write f32 filler order 60 truncated md l threads = Ok file /\
    (zlen file < 2 ^ 32 -> exists meta, pes_read file = Ok (pec_kept l, map stored_thread threads, meta) /\
       forall key t, In key ["name"; "category"; "author"; "keywords"; "comments"]%string ->
         stored_text (md (text_of key)) = Some t -> In (text_of key, Meta_text t) meta).
Proof.
  intros f32 filler order truncated md l threads Hf Ho Ha Hm Ht P R N.
  destruct (pes_v6 f32 filler order md l threads Ho Ha P R Hf Hm Ht truncated N) as (file & W & E).
  exists file. split; [exact W|]. intros L. destruct (E L) as [pictures Er]. eexists. split; [exact Er|].
  intros key t Hk Et. apply in_or_app. right. apply in_or_app. left. unfold text_entries.
  assert (I1 : In (text_of key, Meta_text t) (text_entry md key)) by (unfold text_entry; rewrite Et; left; reflexivity).
  rewrite !in_app_iff. cbn [In] in Hk. destruct Hk as [<-|[<-|[<-|[<-|[<-|[]]]]]]; tauto.
Qed.
Print Assumptions C73_pes_version_6.

(** A case for C71 to C73: two sections, a stop, and one thread for each section. *)
Definition sample : list (stitch Q) :=
  [mkS 0%Q 0%Q STITCH; mkS 100%Q 40%Q STITCH; mkS 100%Q 40%Q STOP; mkS 130%Q 40%Q STITCH; mkS 130%Q 40%Q COLOR_CHANGE;
   mkS (1001#2) 0%Q JUMP; mkS 0%Q 300%Q STITCH; mkS 0%Q 300%Q END].
Definition sample_threads : list thread :=
  [mkT 0x123456 (Some (text_of "red")) (Some (text_of "12")) None None None None; plain_thread 0x00FF00].
Definition sample_name : option text := Some (text_of "flower 1 of 3").
(** The order in which the different threads come first. *)
Fixpoint first_seen (seen l : list thread) : list thread :=
  match l with
  | [] => []
  | t :: r => if existsb (thread_eqb t) seen then first_seen seen r else t :: first_seen (t :: seen) r
  end.
Lemma thread_eqb_sym a b : thread_eqb a b = thread_eqb b a.
Proof.
  destruct (thread_eqb a b) eqn:E, (thread_eqb b a) eqn:F; try reflexivity; exfalso.
  - assert (thread_eqb b a = true); [|congruence]. clear F. unfold thread_eqb in *.
    rewrite !andb_true_iff, Z.eqb_eq in *. destruct E as ((((((E1 & E2) & E3) & E4) & E5) & E6) & E7).
    apply otext_eqb_eq in E2, E3, E4, E5, E6, E7. rewrite E2, E3, E4, E5, E6, E7, E1, !otext_eqb_refl. auto 10.
  - assert (thread_eqb a b = true); [|congruence]. clear E. unfold thread_eqb in *.
    rewrite !andb_true_iff, Z.eqb_eq in *. destruct F as ((((((E1 & E2) & E3) & E4) & E5) & E6) & E7).
    apply otext_eqb_eq in E2, E3, E4, E5, E6, E7. rewrite E2, E3, E4, E5, E6, E7, E1, !otext_eqb_refl. auto 10.
Qed.
Lemma first_seen_order : set_order (first_seen []).
Proof.
  assert (A : forall l seen, NoDup (first_seen seen l) /\ incl (first_seen seen l) l /\
    (forall t, In t (first_seen seen l) -> existsb (thread_eqb t) seen = false) /\
    forall t, In t l -> existsb (thread_eqb t) seen = true \/ exists t', In t' (first_seen seen l) /\ thread_eqb t' t = true).
  { induction l as [|t l IH]; intros seen; cbn [first_seen].
    - split; [constructor|]. split; [apply incl_refl|]. split; intros t [].
    - destruct (existsb (thread_eqb t) seen) eqn:E.
      + destruct (IH seen) as (H1 & H2 & H3 & H4). split; [exact H1|]. split; [apply incl_tl, H2|]. split; [exact H3|].
        intros u [<-|Hu]; [left; exact E|apply H4, Hu].
      + destruct (IH (t :: seen)) as (H1 & H2 & H3 & H4). split; [|split; [|split]].
        * constructor; [|exact H1]. intros Hin. apply H3 in Hin. cbn [existsb] in Hin. rewrite thread_eqb_refl in Hin. discriminate.
        * intros u [<-|Hu]; [left; reflexivity|right; apply H2, Hu].
        * intros u [<-|Hu]; [exact E|]. apply H3 in Hu. cbn [existsb] in Hu. apply orb_false_iff in Hu. apply Hu.
        * intros u [<-|Hu]; [right; exists t; split; [left; reflexivity|apply thread_eqb_refl]|].
          destruct (H4 u Hu) as [H|(t' & Ht' & E')].
          -- cbn [existsb] in H. apply orb_true_iff in H. destruct H as [H|H]; [|left; exact H].
             right. exists t. split; [left; reflexivity|]. rewrite thread_eqb_sym. exact H.
          -- right. exists t'. split; [right; exact Ht'|exact E']. }
  intros ts. destruct (A ts []) as (H1 & H2 & _ & H4). split; [exact H1|]. split; [exact H2|].
  intros t Ht. destruct (H4 t Ht) as [H|H]; [discriminate|exact H].
Qed.

Ltac other := unfold is_sewing, is_change, is_stop; cbn; intuition discriminate.
Lemma sample_pattern : pec_pattern sample.
Proof.
  split; [|split].
  - exists (removelast sample), (mkS 0%Q 300%Q END). split; [reflexivity|]. split; [reflexivity|].
    unfold sample. cbn [removelast]. repeat (apply Forall_cons; [discriminate|]). apply Forall_nil.
  - assert (E : written sample = [mkS 0 0 STITCH; mkS 100 40 STITCH; mkS 100 40 STOP; mkS 130 40 STITCH; mkS 130 40 COLOR_CHANGE;
      mkS 500 0 JUMP; mkS 0 300 STITCH; mkS 0 300 END]) by (vm_compute; reflexivity).
    rewrite E. unfold pec_representable. cbn [representable sx sy scmd].
    repeat (split; [first [left; split; [cbn; tauto|split; cbn; lia] | right; split; [cbn; tauto|split; reflexivity]]|]). exact I.
  - unfold sample.
    assert (S : forall x y : Q, is_sewing (mkS x y STITCH)) by (intros; unfold is_sewing; cbn; tauto).
    apply sections_sew; [apply S|]. apply sections_sew; [apply S|]. apply sections_edge; [right; reflexivity|].
    apply sections_sew; [apply S|]. apply sections_edge; [left; unfold is_change; cbn; tauto|].
    apply sections_other; [other|other|other|].
    apply sections_sew; [apply S|].
    apply sections_other; [other|other|other|].
    apply sections_end.
Qed.
Lemma sample_room : pec_room sample sample_threads.
Proof.
  split; [cbn; lia|]. split; [cbn; lia|]. split; [|vm_compute; reflexivity].
  exists sample_threads. split; [apply incl_refl|cbn; lia].
Qed.
Lemma sample_label : Forall (fun c => 0 <= c < 128) (label_of sample_name).
Proof. repeat (apply Forall_cons; [cbn; lia|]). apply Forall_nil. Qed.
Lemma sample_neighbours : neighbours colours_differ sample_threads.
Proof.
  intros a x y b E. destruct a as [|a1 [|a2 [|a3 a]]]; try discriminate E.
  injection E as <- <- _. discriminate.
Qed.
Example C71_case : exists file pal pictures,
  pec_write plain_thread (first_seen []) sample_name sample sample_threads = Ok file /\
  palette_for sample_threads pal /\
  pec_file_read file = Ok (
    [mkS 0 0 STITCH; mkS 100 40 STITCH; mkS 100 40 STOP; mkS 130 40 STITCH; mkS 130 40 COLOR_CHANGE; mkS 130 40 TRIM;
     mkS 500 0 JUMP; mkS 500 0 STITCH; mkS 0 300 STITCH; mkS 0 300 END],
    map pal sample_threads, [(text_of "Name", Meta_text (text_of "flower 1"))] ++ pictures).
Proof.
  apply (C71_pec_file plain_thread _ sample_name sample sample_threads); try assumption.
  - apply first_seen_order.
  - apply sample_label.
  - apply sample_pattern.
  - apply sample_room.
  - apply sample_neighbours.
Qed.
Definition sample_md : meta_source := fun key =>
  if text_eqb key (text_of "name") then sample_name
  else if text_eqb key (text_of "author") then Some (text_of "A. Sewer") else None.
Example C72_case : exists file pal,
  pes_write (fun _ => [0; 0; 0; 0]) plain_thread (first_seen []) 10 false sample_md sample sample_threads = Ok file /\
  palette_for sample_threads pal /\
  (zlen file < 2 ^ 32 -> exists pictures, pes_read file = Ok (
    [mkS 0 0 STITCH; mkS 100 40 STITCH; mkS 100 40 STOP; mkS 130 40 STITCH; mkS 130 40 COLOR_CHANGE; mkS 130 40 TRIM;
     mkS 500 0 JUMP; mkS 500 0 STITCH; mkS 0 300 STITCH; mkS 0 300 END],
    map pal sample_threads, [(text_of "version", Meta_version 10); (text_of "Name", Meta_text (text_of "flower 1"))] ++ pictures)).
Proof.
  apply (C72_pes_version_1 _ plain_thread _ false sample_md sample sample_threads).
  - apply first_seen_order.
  - apply sample_label.
  - apply sample_pattern.
  - apply sample_room.
  - apply sample_neighbours.
Qed.
Example C73_case : exists file,
  pes_write (fun _ => [0; 0; 0; 0]) plain_thread (first_seen []) 60 true sample_md sample sample_threads = Ok file /\
  (zlen file < 2 ^ 32 -> exists meta, pes_read file = Ok (
    [mkS 0 0 STITCH; mkS 100 40 STITCH; mkS 100 40 STOP; mkS 130 40 STITCH; mkS 130 40 COLOR_CHANGE; mkS 130 40 TRIM;
     mkS 500 0 JUMP; mkS 500 0 STITCH; mkS 0 300 STITCH; mkS 0 300 END],
    [mkT 0xFF123456 (Some (text_of "red")) (Some (text_of "12")) None None None None; plain_thread 0xFF00FF00], meta) /\
    In (text_of "name", Meta_text (text_of "flower 1 of 3")) meta /\ In (text_of "author", Meta_text (text_of "A. Sewer")) meta).
Proof.
  destruct (C73_pes_version_6 (fun _ => [0; 0; 0; 0]) plain_thread (first_seen []) true sample_md sample sample_threads) as (file & W & E).
  - reflexivity.
  - apply first_seen_order.
  - apply sample_label.
  - repeat (apply Forall_cons; [try exact I; cbn; repeat (apply Forall_cons; [lia|]); apply Forall_nil|]). apply Forall_nil.
  - repeat (apply Forall_cons; [repeat split; try exact I; cbn; repeat (apply Forall_cons; [lia|]); apply Forall_nil|]). apply Forall_nil.
  - apply sample_pattern.
  - apply sample_room.
  - intros a x y b H. destruct a as [|a1 [|a2 [|a3 a]]]; try discriminate H. injection H as <- <- _. left. discriminate.
  - exists file. split; [exact W|]. intros L. destruct (E L) as (meta & Er & Em). exists meta. split; [exact Er|].
    split; apply (Em _ _); cbn; auto 10.
Qed.

(** ** C74: preview pictures *)
(** The pixel of a point: the bounds are scaled by the same factor on both axes so that they
    fit into 48 by 38 pixels less [margin], centred. *)
Definition in_pixel (e : box) (margin : Z) (x y : Q) (column row : Z) : Prop :=
  let '(x0, y0, x1, y1) := e in
  let w := (if Qeq_bool (x1 - x0) 0 then 1 else x1 - x0)%Q in
  let h := (if Qeq_bool (y1 - y0) 0 then 1 else y1 - y0)%Q in
  let scale := Qmin (inject_Z (48 - margin) / w) (inject_Z (38 - margin) / h) in
  (inject_Z column <= (x - (x1 + x0) * (1#2)) * scale + 24 < inject_Z column + 1)%Q /\
  (inject_Z row <= (y - (y1 + y0) * (1#2)) * scale + 19 < inject_Z row + 1)%Q.
(** A picture of the points: the frame, and a pixel for every point. *)
Definition picture_shows (e : box) (margin : Z) (points : list (stitch Q)) (g : list Z) : Prop :=
  zlen g = 228 /\
  forall x y, 0 <= x < 48 -> 0 <= y < 38 ->
    (pixel g x y = true <-> pixel blank_graphic x y = true \/ exists s, In s points /\ in_pixel e margin (sx s) (sy s) x y).

Lemma floor_spec (q : Q) z : Qfloor q = z <-> (inject_Z z <= q < inject_Z z + 1)%Q.
Proof.
  split.
  - intros <-. split; [apply Qfloor_le|]. pose proof (Qlt_floor q) as H. rewrite inject_Z_plus in H. exact H.
  - intros [H1 H2]. pose proof (Qfloor_le q) as A. pose proof (Qlt_floor q) as B.
    assert (inject_Z z < inject_Z (Qfloor q + 1))%Q by (eapply Qle_lt_trans; eassumption).
    assert (inject_Z (Qfloor q) < inject_Z (z + 1))%Q by (rewrite inject_Z_plus; eapply Qle_lt_trans; eassumption).
    rewrite <- Zlt_Qlt in *. lia.
Qed.
Lemma in_pixel_drawn e margin x y column row :
  in_pixel e margin x y column row <-> drawn_x e 6 38 margin x = column /\ drawn_y e 6 38 margin y = row.
Proof.
  destruct e as [[[x0 y0] x1] y1]. unfold drawn_x, drawn_y. rewrite !floor_spec. unfold in_pixel, graphic_scale.
  change (6 * 8) with 48.
  match goal with |- context [Qmin ?a ?b] => generalize (Qmin a b) as k end. intros k.
  assert (E1 : (x * k + (- ((x1 + x0) / 2) * k + inject_Z 48 / 2) == (x - (x1 + x0) * (1 # 2)) * k + 24)%Q)
    by (change (inject_Z 48) with 48%Q; field).
  assert (E2 : (y * k + (- ((y1 + y0) / 2) * k + inject_Z 38 / 2) == (y - (y1 + y0) * (1 # 2)) * k + 19)%Q)
    by (change (inject_Z 38) with 38%Q; field).
  setoid_rewrite E1. setoid_rewrite E2. reflexivity.
Qed.
Lemma drawn_at_in_pixel e margin points x y :
  drawn_at e margin points x y = true <-> exists s, In s points /\ in_pixel e margin (sx s) (sy s) x y.
Proof.
  unfold drawn_at. rewrite existsb_exists. split; intros (s & Hs & H); exists s; (split; [exact Hs|]).
  - rewrite andb_true_iff, !Z.eqb_eq in H. apply in_pixel_drawn. destruct H; split; congruence.
  - apply in_pixel_drawn in H. rewrite andb_true_iff, !Z.eqb_eq. destruct H; split; congruence.
Qed.

(** Every point of the pattern has a pixel strictly inside the frame's box (columns 1 to 46, rows
    1 to 36 are the frame), the first picture shows exactly the stitches of the pattern, and there
    is one more picture for each colour section, in order, showing its stitches. *)
Theorem C74_pictures : forall l e, box_of l = Some e ->
  (forall s margin, In s l -> margin = 4 \/ margin = 5 ->
     exists column row, in_pixel e margin (sx s) (sy s) column row /\ 2 <= column <= 46 /\ 2 <= row <= 36) /\
  exists first rest, write_pec_graphics e l = first ++ concat rest /\
    picture_shows e 4 (filter (fun s => cmd_of (scmd s) =? STITCH) l) first /\
    Forall2 (fun b g => picture_shows e 5 (filter (fun s => scmd s =? STITCH) (fst b)) g)
      (get_as_colorblocks (fun _ => tt) l) rest.
Proof.
  intros l e E. split.
  - intros s margin Hs Hm. pose proof (box_inside l e E) as F. rewrite Forall_forall in F.
    exists (drawn_x e 6 38 margin (sx s)), (drawn_y e 6 38 margin (sy s)).
    split; [apply in_pixel_drawn; split; reflexivity|]. apply drawn_inside; [apply F, Hs|exact Hm].
  - exists (main_picture e l), (map (color_picture e) (get_as_colorblocks (fun _ => tt) l)).
    split; [rewrite graphics_split, <- flat_map_concat_map; reflexivity|]. split.
    + destruct (main_picture_ok l e E) as (L & _ & H). split; [exact L|]. intros x y Hx Hy.
      rewrite (H x y Hx Hy), orb_true_iff, drawn_at_in_pixel, flat_map_concat_map.
      destruct (C36_stitch_blocks _ _ (fun _ => tt) l) as [-> _]. reflexivity.
    + assert (G : forall bs, incl bs (get_as_colorblocks (fun _ => tt) l) ->
        Forall2 (fun b g => picture_shows e 5 (filter (fun s => scmd s =? STITCH) (fst b)) g) bs (map (color_picture e) bs)).
      { induction bs as [|b bs IH]; intros I; [constructor|]. cbn [map]. constructor.
        - destruct (color_picture_ok l e b E) as (L & H); [apply I; left; reflexivity|]. split; [exact L|].
          intros x y Hx Hy. rewrite (H x y Hx Hy), orb_true_iff, drawn_at_in_pixel. reflexivity.
        - apply IH. intros x Hx. apply I. right. exact Hx. }
      apply G, incl_refl.
Qed.
Print Assumptions C74_pictures.
Example C74_case : exists e, box_of sample = Some e /\ zlen (write_pec_graphics e sample) = 684 /\
  exists x y, pixel (write_pec_graphics e sample) x y = true /\ pixel blank_graphic x y = false.
Proof.
  eexists. split; [vm_compute; reflexivity|]. split; [vm_compute; reflexivity|].
  exists 2, 5. split; vm_compute; reflexivity.
Qed.

(** The pictures of a file written with exactly one thread for each colour section are read back:
    the picture of the whole with no thread, then that of each section (a stop starts a new one)
    with its thread. *)
Theorem C74_pictures_read : forall filler order name l threads e,
  set_order order -> Forall (fun c => 0 <= c < 128) (label_of name) ->
  pec_pattern l -> pec_room l threads -> neighbours colours_differ threads ->
  List.length threads = S (thread_changes l) -> box_of (map cc l) = Some e ->
  exists file kept threads' pal pictures first rest, pec_write filler order name l threads = Ok file /\
    write_pec_graphics e (map cc l) = first ++ concat rest /\
    zlen first = 228 /\ Forall (fun g => zlen g = 228) rest /\ List.length rest = List.length (expand threads l) /\
    pec_file_read file = Ok (kept, threads', name_text name ++ pictures) /\ palette_for threads pal /\
    map snd pictures = Meta_graphic first 6 None
      :: map (fun p => Meta_graphic (fst p) 6 (Some (pal (snd p)))) (combine rest (expand threads l)).
Proof.
  intros filler order name l threads e Ho Ha P R N Hn Eb.
  destruct (pec_file filler order name l threads Ho Ha P R (differ_same _ N)) as (file & pictures & W & Er & Ep).
  specialize (Ep Hn e Eb).
  set (rest := map (color_picture e) (get_as_colorblocks (fun _ => tt) (map cc l))) in *.
  exists file, (pec_kept l), (map (palette_thread (order (expand threads l))) threads),
    (palette_thread (order (expand threads l))), pictures, (main_picture e (map cc l)), rest.
  assert (Lr : List.length rest = List.length (expand threads l)).
  { unfold rest. rewrite map_length, pec_colour_blocks by exact P. rewrite expand_length by apply R. lia. }
  split; [exact W|]. split; [rewrite graphics_split, flat_map_concat_map; reflexivity|].
  split; [apply main_picture_ok, Eb|]. split; [|split; [exact Lr|split; [exact Er|split; [apply palette_ok; assumption|]]]].
  - apply Forall_forall. intros p Hp. apply in_map_iff in Hp. destruct Hp as (b & <- & Hb).
    exact (proj1 (color_picture_ok _ _ _ Eb Hb)).
  - rewrite Ep. unfold pictures_of. fold rest. cbn [picture_entries map snd]. f_equal. clear -Lr. change (0 + 1) with 1.
    generalize 1. revert Lr. generalize (palette_thread (order (expand threads l))) as pal. generalize (expand threads l) as ts.
    intros ts pal. revert ts. induction rest as [|g rest IH]; intros [|t ts] L i; try discriminate L; [reflexivity|].
    cbn [map picture_entries combine fst snd]. f_equal. apply IH. cbn [List.length] in L. lia.
Qed.
Print Assumptions C74_pictures_read.
Example C74_read_case : List.length sample_threads = S (thread_changes sample) /\
  exists e, box_of (map cc sample) = Some e /\ pec_pattern sample /\ pec_room sample sample_threads.
Proof.
  split; [reflexivity|]. eexists. split; [vm_compute; reflexivity|]. split; [apply sample_pattern|apply sample_room].
Qed.

(** ** C75: names and threads that are lost *)
(** A name is read back under another key ("Name" instead of "name") and only its first eight
    characters. *)
Theorem C75_name_refuted : exists l threads file stitches threads' meta,
  pec_pattern l /\ pec_room l threads /\
  pec_write plain_thread (first_seen []) (Some (text_of "marguerite")) l threads = Ok file /\
  pec_file_read file = Ok (stitches, threads', meta) /\
  (forall m, ~ In (text_of "name", m) meta) /\ In (text_of "Name", Meta_text (text_of "margueri")) meta.
Proof.
  exists sample, sample_threads. do 4 eexists. split; [apply sample_pattern|]. split; [apply sample_room|].
  split; [vm_compute; reflexivity|]. split; [vm_compute; reflexivity|]. split.
  - intros m H. cbn [In] in H. repeat (destruct H as [H|H]; [discriminate H|]). exact H.
  - cbn [In]. left. vm_compute. reflexivity.
Qed.
Print Assumptions C75_name_refuted.
(** A name with a non-ASCII character moves the rest of the file: the stitches that are read
    are not those written. *)
Theorem C75_non_ascii_refuted : exists l threads file,
  pec_pattern l /\ pec_room l threads /\ neighbours colours_differ threads /\
  pec_write plain_thread (first_seen []) (Some [0xE9]) l threads = Ok file /\
  (forall threads' meta, pec_file_read file <> Ok (pec_kept l, threads', meta)).
Proof.
  exists sample, sample_threads. eexists. split; [apply sample_pattern|]. split; [apply sample_room|].
  split; [apply sample_neighbours|].
  split; [vm_compute; reflexivity|]. intros threads' meta H. vm_compute in H. discriminate H.
Qed.
Print Assumptions C75_non_ascii_refuted.
(** Two sections with equal colours but different threads become one section with a stop. *)
Theorem C75_same_colour_refuted : exists l threads file,
  pec_pattern l /\ pec_room l threads /\ neighbours (fun a b => a <> b) threads /\
  pes_write (fun _ => [0; 0; 0; 0]) plain_thread (first_seen []) 10 false (fun _ => None) l threads = Ok file /\
  exists stitches threads' meta, pes_read file = Ok (stitches, threads', meta) /\
    List.length threads = 2%nat /\ List.length threads' = 1%nat /\ thread_changes l = 1%nat /\ thread_changes stitches = 0%nat.
Proof.
  exists sample, [plain_thread 0xFF0000; mkT 0xFF0000 (Some (text_of "silk")) None None None None None].
  eexists. split; [apply sample_pattern|]. split; [|split].
  - split; [cbn; lia|]. split; [cbn; lia|]. split; [|vm_compute; reflexivity].
    eexists. split; [apply incl_refl|cbn; lia].
  - intros a x y b E. destruct a as [|a1 [|a2 [|a3 a]]]; try discriminate E. injection E as <- <- _. discriminate.
  - split; [vm_compute; reflexivity|]. do 3 eexists. split; [vm_compute; reflexivity|]. repeat split; reflexivity.
Qed.
Print Assumptions C75_same_colour_refuted.
(** A pattern that is never sewn and has no thread is read back with 256 threads. *)
Theorem C75_no_thread_refuted : exists l file stitches threads' meta,
  ends_once l /\ pec_representable (written l) /\
  pec_write plain_thread (first_seen []) None l [] = Ok file /\
  pec_file_read file = Ok (stitches, threads', meta) /\ (255 < List.length threads' + List.length stitches)%nat.
Proof.
  exists [mkS 100%Q 0%Q JUMP; mkS 100%Q 0%Q END]. do 4 eexists. split; [|split].
  - exists [mkS 100%Q 0%Q JUMP], (mkS 100%Q 0%Q END). split; [reflexivity|]. split; [reflexivity|].
    apply Forall_cons; [discriminate|apply Forall_nil].
  - assert (E : written [mkS 100%Q 0%Q JUMP; mkS 100%Q 0%Q END] = [mkS 100 0 JUMP; mkS 100 0 END]) by (vm_compute; reflexivity).
    rewrite E. cbn. split; [left; split; [auto|unfold step_within; lia]|]. split; [right; auto 10|exact I].
  - split; [vm_compute; reflexivity|]. split; [vm_compute; reflexivity|]. cbn [List.length]. lia.
Qed.
Print Assumptions C75_no_thread_refuted.
