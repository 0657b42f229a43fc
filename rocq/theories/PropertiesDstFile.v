(** Properties of whole DST files: C76 to C80. *)
From Coq Require Import Ascii String ZArith QArith Qabs List Bool Lia Lqa.
From Verif Require Import PyBase EmbConst StreamModel StreamSpec StreamProofs NumQ QuantModel ThreadModel Utf8Proofs
  TextModel PatternModel DstModel DstSpec DstFileModel DstFileSpec DstWholeProofs DstAnyProofs.
Import ListNotations.
Open Scope Z_scope.

(** ** What the statements are about *)
(** The positions a DST file can hold are whole; [written l] are those the writer's displacements add
    up to (within 1/2 of the pattern's, C19), with the pattern's commands. *)
Definition dst_pattern (trim_at : Z) (l : list (stitch Q)) : Prop :=
  dst_representable true false 0 0 (written l) /\ tidy trim_at true None 0 0 (before_end (written l)) /\
  zlen l < 10 ^ 10 /\ Forall (fun s => (Qabs (sx s) < inject_Z (10 ^ 10))%Q /\ (Qabs (sy s) < inject_Z (10 ^ 10))%Q) l.
(** The commands read back: those before the END, stops as colour changes, and one END. *)
Definition dst_kept (l : list (stitch Q)) : list (stitch Q) :=
  map of_int (closed (relabel dst_name (before_end (written l)))).
(** The extents as the header tells them, and the end of the pattern, y upwards. *)
Definition header_numbers (body : list (stitch Q)) (e : stitch Q) (nx0 nx1 ny0 ny1 ax ay : Z) : Prop :=
  (exists x0 x1, extent sx (body ++ [e]) x0 x1 /\ whole (Qabs x0) nx0 /\ whole (Qabs x1) nx1) /\
  (exists y0 y1, extent sy (body ++ [e]) y0 y1 /\ whole (Qabs y0) ny0 /\ whole (Qabs y1) ny1) /\
  whole (sx e) ax /\ whole (sy e) (- ay).
Definition colour_changes (l : list (stitch Q)) : Z := zlen (filter (fun s => cmd_of (scmd s) =? COLOR_CHANGE) l).

Theorem whole_dst_file : forall extended trim_at p body e,
  2 <= trim_at -> info_ok extended p -> header_room extended p -> dst_pattern trim_at (body ++ [e]) ->
  exists file nx0 nx1 ny0 ny1 ax ay, dst_write extended trim_at p (body ++ [e]) = Ok file /\
    header_numbers body e nx0 nx1 ny0 ny1 ax ay /\
    forall fuel, (List.length file <= fuel)%nat ->
    dst_read trim_at None true fuel file
    = Ok (dst_kept (body ++ [e]), mkDL (header_threads extended p)
       (header_meta extended p (zlen (body ++ [e])) (colour_changes (body ++ [e])) nx0 nx1 ny0 ny1 ax ay)).
Proof.
  intros extended t p body e Ht Hi Hr (H1 & H2 & H3).
  destruct (dst_file extended t p body e Ht Hi Hr H3 H1 H2)
    as (file & x0 & y0 & x1 & y1 & nx0 & ny0 & nx1 & ny1 & ax & ay & W & X & Y & A & B & C & D & E & F & R).
  exists file, nx0, nx1, ny0, ny1, ax, ay. split; [exact W|]. split; [|exact R].
  split; [exists x0, x1; auto|]. split; [exists y0, y1; auto|]. auto.
Qed.

(** ** C76: stitches, trims and header survive *)
Theorem C76_dst_file : forall extended trim_at p body e,
  2 <= trim_at -> info_ok extended p -> header_room extended p -> dst_pattern trim_at (body ++ [e]) ->
  exists file nx0 nx1 ny0 ny1 ax ay threads, dst_write extended trim_at p (body ++ [e]) = Ok file /\
    header_numbers body e nx0 nx1 ny0 ny1 ax ay /\
    forall fuel, (List.length file <= fuel)%nat ->
    dst_read trim_at None true fuel file
    = Ok (dst_kept (body ++ [e]), mkDL threads
       (header_meta extended p (zlen (body ++ [e])) (colour_changes (body ++ [e])) nx0 nx1 ny0 ny1 ax ay)).
Proof.
  intros extended t p body e Ht Hi Hr Hp. destruct (whole_dst_file extended t p body e Ht Hi Hr Hp)
    as (file & a & b & c & d & x & y & W & N & R). exists file, a, b, c, d, x, y, (header_threads extended p). auto.
Qed.

(** ** C77: the threads of an extended header *)
Theorem C77_extended_threads : forall trim_at p body e,
  2 <= trim_at -> info_ok true p -> header_room true p -> dst_pattern trim_at (body ++ [e]) ->
  exists file, dst_write true trim_at p (body ++ [e]) = Ok file /\
    forall fuel, (List.length file <= fuel)%nat -> exists stitches meta,
    dst_read trim_at None true fuel file = Ok (stitches, mkDL
      (map (fun t => (Some (Z.land (t_color t) 0xFFFFFF), strip (none_text (t_description t)), strip (none_text (t_catalog t))))
           (i_threads p)) meta).
Proof.
  intros t p body e Ht Hi Hr Hp. destruct (whole_dst_file true t p body e Ht Hi Hr Hp)
    as (file & a & b & c & d & x & y & W & N & R). exists file. split; [exact W|]. intros fuel Hf.
  do 2 eexists. rewrite (R fuel Hf). reflexivity.
Qed.

(** A pattern that meets the hypotheses: sewing, a trim, jumps, a colour change, a stop. *)
Definition st (x y c : Z) : stitch Q := mkS (inject_Z x) (inject_Z y) c.
Definition sample_body : list (stitch Q) :=
  [st 5 0 STITCH; mkS (21 # 2) (7 # 2) STITCH; mkS (21 # 2) (7 # 2) TRIM; st 100 (-20) JUMP; st 180 (-20) JUMP; st 260 (-20) JUMP; st 266 (-20) STITCH;
   st 266 (-20) COLOR_CHANGE; st 270 0 STITCH; st 270 0 TRIM; st 270 0 STOP; st 300 10 STITCH; st 300 40 JUMP; st 301 40 STITCH].
Definition sample_end : stitch Q := st 301 40 END.
Definition sample_info : dst_info :=
  mkInfo (Some (text_of "Flower")) (Some (text_of "A. N. Other")) None
    [mkT 0xFF8000 (Some (text_of " Orange ")) (Some (text_of "1042")) None None None None; mkT 0x0000FF None None None None None None].
(** Checks for the concrete cases. *)
Definition within121 (px py x y : Z) : bool := (-121 <=? x - px) && (x - px <=? 121) && (-121 <=? y - py) && (y - py <=? 121).
Fixpoint repb (sq : bool) (px py : Z) (l : list (stitch Z)) : bool :=
  match l with
  | [] => true
  | s :: r => let c := cmd_of (scmd s) in
      (if c =? STITCH then within121 px py (sx s) (sy s)
       else if c =? JUMP then negb sq && within121 px py (sx s) (sy s)
       else if c =? SEQUIN_EJECT then sq && within121 px py (sx s) (sy s)
       else ((c =? COLOR_CHANGE) || (c =? STOP) || (c =? SEQUIN_MODE) || (c =? END) || (c =? TRIM) && negb sq)
            && (sx s =? px) && (sy s =? py))
      && repb (if c =? SEQUIN_MODE then negb sq else sq) (sx s) (sy s) r
  end.
Lemma within121_ok px py x y : within121 px py x y = true -> step_within 121 px py x y.
Proof. unfold within121, step_within. rewrite !andb_true_iff, !Z.leb_le. lia. Qed.
Lemma repb_ok : forall l sq px py, repb sq px py l = true -> dst_representable true sq px py l.
Proof.
  induction l as [|s r IH]; intros sq px py H; [exact I|]. cbn [repb dst_representable] in *. cbn zeta in *.
  apply andb_true_iff in H as [H K]. split; [|apply IH; exact K].
  destruct (cmd_of (scmd s) =? STITCH) eqn:E1; [left; split; [lia|apply within121_ok; exact H]|].
  destruct (cmd_of (scmd s) =? JUMP) eqn:E2.
  { apply andb_true_iff in H as [H1 H2]. right; left. split; [lia|]. split; [destruct sq; [discriminate H1|reflexivity]|apply within121_ok; exact H2]. }
  destruct (cmd_of (scmd s) =? SEQUIN_EJECT) eqn:E3.
  { apply andb_true_iff in H as [H1 H2]. right; right; left. split; [lia|]. split; [exact H1|apply within121_ok; exact H2]. }
  right; right; right. rewrite !andb_true_iff, !orb_true_iff, andb_true_iff, negb_true_iff, !Z.eqb_eq in H. tauto.
Qed.
Fixpoint tidyb (n : Z) (trimmed : bool) (run : option (Z * Z * Z)) (px py : Z) (l : list (stitch Z)) : bool :=
  match l with
  | [] => true
  | s :: r =>
      let c := cmd_of (scmd s) in
      if (c =? STITCH) || (c =? SEQUIN_EJECT) then tidyb n false None (sx s) (sy s) r
      else if (c =? COLOR_CHANGE) || (c =? STOP) then tidyb n true None (sx s) (sy s) r
      else if c =? TRIM then
        negb trimmed && (match run with None => true | Some _ => false end) && (sx s =? px) && (sy s =? py) && tidyb n true None (sx s) (sy s) r
      else if c =? JUMP then
        let '(k, x0, y0) := match run with Some v => v | None => (0, px, py) end in
        (trimmed || (k + 1 <? n)) && negb ((sx s =? x0) && (sy s =? y0)) && tidyb n trimmed (Some (k + 1, x0, y0)) (sx s) (sy s) r
      else (c =? SEQUIN_MODE) && (sx s =? px) && (sy s =? py) && tidyb n trimmed run (sx s) (sy s) r
  end.
Lemma tidyb_ok n : forall l trimmed run px py, tidyb n trimmed run px py l = true -> tidy n trimmed run px py l.
Proof.
  induction l as [|s r IH]; intros tr run px py H; [exact I|]. cbn [tidyb tidy] in *. cbn zeta in *.
  destruct (_ || _); [apply IH; exact H|]. destruct (_ || _); [apply IH; exact H|].
  destruct (cmd_of (scmd s) =? TRIM).
  { rewrite !andb_true_iff, negb_true_iff, !Z.eqb_eq in H. destruct H as ((((H1 & H2) & H3) & H4) & H5).
    split; [exact H1|]. split; [destruct run; [discriminate H2|reflexivity]|]. split; [exact H3|]. split; [exact H4|]. apply IH; exact H5. }
  destruct (cmd_of (scmd s) =? JUMP).
  { destruct (match run with Some v => v | None => (0, px, py) end) as [[k x0] y0].
    rewrite !andb_true_iff, orb_true_iff, negb_true_iff, Z.ltb_lt in H. destruct H as ((H1 & H2) & H3).
    split; [exact H1|]. split; [|apply IH; exact H3]. intros [E1 E2]. rewrite E1, E2, !Z.eqb_refl in H2. discriminate H2. }
  rewrite !andb_true_iff, !Z.eqb_eq in H. destruct H as (((H1 & H2) & H3) & H4). auto.
Qed.
Lemma sample_written : exists l, written (sample_body ++ [sample_end]) = l /\ l =
  [mkS 5 0 STITCH; mkS 11 4 STITCH; mkS 11 4 TRIM; mkS 100 (-20) JUMP; mkS 180 (-20) JUMP; mkS 260 (-20) JUMP; mkS 266 (-20) STITCH;
   mkS 266 (-20) COLOR_CHANGE; mkS 270 0 STITCH; mkS 270 0 TRIM; mkS 270 0 STOP; mkS 300 10 STITCH; mkS 300 40 JUMP; mkS 301 40 STITCH; mkS 301 40 END].
Proof. eexists. split; [reflexivity|]. vm_compute. reflexivity. Qed.
Lemma sample_pattern : dst_pattern 3 (sample_body ++ [sample_end]).
Proof.
  unfold dst_pattern. destruct sample_written as (l & E & El). rewrite E, El. clear E El l.
  split; [|split; [|split; [vm_compute; reflexivity|]]].
  - apply repb_ok. vm_compute. reflexivity.
  - apply tidyb_ok. vm_compute. reflexivity.
  - repeat (apply Forall_cons; [split; reflexivity|]). apply Forall_nil.
Qed.
Example C76_case : 2 <= 3 /\ info_ok true sample_info /\ header_room true sample_info /\ dst_pattern 3 (sample_body ++ [sample_end]).
Proof.
  split; [lia|]. split; [|split; [vm_compute; discriminate|exact sample_pattern]].
  assert (L : forall t, forallb (fun c => (32 <=? c) && (c <? 128) && negb (c =? 44)) t = true -> field t).
  { intros t H. rewrite forallb_forall in H. split; [|intros K; apply H in K; discriminate K].
    split; [apply Forall_forall; intros c Hc; apply H in Hc; unfold scalar; lia|].
    split; intros K; apply H in K; discriminate K. }
  split; [apply (L (title sample_info)); reflexivity|]. intros _.
  split; [apply (L (text_of "A. N. Other")); reflexivity|]. split; [exact I|].
  constructor; [split; apply L; reflexivity|]. constructor; [split; exact I|constructor].
Qed.

(** ** C78: outside those conditions the header loses things *)
Definition one_stitch : list (stitch Q) := [st 10 10 STITCH; st 10 10 END].
Definition reads_back (extended : bool) (p : dst_info) (l : list (stitch Q)) (s : list (stitch Q)) : Prop :=
  exists file out, dst_write extended 3 p l = Ok file /\ dst_read 3 None true (List.length file) file = Ok (s, out).
Lemma simple_is_pattern : dst_pattern 3 one_stitch.
Proof.
  unfold dst_pattern. assert (E : written one_stitch = [mkS 10 10 STITCH; mkS 10 10 END]) by (vm_compute; reflexivity). rewrite E. clear E.
  split; [|split; [|split; [vm_compute; reflexivity|]]].
  - apply repb_ok. vm_compute. reflexivity.
  - cbn. exact I.
  - repeat (apply Forall_cons; [split; reflexivity|]). apply Forall_nil.
Qed.
(** A name too long for the header moves the stitches of the file. *)
Theorem C78_long_name_refuted : exists p, info_ok false p /\ dst_pattern 3 one_stitch /\
  exists s, reads_back false p one_stitch s /\ s <> dst_kept one_stitch.
Proof.
  exists (mkInfo (Some (repeat 65 404)) None None []). split; [|split; [exact simple_is_pattern|]].
  - split; [|discriminate]. split; [apply Forall_forall; intros c Hc; apply repeat_spec in Hc; subst; unfold scalar; lia|].
    split; intros K; apply repeat_spec in K; discriminate K.
  - eexists. split; [do 2 eexists; split; [vm_compute; reflexivity|vm_compute; reflexivity]|]. vm_compute. discriminate.
Qed.
(** So do nineteen threads with ordinary names. *)
Definition many_threads : dst_info :=
  mkInfo None None None (repeat (mkT 0xFF (Some (text_of "Blue")) (Some (text_of "1234")) None None None None) 19).
Theorem C78_many_threads_refuted : dst_pattern 3 one_stitch /\
  exists s, reads_back true many_threads one_stitch s /\ s <> dst_kept one_stitch.
Proof.
  split; [exact simple_is_pattern|].
  eexists. split; [do 2 eexists; split; [vm_compute; reflexivity|vm_compute; reflexivity]|]. vm_compute. discriminate.
Qed.
(** A comma in a description: the catalogue number read is the rest of the description. *)
Theorem C78_comma_refuted : exists t file s m,
  t_description t = Some (text_of "Red, dark") /\ t_catalog t = Some (text_of "12") /\
  dst_write true 3 (mkInfo None None None [t]) one_stitch = Ok file /\
  dst_read 3 None true (List.length file) file = Ok (s, mkDL [(Some 0xC00000, text_of "Red", text_of "dark")] m).
Proof.
  exists (mkT 0xC00000 (Some (text_of "Red, dark")) (Some (text_of "12")) None None None None).
  do 3 eexists. split; [reflexivity|]. split; [reflexivity|]. split; [vm_compute; reflexivity|]. vm_compute. reflexivity.
Qed.
(** A thread without a description comes back with one. *)
Theorem C78_no_description_refuted : exists t file s m,
  t_description t = None /\ dst_write true 3 (mkInfo None None None [t]) one_stitch = Ok file /\
  dst_read 3 None true (List.length file) file = Ok (s, mkDL [(Some 0xC00000, text_of "None", text_of "None")] m).
Proof.
  exists (mkT 0xC00000 None None None None None None).
  do 3 eexists. split; [reflexivity|]. split; [vm_compute; reflexivity|]. vm_compute. reflexivity.
Qed.
(** A name with a line end becomes another entry. *)
Theorem C78_line_end_refuted : exists file s m,
  dst_write false 3 (mkInfo (Some (text_of "A" ++ [10] ++ text_of "CP:me")) None None []) one_stitch = Ok file /\
  dst_read 3 None true (List.length file) file = Ok (s, mkDL [] m) /\
  In (text_of "copyright", text_of "me") m /\ In (text_of "name", text_of "A") m.
Proof.
  do 3 eexists. split; [vm_compute; reflexivity|]. split; [vm_compute; reflexivity|]. split; vm_compute; auto.
Qed.
(** An empty pattern cannot be written. *)
Theorem C78_empty_refuted : forall extended t p, dst_write extended t p [] = Err OverflowError.
Proof. reflexivity. Qed.

(** ** C79: reading any bytes *)
Theorem C79_dst_read_any : forall count_max distance clipping file fuel, (List.length file < fuel)%nat ->
  (exists stitches loaded, dst_read count_max distance clipping fuel file = Ok (stitches, loaded)) \/
  (exists error, dst_read count_max distance clipping fuel file = Err error /\ (error = IndexError \/ error = ValueError) /\
     exists a b, firstn 512 file = a ++ [84; 67] ++ b).
Proof.
  intros c d cl file fuel H. pose proof (dst_read_any c d cl file fuel H) as R.
  destruct (dst_read c d cl fuel file) as [[s m]|e]; [left; exists s, m; reflexivity|right]. exists e. split; [reflexivity|].
  destruct R as [B C]. split; [exact B|exact C].
Qed.
(** Both happen. *)
Example C79_case_ok : exists s m, dst_read 3 None true 100 (text_of "LA:x" ++ [13]) = Ok (s, m).
Proof. do 2 eexists. vm_compute. reflexivity. Qed.
Example C79_case_error : dst_read 3 None true 100 (text_of "TC:red" ++ [13]) = Err IndexError
  /\ dst_read 3 None true 100 (text_of "TC:#gggggg,a,b" ++ [13]) = Err ValueError.
Proof. split; vm_compute; reflexivity. Qed.
(** The trim interpolation on its own always ends as well. *)
Theorem C79_interpolate_trims_total : forall jumps distance clipping l fuel, (List.length l <= fuel)%nat ->
  exists l', interpolate_trims jumps distance clipping fuel l = Ok l'.
Proof. intros. apply interpolate_trims_total. assumption. Qed.

(** ** C80: trims and jumps outside the conditions of C76 *)
Definition after_dst (t : Z) (l : list (stitch Q)) : res (list (stitch Q)) :=
  do file <- dst_write false t (mkInfo None None None []) l;
  do r <- dst_read t None true (List.length file) file;
  Ok (fst r).
(** A trim after a jump comes back in front of the jump. *)
Theorem C80_trim_after_jump_refuted : exists l,
  l = [st 10 0 STITCH; st 30 0 JUMP; st 30 0 TRIM; st 40 0 STITCH; st 40 0 END] /\
  after_dst 3 l <> Ok (dst_kept l) /\
  after_dst 3 l = Ok [st 10 0 STITCH; st 10 0 TRIM; st 30 0 JUMP; st 32 2 JUMP; st 28 (-2) JUMP; st 30 0 JUMP; st 40 0 STITCH; st 40 0 END].
Proof. eexists. split; [reflexivity|]. split; vm_compute; [discriminate|reflexivity]. Qed.
(** Three jumps after sewing come back with a trim that was not there. *)
Theorem C80_jumps_gain_trim_refuted : exists l,
  l = [st 10 0 STITCH; st 100 0 JUMP; st 200 0 JUMP; st 300 0 JUMP; st 310 0 STITCH; st 310 0 END] /\
  after_dst 3 l = Ok [st 10 0 STITCH; st 10 0 TRIM; st 100 0 JUMP; st 200 0 JUMP; st 300 0 JUMP; st 310 0 STITCH; st 310 0 END].
Proof. eexists. split; [reflexivity|]. vm_compute. reflexivity. Qed.
(** A trim written for one jump count and read with a larger one is lost. *)
Theorem C80_other_count_refuted : exists l file s m,
  l = [st 10 0 STITCH; st 10 0 TRIM; st 40 0 STITCH; st 40 0 END] /\
  dst_write false 3 (mkInfo None None None []) l = Ok file /\
  dst_read 5 None true (List.length file) file = Ok (s, m) /\ Forall (fun u => cmd_of (scmd u) <> TRIM) s.
Proof.
  do 4 eexists. split; [reflexivity|]. split; [vm_compute; reflexivity|]. split; [vm_compute; reflexivity|].
  repeat constructor; discriminate.
Qed.
(** Jumps out and back vanish. *)
Theorem C80_round_trip_jumps_refuted : exists l,
  l = [st 10 0 STITCH; st 50 0 JUMP; st 10 0 JUMP; st 12 0 STITCH; st 12 0 END] /\
  after_dst 3 l = Ok [st 10 0 STITCH; st 12 0 STITCH; st 12 0 END].
Proof. eexists. split; [reflexivity|]. vm_compute. reflexivity. Qed.

Print Assumptions C76_dst_file.
Print Assumptions C77_extended_threads.
Print Assumptions C78_long_name_refuted.
Print Assumptions C78_many_threads_refuted.
Print Assumptions C78_comma_refuted.
Print Assumptions C78_no_description_refuted.
Print Assumptions C78_line_end_refuted.
Print Assumptions C78_empty_refuted.
Print Assumptions C79_dst_read_any.
Print Assumptions C79_interpolate_trims_total.
Print Assumptions C80_trim_after_jump_refuted.
Print Assumptions C80_jumps_gain_trim_refuted.
Print Assumptions C80_other_count_refuted.
Print Assumptions C80_round_trip_jumps_refuted.
