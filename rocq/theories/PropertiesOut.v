(** Properties C205 and C206: files on open streams. *)
From Coq Require Import Ascii String ZArith QArith List Bool Lia.
From Verif Require Import PyBase EmbConst HelperModel StreamModel StreamSpec NumQ ThreadModel Utf8Model TextModel PatternModel QuantModel Vp3Model ColorFileModel
  DstModel DstFileModel PecModel PecFileModel JefModel JefThreads JefWriteModel U01Model XxxModel WholeModel OutModel OutSpec OutProofs.
Import ListNotations.
Open Scope Z_scope.

(** ** C205: VP3, PEC and INF files at any place of a stream *)
Theorem C205_vp3_anywhere : forall filler l threads d k, (k <= List.length d)%nat ->
  writes_at (o_vp3 filler l threads) d k (vp3_write filler l threads).
Proof. intros filler l threads d k H. apply does_at; [apply does_vp3|exact H]. Qed.
Theorem C205_pec_anywhere : forall filler order name l threads d k, (k <= List.length d)%nat ->
  writes_at (o_pec filler order name l threads) d k (pec_write filler order name l threads).
Proof. intros filler order name l threads d k H. apply does_at; [apply does_pec|exact H]. Qed.
Theorem C205_inf_anywhere : forall threads d k, (k <= List.length d)%nat -> writes_at (o_inf threads) d k (inf_write threads).
Proof. intros threads d k H. apply does_at; [apply does_inf|exact H]. Qed.
(** Read from its place in the stream, such a file is what it is alone. *)
Theorem C205_vp3_read : forall at_ file, vp3_read_from (at_, file) = vp3_read file.
Proof. intros at_ file. rewrite <- vp3_from_start, <- (vp3_shift at_ (0, file)). unfold shift. cbn [fst snd]. rewrite Z.add_0_r. reflexivity. Qed.
Theorem C205_pec_read : forall before file, bytes_ok file -> pec_read_from (before ++ file) (zlen before) = pec_file_read file.
Proof. exact pec_from. Qed.
(** One after the other: two designs appended to a stream, each read from where it begins. *)
Lemma over_end : forall d f, over d (List.length d) f = mkOut (d ++ f) (List.length (d ++ f)).
Proof. intros d f. unfold over. rewrite firstn_all, skipn_all2 by lia. rewrite app_nil_r, app_length. reflexivity. Qed.
Theorem C205_two_designs : forall filler l1 threads1 l2 threads2 d f1 f2, vp3_write filler l1 threads1 = Ok f1 -> vp3_write filler l2 threads2 = Ok f2 ->
  (o_vp3 filler l1 threads1;;; o_vp3 filler l2 threads2) (mkOut d (List.length d)) = (mkOut (d ++ f1 ++ f2) (List.length (d ++ f1 ++ f2)), Ok tt).
Proof.
  intros filler l1 threads1 l2 threads2 d f1 f2 E1 E2. pose proof (C205_vp3_anywhere filler l1 threads1 d _ (Nat.le_refl _)) as W1. rewrite E1 in W1. cbn [writes_at] in W1.
  rewrite (bind_ok _ _ _ _ _ W1), over_end. pose proof (C205_vp3_anywhere filler l2 threads2 (d ++ f1) _ (Nat.le_refl _)) as W2. rewrite E2 in W2. cbn [writes_at] in W2.
  rewrite W2, over_end, <- app_assoc. reflexivity.
Qed.

(** ** C206: DST, U01 and JEF files *)
(** What the DST and U01 writers write at the place [k]: the filling of the header ends at a place of the stream,
    not of the file. *)
Definition dst_at (k : nat) (extended : bool) (trim_at : Z) (p : dst_info) (l : list (stitch Q)) : res (list Z) :=
  do t <- header_text extended p l;
  do h <- utf8_encode t;
  do b <- dst_body qz_q trim_at l;
  Ok (h ++ [0x1A] ++ repeat 32 (512 - (k + List.length h + 1)) ++ b).
Theorem C206_dst_at : forall extended trim_at p l d k, (k <= List.length d)%nat -> writes_at (o_dst extended trim_at p l) d k (dst_at k extended trim_at p l).
Proof.
  intros extended trim_at p l d k H. unfold dst_at, o_dst, writes_at. rewrite <- (over_nil d k H).
  destruct (header_text extended p l) as [t|e] eqn:Et; cbn [bindr].
  2:{ exists []. reflexivity. }
  rewrite (bind_ok (made (Ok t)) _ _ (over d k []) t) by reflexivity. unfold write_text. destruct (utf8_encode t) as [h|e] eqn:Eh; cbn [bindr].
  2:{ exists []. reflexivity. }
  rewrite (bind_ok (b <~ made (Ok h);; write b) _ _ (over d k h) tt).
  2:{ rewrite (bind_ok (made (Ok h)) _ _ (over d k []) h) by reflexivity. exact (write_over d k [] h H). }
  erewrite bind_ok by (apply write_over; exact H).
  rewrite (bind_ok tell _ _ (over d k (h ++ [0x1A])) (Z.of_nat (k + List.length (h ++ [0x1A])))) by reflexivity.
  erewrite bind_ok by (apply write_over; exact H).
  replace (Z.to_nat (512 - Z.of_nat (k + List.length (h ++ [26])))) with (512 - (k + List.length h + 1))%nat by (rewrite app_length; cbn [List.length]; lia).
  destruct (dst_body qz_q trim_at l) as [b|e]; cbn [bindr].
  - rewrite (bind_ok (made (Ok b)) _ _ (over d k ((h ++ [26]) ++ repeat 32 (512 - (k + List.length h + 1)))) b) by reflexivity.
    rewrite write_over by exact H. rewrite <- !app_assoc. reflexivity.
  - eexists. reflexivity.
Qed.
Theorem C206_dst_alone : forall extended trim_at p l, dst_at 0 extended trim_at p l = dst_write extended trim_at p l.
Proof.
  intros extended trim_at p l. unfold dst_at, dst_write. destruct (header_text extended p l); cbn [bindr]; [|reflexivity]. destruct (utf8_encode _); cbn [bindr]; [|reflexivity].
  destruct (dst_body qz_q trim_at l); cbn [bindr]; [|reflexivity]. rewrite app_length. cbn [List.length]. rewrite <- app_assoc. reflexivity.
Qed.
(** Written behind three bytes, a DST file loses its first stitch. *)
Definition c206_info : dst_info := mkInfo None None None [].
Definition c206_design : list (stitch Q) := map of_int [mkS 10 20 STITCH; mkS 30 20 STITCH; mkS 40 25 STITCH; mkS 40 25 END].
Definition c206_before : list Z := [1; 2; 3].
Definition bytes_after (p : prog unit) (d : list Z) : list Z := skipn (List.length d) (o_bytes (fst (p (mkOut d (List.length d))))).
Definition places (l : list (stitch Q)) : list (Z * Z * Z) := map (fun s => (q_round (sx s), q_round (sy s), scmd s)) l.
Definition dst_places (file : list Z) : list (Z * Z * Z) := match dst_read 3 None true 100 file with Ok (l, _) => places l | Err _ => [] end.
Theorem C206_dst_refuted : exists p l d file, dst_write false 3 p l = Ok file /\
  dst_places file = [(10, 20, STITCH); (30, 20, STITCH); (40, 25, STITCH); (40, 25, END)] /\
  dst_places (bytes_after (o_dst false 3 p l) d) = [(20, 0, STITCH); (30, 5, STITCH); (30, 5, END)].
Proof.
  exists c206_info, c206_design, c206_before. eexists. split; [vm_compute; reflexivity|]. split; vm_compute; reflexivity.
Qed.
(** So does a U01 file. *)
Theorem C206_u01_refuted : exists l d file, u01_write l = Ok file /\
  map (fun s => (sx s, sy s, scmd s)) (u01_read_file file) = [(10, 20, STITCH); (30, 20, STITCH); (40, 25, STITCH); (40, 25, END)] /\
  map (fun s => (sx s, sy s, scmd s)) (u01_read_file (bytes_after (o_u01 l) d)) = [(20, 0, STITCH); (30, 5, STITCH); (30, 5, END)].
Proof.
  exists c206_design, c206_before. eexists. split; [vm_compute; reflexivity|]. split; vm_compute; reflexivity.
Qed.
(** A JEF file is written the same everywhere, but its reader goes to a place counted from the beginning of the stream. *)
Definition c206_jef : list Z := match jef_write_file false 3 (repeat 48 14) [plain_thread 0] c206_design with Ok file => file | Err _ => [] end.
Definition jef_places (r : res (list (stitch Z) * list (option thread))) : list (Z * Z * Z) := match r with Ok (l, _) => map (fun s => (sx s, sy s, scmd s)) l | Err _ => [] end.
Theorem C206_jef_refuted : exists l threads d file, jef_write_file false 3 (repeat 48 14) threads l = Ok file /\
  jef_places (jef_read (jef_thread_of (plain_thread 0)) file) = [(10, 20, STITCH); (30, 20, STITCH); (40, 25, STITCH); (40, 25, END)] /\
  jef_places (jef_read_from (jef_thread_of (plain_thread 0)) (d ++ file) (List.length d)) <> jef_places (jef_read (jef_thread_of (plain_thread 0)) file).
Proof.
  exists c206_design, [plain_thread 0], (1 :: c206_before). eexists. split; [vm_compute; reflexivity|]. split; [vm_compute; reflexivity|vm_compute; discriminate].
Qed.
Theorem C206_jef_alone : forall T (thread_of : Z -> T) file, jef_read_from thread_of file 0 = jef_read thread_of file.
Proof. reflexivity. Qed.
Print Assumptions C205_vp3_anywhere.
Print Assumptions C205_pec_anywhere.
Print Assumptions C205_inf_anywhere.
Print Assumptions C205_vp3_read.
Print Assumptions C205_pec_read.
Print Assumptions C205_two_designs.
Print Assumptions C206_dst_at.
Print Assumptions C206_dst_alone.
Print Assumptions C206_dst_refuted.
Print Assumptions C206_u01_refuted.
Print Assumptions C206_jef_refuted.

(** Three stitches in the middle of a stream of 400 bytes. *)
Definition c205_design : list (stitch Z) := [mkS 0 0 STITCH; mkS 10 20 STITCH; mkS 10 20 COLOR_CHANGE; mkS 15 5 STITCH; mkS 15 5 END].
Example C205_case : exists file, vp3_write plain_thread c205_design [] = Ok file /\ zlen file = 348 /\
  o_bytes (fst (o_vp3 plain_thread c205_design [] (mkOut (repeat 7 400) 5))) = repeat 7 5 ++ file ++ repeat 7 47.
Proof. eexists. split; [vm_compute; reflexivity|]. split; vm_compute; reflexivity. Qed.
Example C205_fails_case : inf_write [mkT 0 (Some [0xD800]) None None None None None] = Err ValueError.
Proof. reflexivity. Qed.
