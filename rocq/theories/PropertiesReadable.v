(** C188: which files make the readers of JEF, PEC, PES, TBF, VP3 and XXX fail, and how. *)
From Coq Require Import Ascii String ZArith Bool List Lia.
From Verif Require Import PyBase EmbConst BitLemmas HelperModel StreamModel PatternModel Utf8Model TextModel JefModel Vp3Model ThreadModel
  PecModel PecFileModel PesModel XxxModel TbfModel WholeModel ReadableSpec ReadableProofs ReadableMoreProofs.
Import ListNotations.
Open Scope Z_scope.

(** JEF: the colour table must be there, and the stitches must not change threads more often than it allows;
    otherwise the file is read. *)
Theorem C188_jef : forall {T} (thread_of : Z -> T) file, a_file file ->
  let count := number32 24 file in
  let stitches := skipn (Z.to_nat (number32 0 file)) file in
  if (zlen file <? 28) || negb (count =? 0) && (zlen file <? 116 + 4 * count) then jef_read thread_of file = Err TypeError
  else if Z.max 1 count <=? jef_changes stitches then jef_read thread_of file = Err IndexError
  else exists l threads, jef_read thread_of file = Ok (l, threads).
Proof. intros T thread_of file. exact (jef_outcome thread_of file). Qed.
(** A file of two colours: read with one thread change, refused with two. *)
Definition jef_sample (changes : nat) : list Z :=
  [124; 0; 0; 0] ++ repeat 0 20 ++ [2; 0; 0; 0] ++ repeat 0 88 ++ [5; 0; 0; 0; 7; 0; 0; 0] ++
  [3; 4] ++ concat (repeat [0x80; 1; 0; 0; 2; 2] changes) ++ [0x80; 0x10; 0; 0].
Example C188_jef_case : Forall (fun n => a_file (jef_sample n)) [1%nat; 2%nat] /\
  (exists l th, jef_read (fun i => i) (jef_sample 1) = Ok (l, th)) /\ jef_read (fun i => i) (jef_sample 2) = Err IndexError /\
  jef_read (fun i => i) (firstn 123 (jef_sample 1)) = Err TypeError.
Proof.
  split; [|split; [do 2 eexists; vm_compute; reflexivity|split; vm_compute; reflexivity]].
  constructor; [|constructor; [|constructor]]; apply file_checked; vm_compute; reflexivity.
Qed.

(** PEC: 525 bytes are enough, whatever they are. *)
Theorem C188_pec : forall file, a_file file ->
  if zlen file <? 525 then pec_file_read file = Err TypeError else exists r, pec_file_read file = Ok r.
Proof. exact pec_outcome. Qed.
(** PES: 517 bytes must follow the place named in bytes 8 to 11; apart from that only a cut thread table in
    the header of version 5 or above makes the reader fail. *)
Theorem C188_pes : forall file, a_file file ->
  let start := number32 8 file in
  (pec_signature file -> if zlen file <? 525 then pes_read file = Err TypeError else exists r, pes_read file = Ok r) /\
  (~ pec_signature file ->
     (if (zlen file <? 12) || (zlen file <? start + 517) then pes_read file = Err TypeError
      else pes_read file = Err TypeError \/ exists r, pes_read file = Ok r) /\
     (~ pes_with_threads file -> 12 <= zlen file -> start + 517 <= zlen file -> exists r, pes_read file = Ok r)).
Proof. exact pes_outcome. Qed.
(** Nothing but zeros: no signature, and the PEC part starts at byte 0. *)
Example C188_pes_case : a_file (repeat 0 517) /\ ~ pec_signature (repeat 0 517) /\ ~ pes_with_threads (repeat 0 517) /\
  number32 8 (repeat 0 517) = 0 /\ pes_read (repeat 0 516) = Err TypeError /\ exists r, pes_read (repeat 0 517) = Ok r.
Proof.
  assert (F : a_file (repeat 0 517)) by (apply file_checked; vm_compute; reflexivity).
  assert (N1 : ~ pec_signature (repeat 0 517)) by discriminate.
  assert (N2 : ~ pes_with_threads (repeat 0 517)) by (intros [(a & b & E & _)|E]; discriminate).
  split; [exact F|]. split; [exact N1|]. split; [exact N2|]. split; [reflexivity|].
  assert (N3 : ~ pec_signature (repeat 0 516)) by discriminate.
  assert (F3 : a_file (repeat 0 516)) by (apply file_checked; vm_compute; reflexivity).
  split.
  - exact (proj1 (proj2 (C188_pes (repeat 0 516) F3) N3)).
  - exact (proj2 (proj2 (C188_pes (repeat 0 517) F) N1) N2 ltac:(vm_compute; discriminate) ltac:(vm_compute; discriminate)).
Qed.
(** A version 6 header whose thread table is cut: the stitches are there, and yet the reader fails. *)
Theorem C188_pes_cut_table : exists file, a_file file /\ pes_with_threads file /\ number32 8 file + 517 <= zlen file /\ pes_read file = Err TypeError.
Proof.
  exists (text_of "#PES0060" ++ repeat 0 80 ++ [255; 0] ++ repeat 0 500). split; [|split; [|split]].
  - apply file_checked. vm_compute. reflexivity.
  - left. exists 54, 48. split; [reflexivity|lia].
  - vm_compute. discriminate.
  - vm_compute. reflexivity.
Qed.

(** TBF: the name must be UTF-8, and the needle table long enough for the needle changes. *)
Theorem C188_tbf : forall file,
  match utf8_decode (firstn 16 (skipn 0x83 file)) with
  | None => tbf_read_file file = Err AttributeError
  | Some _ =>
      if Z.min 256 (Z.max 0 (zlen file - 0x10A)) <? tbf_needles (skipn 0x600 file) then tbf_read_file file = Err IndexError
      else exists r, tbf_read_file file = Ok r
  end.
Proof. exact tbf_outcome. Qed.
Example C188_tbf_case : tbf_read_file (repeat 0 0x83 ++ [255] ++ repeat 0 0x600) = Err AttributeError /\
  tbf_read_file (repeat 0 0x600 ++ concat (repeat [0; 0; 0x81] 257)) = Err IndexError /\
  exists r, tbf_read_file (repeat 0 0x600 ++ concat (repeat [0; 0; 0x81] 256)) = Ok r.
Proof. split; [vm_compute; reflexivity|]. split; [vm_compute; reflexivity|]. eexists. vm_compute. reflexivity. Qed.

(** XXX: the file is read exactly if an end mark follows the records. *)
Theorem C188_xxx : forall file,
  (xxx_ended (skipn 0x100 file) -> exists l threads, xxx_read_file file = Ok (l, threads)) /\
  (~ xxx_ended (skipn 0x100 file) -> xxx_read_file file = Err TypeError).
Proof. intros file. destruct (xxx_outcome file) as [[A B]|[A B]]; split; intros H; try contradiction; assumption. Qed.
(** So a file cut anywhere before the mark gives nothing at all. *)
Theorem C188_xxx_cut : forall header records s rest, zlen header = 0x100 -> Forall xxx_record records -> concat records = s ++ rest ->
  xxx_read_file (header ++ s) = Err TypeError.
Proof.
  intros header records s rest L F E. apply C188_xxx.
  assert (S0 : skipn 0x100 (header ++ s) = s).
  { assert (N : List.length header = 0x100%nat) by (unfold zlen in L; lia). rewrite <- N, skipn_app, skipn_all, Nat.sub_diag. reflexivity. }
  rewrite S0. exact (cut_not_ended records F s rest E).
Qed.
Example C188_xxx_case : (exists l th, xxx_read_file (repeat 0 0x100 ++ [1; 2; 0x7F; 3; 0; 0; 5; 6; 0x7F; 0x7F; 2; 0x14]) = Ok (l, th) /\ zlen l = 4) /\
  xxx_read_file (repeat 0 0x100 ++ [1; 2; 0x7F; 3; 0; 0; 5; 6]) = Err TypeError /\ Forall xxx_record [[1; 2]; [0x7F; 3; 0; 0]; [5; 6]].
Proof.
  split; [do 2 eexists; split; vm_compute; reflexivity|]. split; [vm_compute; reflexivity|].
  constructor; [constructor; discriminate|]. constructor; [constructor; discriminate|]. constructor; [constructor; discriminate|constructor].
Qed.

(** VP3: a pattern, a TypeError, or an IndexError. *)
Theorem C188_vp3 : forall file, (exists r, vp3_read file = Ok r) \/ vp3_read file = Err TypeError \/ vp3_read file = Err IndexError.
Proof. exact vp3_outcome. Qed.
(** Both happen. *)
Example C188_vp3_case : vp3_read [] = Err TypeError /\
  vp3_read (repeat 0 112 ++ [0; 1] ++ [0; 5; 0] ++ [0; 0; 0; 40] ++ repeat 0 8 ++ [0; 0] ++ repeat 0 8 ++ repeat 0 18 ++ [0x80; 1; 0; 0]) = Err IndexError /\
  exists r, vp3_read (repeat 0 112 ++ [0; 0]) = Ok r.
Proof. split; [vm_compute; reflexivity|]. split; [vm_compute; reflexivity|]. eexists. vm_compute. reflexivity. Qed.

Print Assumptions C188_jef.
Print Assumptions C188_pec.
Print Assumptions C188_pes.
Print Assumptions C188_pes_cut_table.
Print Assumptions C188_tbf.
Print Assumptions C188_xxx.
Print Assumptions C188_xxx_cut.
Print Assumptions C188_vp3.
