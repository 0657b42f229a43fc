(** PHB and PHC files: C95 and C96. *)
From Coq Require Import Ascii String ZArith QArith List Bool Lia.
From Verif Require Import PyBase EmbConst StreamModel StreamSpec HelperModel NumQ QuantModel BitLemmas ThreadModel Utf8Model TextModel
  ColorFileModel CompressModel PatternModel PatternSpec PatternProofs Vp3Model PecModel PecSpec PecProofs PecFileModel PecFileSpec
  PecFileProofs PesProofs PropertiesPes RecordSpec RecordProofs RecordAnyProofs BlockSpec BlockProofs BlockMoreProofs PhbModel PhbSpec PhbProofs.
Import ListNotations.
Open Scope Z_scope.

(** ** C95 *)
(** [codes] gives a colour for every colour section; like every PEC file it is stored with the
    code repeated at every stop ([expand]), the stops as colour changes ([cc]). *)
Theorem C95_phb_design : forall file l codes a b c q, pec_pattern l -> (thread_changes l < List.length codes)%nat ->
  Forall (fun c => 0 <= c < 256) codes -> neighbours_differ thread_eqb (map brother codes) ->
  phb_file file (expand codes l) a b c (pec_encode qz_q (map cc l) ++ 0 :: q) ->
  phb_read file = Ok (pec_kept l, map brother codes, []).
Proof.
  intros file l codes a b c q P Hn F Nd H. rewrite (phb_read_of _ _ _ _ _ _ H) by (apply expand_bytes, F).
  f_equal. apply design_finished; assumption.
Qed.
Print Assumptions C95_phb_design.
Theorem C95_phc_design : forall file l codes stride height pictures q, pec_pattern l -> (thread_changes l < List.length codes)%nat ->
  Forall (fun c => 0 <= c < 256) codes -> neighbours_differ thread_eqb (map brother codes) ->
  phc_file file (expand codes l) stride height pictures (pec_encode qz_q (map cc l) ++ 0 :: q) ->
  phc_read file = Ok (pec_kept l, map brother codes,
    phc_pictures 0 stride pictures (None :: map Some (map brother (expand codes l)))).
Proof.
  intros file l codes stride height pictures q P Hn F Nd H. rewrite (phc_read_of _ _ _ _ _ _ H) by (apply expand_bytes, F).
  f_equal. apply design_finished; assumption.
Qed.
Print Assumptions C95_phc_design.

(** ** C96 *)
Theorem C96_phb_any : forall file, (exists r, phb_read file = Ok r) \/ phb_read file = Err TypeError.
Proof. exact phb_any. Qed.
Print Assumptions C96_phb_any.
Theorem C96_phc_any : forall file, (exists r, phc_read file = Ok r) \/ phc_read file = Err TypeError.
Proof. exact phc_any. Qed.
Print Assumptions C96_phc_any.
Theorem C96_phc_cut : forall file height u stride count codes,
  ends_with file 0x4A ([height; u; stride] ++ le16 count ++ codes) ->
  unsigned 16 count -> zlen codes < count -> Forall (fun c => 0 <= c < 256) codes ->
  phc_read file = Ok ([], map brother codes, []).
Proof. exact phc_cut. Qed.
Print Assumptions C96_phc_cut.
(** Any file cut before its first stored offset is refused. *)
Theorem C96_phb_cut : forall file, zlen file < 0x73 -> phb_read file = Err TypeError.
Proof.
  intros file H. unfold phb_read, seek_to, s_int. cbn [fst snd].
  assert (L : (List.length (skipn (Z.to_nat 0x71) file) < 2)%nat) by (rewrite skipn_length; unfold zlen in H; lia).
  destruct (skipn (Z.to_nat 0x71) file) as [|x [|y r]]; [reflexivity|reflexivity|cbn in L; lia].
Qed.
Print Assumptions C96_phb_cut.

(** ** A case *)
(** Two colours and a stop: three codes. *)
Definition phb_codes : list Z := [5; 66].
Definition phb_sample : list Z :=
  repeat 0 0x54 ++ le32 0x40 ++ repeat 0 (0x71 - 0x58) ++ le16 3 ++ [5; 5; 66] ++ repeat 0 (0x92 - 0x76)
  ++ le32 6 ++ repeat 0 4 ++ le32 3 ++ repeat 0 13 ++ [2] ++ repeat 0 0x17 ++ pec_encode qz_q (map cc sample) ++ [0; 7].
Lemma holdsb_holds file (o : nat) b : (o <= List.length file)%nat -> firstn (List.length b) (skipn o file) = b -> holds file (Z.of_nat o) b.
Proof.
  intros Ho H. exists (firstn o file), (skipn (List.length b) (skipn o file)).
  split; [|unfold zlen; rewrite firstn_length_le by exact Ho; reflexivity].
  rewrite <- H at 1. rewrite firstn_skipn, firstn_skipn. reflexivity.
Qed.
Example C95_case : phb_file phb_sample (expand phb_codes sample) 0x40 6 3 (pec_encode qz_q (map cc sample) ++ [0; 7]) /\
  neighbours_differ thread_eqb (map brother phb_codes) /\
  phb_read phb_sample = Ok ([mkS 0 0 STITCH; mkS 100 40 STITCH; mkS 100 40 STOP; mkS 130 40 STITCH; mkS 130 40 COLOR_CHANGE; mkS 130 40 TRIM;
     mkS 500 0 JUMP; mkS 500 0 STITCH; mkS 0 300 STITCH; mkS 0 300 END], [brother 5; brother 1], []).
Proof.
  assert (L : List.length phb_sample = 221%nat) by (vm_compute; reflexivity).
  split; [|split; [|vm_compute; reflexivity]].
  - change (expand phb_codes sample) with [5; 5; 66]. unfold phb_file, unsigned.
    split; [vm_compute; split; congruence|]. split; [lia|]. split; [lia|]. split; [lia|].
    split; [|split; [|split; [|split]]].
    + apply (holdsb_holds phb_sample 0x71); [rewrite L; lia|vm_compute; reflexivity].
    + apply (holdsb_holds phb_sample 0x54); [rewrite L; lia|vm_compute; reflexivity].
    + apply (holdsb_holds phb_sample 0x92); [rewrite L; lia|vm_compute; reflexivity].
    + apply (holdsb_holds phb_sample 0x9A); [rewrite L; lia|vm_compute; reflexivity].
    + exists 2, (repeat 0 0x17). split; [lia|]. split; [reflexivity|].
      exists (firstn 0xAB phb_sample). split; [vm_compute; reflexivity|vm_compute; reflexivity].
  - intros a x y b E. destruct a as [|a1 [|a2 [|a3 a]]]; try discriminate E. injection E as <- <- _. vm_compute. reflexivity.
Qed.
Definition phc_sample : list Z :=
  repeat 0 0x2B ++ [4] ++ repeat 9 4 ++ le16 0x70 ++ repeat 0 (0x4A - 0x32) ++ [2; 0; 1] ++ le16 3 ++ [5; 5; 66]
  ++ [0x10; 0x11; 0x12; 0x13; 0x14; 0x15] ++ repeat 0 (0x74 - 0x58)
  ++ le16 2 ++ [7; 7] ++ le32 3 ++ repeat 8 13 ++ [1] ++ repeat 0 0x1E ++ pec_encode qz_q (map cc sample) ++ [0; 7].
Example C95_phc_case : phc_file phc_sample (expand phb_codes sample) 1 2 [[0x10; 0x11]; [0x12; 0x13]; [0x14; 0x15]]
    (pec_encode qz_q (map cc sample) ++ [0; 7]) /\
  phc_read phc_sample = Ok ([mkS 0 0 STITCH; mkS 100 40 STITCH; mkS 100 40 STOP; mkS 130 40 STITCH; mkS 130 40 COLOR_CHANGE; mkS 130 40 TRIM;
     mkS 500 0 JUMP; mkS 500 0 STITCH; mkS 0 300 STITCH; mkS 0 300 END], [brother 5; brother 1],
     [(text_of "pec_graphic_0", Meta_graphic [0x10; 0x11] 1 None); (text_of "pec_graphic_1", Meta_graphic [0x12; 0x13] 1 (Some (brother 5)));
      (text_of "pec_graphic_2", Meta_graphic [0x14; 0x15] 1 (Some (brother 5)))]).
Proof.
  assert (L : (List.length phc_sample <? 400)%nat && (0x80 <=? List.length phc_sample)%nat = true) by (vm_compute; reflexivity).
  apply andb_true_iff in L as [_ L]. apply Nat.leb_le in L.
  split; [|vm_compute; reflexivity].
  change (expand phb_codes sample) with [5; 5; 66]. unfold phc_file, unsigned.
  split; [vm_compute; split; congruence|]. split; [lia|]. split; [lia|]. split; [reflexivity|].
  split; [repeat (apply Forall_cons; [reflexivity|]); apply Forall_nil|].
  split; [exists 0; apply (holdsb_holds phc_sample 0x4A); [lia|vm_compute; reflexivity]|].
  exists 4, (repeat 9 4), 0x70. split; [lia|]. split; [reflexivity|]. split; [lia|].
  split; [apply (holdsb_holds phc_sample 0x2B); [lia|vm_compute; reflexivity]|].
  exists [7; 7], 3, (repeat 8 13), 1, (repeat 0 0x1E).
  split; [vm_compute; split; congruence|]. split; [lia|]. split; [reflexivity|]. split; [lia|]. split; [reflexivity|].
  exists (firstn 0x74 phc_sample). split; vm_compute; reflexivity.
Qed.
Example C96_case : phc_read (firstn 0x51 phc_sample) = Ok ([], [brother 5; brother 5], []) /\
  phc_read (firstn 0x4E phc_sample) = Err TypeError /\ phb_read (firstn 0x90 phb_sample) = Err TypeError.
Proof. vm_compute. repeat split; reflexivity. Qed.
