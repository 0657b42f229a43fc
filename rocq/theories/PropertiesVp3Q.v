(** C183-C187: VP3 files of designs with fractional coordinates, and of designs loaded from VP3 files. *)
From Coq Require Import ZArith List Bool Lia QArith Qabs Lqa.
From Verif Require Import PyBase EmbConst FunctionsModel ThreadModel NumModel NumQ MatrixModel PatternModel EncoderModel
  JefSpec EncoderSpec EncoderColorSpec DstFileModel Vp3Model Vp3Spec Vp3Proofs Vp3QModel Vp3QSpec Vp3QProofs Vp3QIntProofs
  PropertiesEncoder SettingsModel PropertiesSettings PropertiesPipeline PropertiesFidelity PropertiesColor FrameSpec PropertiesFrame PropertiesVp3.
Import ListNotations.
Open Scope Z_scope.

(** What a VP3 file keeps of a thread. *)
Definition same_thread (t : thread) (r : vp3_thread_read) : Prop :=
  vt_color r = Some (t_color t mod 2 ^ 24) /\
  vt_catalog r = Some (match t_catalog t with Some s => s | None => [] end) /\
  vt_description r = Some (match t_description t with Some s => s | None => hex_color (t_color t) end) /\
  vt_brand r = Some (match t_brand t with Some s => s | None => [] end).

(** ** C183 *)
(** Every stitch comes back in its section, less than one unit from where it was but for an offset of the section; the first
    section has no offset, and if colour changes are made away from the axes all offsets are less than two units. *)
Theorem C183_vp3_fractions : forall filler threads p,
  p <> [] -> vp3_commands p -> in_field p -> Z.of_nat (color_changes p) < 65535 ->
  Forall plain_texts threads -> (forall i, plain_texts (filler i)) ->
  exists file, vp3_write_q filler p threads = Ok file /\
    (Z.of_nat (List.length file) < 2 ^ 32 ->
     exists l read_threads offset, vp3_read file = Ok (in_hundredths l, read_threads) /\ offset 0%nat = (0, 0)%Q /\
       Forall2 (kept_with offset) (coloured 0 p) (coloured 0 l) /\
       List.length read_threads = S (color_changes p) /\
       (forall k t, (k <= color_changes p)%nat -> nth_error threads k = Some t ->
          exists r, nth_error read_threads k = Some r /\ same_thread t r) /\
       (changes_off_axes p -> forall k, below_two (offset k))).
Proof.
  intros filler threads p H1 H2 H3 H4 H5 H6.
  destruct (vp3_sections_q filler threads p H1 H2 H3 H4 H5 H6) as (file & W & R). exists file. split; [exact W|]. intros L.
  destruct (R L) as (l & dr & R1 & R2 & R3 & R4). exists l. eexists. exists dr.
  split; [exact R1|]. split; [exact R2|]. split; [exact R3|]. split; [unfold block_threads; rewrite !map_length, seq_length; reflexivity|]. split; [|exact R4].
  intros k t Hk Ht. exists (thread_kept t). split; [|repeat split].
  unfold block_threads. rewrite map_map. rewrite nth_error_map, (nth_error_nth' _ 0%nat) by (rewrite seq_length; lia).
  rewrite seq_nth by lia. cbn [option_map Nat.add]. rewrite Ht. reflexivity.
Qed.
(** On whole coordinates it is the writer of C159 and C178. *)
Theorem C183_whole_coordinates : forall filler l threads, vp3_write_q filler (map of_int l) threads = vp3_write filler l threads.
Proof. exact vp3_write_int. Qed.
Print Assumptions C183_vp3_fractions.
Print Assumptions C183_whole_coordinates.

Definition qst (x y : Q) (c : Z) : stitch Q := mkS x y c.
Definition c183_pattern : list (stitch Q) :=
  [qst 0 0 STITCH; qst (15 # 2) (-7 # 3) STITCH; qst (121 # 10) (99 # 10) STITCH; qst (121 # 10) (99 # 10) TRIM;
   qst (121 # 10) (99 # 10) COLOR_CHANGE; qst 300 (1 # 2) JUMP; qst 300 (1 # 2) STITCH; qst (3009 # 10) (9 # 10) STITCH; qst 0 0 END].
Example C183_case : c183_pattern <> [] /\ vp3_commands c183_pattern /\ in_field c183_pattern /\ changes_off_axes c183_pattern /\
  match vp3_write_q plain_thread c183_pattern C18_threads with
  | Ok f => match vp3_read f with
            | Ok (l, _) => coloured 0 l = [(0%nat, (0, 0)); (0%nat, (700, -200)); (0%nat, (1200, 900)); (1%nat, (29900, 0)); (1%nat, (30000, 0))]
            | Err _ => False end
  | Err _ => False end.
Proof.
  split; [discriminate|]. split; [|split; [|split]].
  - cbn [c183_pattern vp3_commands qst scmd]. repeat (left; split; [vm_compute; tauto|]). right. split; reflexivity.
  - unfold in_field, c183_pattern. repeat (apply Forall_cons; [split; vm_compute; discriminate|]). apply Forall_nil.
  - unfold changes_off_axes, c183_pattern.
    repeat (apply Forall_cons; [intros H; (vm_compute in H; discriminate H) || (split; vm_compute; discriminate)|]). apply Forall_nil.
  - vm_compute. reflexivity.
Qed.

(** ** C184: encoded, written and read *)
Lemma subseq_short : forall A (a b : list A), subseq a b -> (List.length a <= List.length b)%nat.
Proof. induction 1; cbn [List.length]; lia. Qed.
Lemma subseq_all : forall A (a b : list A), subseq a b -> List.length a = List.length b -> b = a.
Proof.
  induction 1 as [|x a b H IH|x a b H IH]; cbn [List.length]; intros L; [reflexivity| |f_equal; auto].
  apply subseq_short in H. lia.
Qed.
Section Pipeline.
Variables (qcos qsin : Q -> Q) (qorient : Q -> Q -> Q -> Q -> Q -> Q * Q).
Notation N := (QNum qcos qsin qorient).
Hypothesis (Hdir : direction_between qorient).

Definition field : frame := mkFrame (-16000) 16000 (-16000) 16000.
(** Sources that only sew, move, tie, trim, stop and change threads, within the field, with settings for colour changes. *)
Record vp3_source (set : settings N) (src : list (stitch Q)) : Prop := mkSource {
  vs_length : match s_max_stitch N set with Some (Fin _ l) => (0 < l)%Q | _ => True end;
  vs_change : requested_change set = COLOR_CHANGE;
  vs_speeds : no_speeds src;
  vs_plain : Forall (fun a => ~ transforms a /\ positive_lengths a) src;
  vs_field : forall a, In a src -> goes_somewhere a ->
    in_frame field (fst (settings_place qcos qsin qorient set a)) (snd (settings_place qcos qsin qorient set a));
  vs_bare : Forall bare_sewing src;
  vs_sequence : Forall (fun a => is_cmd SET_CHANGE_SEQUENCE a = false) src;
  vs_numbers : Forall (fun a => changes_thread a = true -> thread_number a = None) src }.

Lemma core_commands : forall (o : list (stitch Q)) sq, ends_once o -> only_core COLOR_CHANGE sq False o -> vp3_commands o.
Proof.
  intros o sq (body & e & -> & He & Hb) H. apply Forall_app in H. destruct H as [H _].
  induction body as [|a r IH].
  - cbn [app vp3_commands]. right. split; [|reflexivity]. unfold is_cmd in He. apply Z.eqb_eq in He. exact He.
  - inversion Hb as [|? ? B1 B2]; subst. inversion H as [|? ? C1 C2]; subst. cbn [app vp3_commands]. left. split; [|apply IH; assumption].
    unfold is_cmd in *. unfold cmd_of, vp3_command. change COMMAND_MASK with 255. rewrite !Z.eqb_eq in C1. apply Z.eqb_neq in B1. cbn [In].
    destruct C1 as [C|[C|[C|[C|[C|[[C _]|[[_ C]|[[[C|C] _]|[_ C]]]]]]]]]; try discriminate C; try contradiction C; rewrite C; tauto.
Qed.

(** How a stitch of the source, numbered with its thread, comes back: [look] gives the threads chosen for missing ones. *)
Definition comes_back (set : settings N) (threads : list thread) (look : tref -> thread) (read : list vp3_thread_read)
    (offset : nat -> Q * Q) (ka : nat * stitch Q) (kb : nat * (Z * Z)) : Prop :=
  fst ka = fst kb /\
  (exists q, sewn_at set (snd ka) = Ok q /\ kept_with offset (fst ka, q) kb) /\
  (exists r, nth_error read (fst kb) = Some r /\ same_thread (look (EncoderModel.get_thread_or_filler threads (Z.of_nat (fst ka)))) r).

Theorem C184_vp3_pipeline : forall set src threads out ths look filler,
  vp3_source set src -> transcode N set (mkP N src threads) = Ok (out, ths) ->
  Z.of_nat (threads_taken None src) < 65535 ->
  (forall t, plain_texts (look t)) -> (forall i, plain_texts (filler i)) ->
  exists file, vp3_write_q filler out (map look ths) = Ok file /\
    (Z.of_nat (List.length file) < 2 ^ 32 ->
     exists l read offset qs, vp3_read file = Ok (in_hundredths l, read) /\ offset 0%nat = (0, 0)%Q /\
       Forall2 (comes_back set threads look read offset) (threaded None src) qs /\
       subseq qs (coloured 0 l) /\
       (plain_settings set -> Forall (fun a => has_command (matrix_commands ++ stitching_commands) a = false) (until_end src) ->
        coloured 0 l = qs) /\
       (changes_off_axes out -> forall k, below_two (offset k))).
Proof.
  intros set src threads out ths look filler V E Hn Hl Hf.
  assert (Hm : Forall (fun a => has_command matrix_commands a = false) (until_end src)).
  { apply Forall_forall. intros a Ia. pose proof (vs_plain _ _ V) as P. rewrite Forall_forall in P.
    destruct (P a (until_end_in _ _ Ia)) as [T _]. unfold transforms in T. unfold has_command, matrix_commands. cbn [existsb].
    unfold is_cmd. apply not_true_is_false. intros X. rewrite !orb_true_iff, !Z.eqb_eq in X. apply T. cbn [In].
    repeat (destruct X as [X|X]; [rewrite X; tauto|]). discriminate X. }
  destruct (colours_of_transcode N set _ out ths E (vs_change _ _ V) Hm (vs_bare _ _ V) (vs_sequence _ _ V) (vs_numbers _ _ V))
    as (Lt & Cc & G & qs & Fq & Fl & Sub & Ex). cbn [p_stitches p_threads] in *.
  destruct (C22_single_end N set _ out ths E) as (body & e & Eo & He & Hb).
  assert (Hc : vp3_commands out).
  { assert (Ws := E). rewrite <- (transcode_speeds N false set (mkP N src threads) (vs_speeds _ _ V)) in Ws.
    pose proof (C23_core_commands N _ _ _ _ Ws) as K. apply (core_commands out (sequins_requested (with_speeds N false set) src)); [exists body, e; auto|].
    eapply Forall_impl; [|exact K]. intros a. change (requested_change (with_speeds N false set)) with (requested_change set). rewrite (vs_change _ _ V). cbn beta.
    intros Ha. repeat (destruct Ha as [Ha|Ha]; [tauto|]). right; right; right; right; right; right; right; right.
    destruct Ha as [Ha Sp]. split; [exact Ha|]. apply Sp. reflexivity. }
  assert (Hi : in_field out).
  { eapply Forall_impl; [|exact (C160_stays_in_frame qcos qsin qorient Hdir set (mkP N src threads) out ths field (vs_length _ _ V) (vs_plain _ _ V) (vs_field _ _ V) E)].
    intros a (X1 & X2 & Y1 & Y2). change (inject_Z (left_ (with_origin field))) with (-16000 # 1)%Q in X1. change (inject_Z (right_ (with_origin field))) with (16000 # 1)%Q in X2.
    change (inject_Z (top_ (with_origin field))) with (-16000 # 1)%Q in Y1. change (inject_Z (bottom_ (with_origin field))) with (16000 # 1)%Q in Y2.
    split; apply Qabs_Qle_condition; split; lra. }
  change (NumModel.F N) with Q in *. assert (Hcc : color_changes out = pred (List.length ths)) by exact Cc.
  assert (Hne : out <> []) by (rewrite Eo; destruct body; discriminate).
  destruct (C183_vp3_fractions filler (map look ths) out Hne Hc Hi ltac:(rewrite Hcc, Lt; lia)) as (file & W & R).
  { apply Forall_forall. intros t It. apply in_map_iff in It. destruct It as (u & <- & _). apply Hl. }
  { exact Hf. }
  exists file. split; [exact W|]. intros L. destruct (R L) as (l & read & offset & R1 & R2 & R3 & R4 & R5 & R6).
  assert (Pick : forall (a : list (nat * (Q * Q))) b, subseq a (coloured 0 out) -> Forall2 (kept_with offset) (coloured 0 out) b ->
            exists c, Forall2 (kept_with offset) a c /\ subseq c b).
  { clear. intros a b H. revert b. induction H as [|x a c H IH|x a c H IH]; intros b F.
    - inversion F; subst. exists []. split; constructor.
    - inversion F as [|? y ? b' Hxy F']; subst. destruct (IH _ F') as (d & D1 & D2). exists d. split; [exact D1|constructor; exact D2].
    - inversion F as [|? y ? b' Hxy F']; subst. destruct (IH _ F') as (d & D1 & D2). exists (y :: d). split; constructor; assumption. }
  destruct (Pick _ _ Sub R3) as (zs & Z1 & Z2).
  exists l, read, offset.
  assert (Fin : forall zs, Forall2 (kept_with offset) qs zs -> Forall2 (comes_back set threads look read offset) (threaded None src) zs).
  { clear zs Z1 Z2. intros zs Z1. clear Sub Ex R3. revert zs Z1 Fl. induction Fq as [|ka kq la lq [K1 K2] _ IH]; intros zs Z1 Fl; inversion Z1 as [|? z ? zs' Hz Z1']; subst; [constructor|].
    inversion Fl as [|? ? F1 F2]; subst. constructor; [|apply IH; assumption].
    assert (Ez : fst kq = fst z) by apply Hz. split; [congruence|]. split.
    - exists (snd kq). split; [exact K2|]. rewrite K1. destruct kq. exact Hz.
    - rewrite <- Ez, <- K1.
      assert (Nt : exists t, nth_error ths (fst ka) = Some t).
      { destruct (nth_error ths (fst ka)) eqn:En; [eauto|]. apply nth_error_None in En. lia. }
      destruct Nt as (t & Nt). pose proof (G _ _ Nt) as Et.
      destruct (R5 (fst ka) (look t)) as (r & Nr & Sr); [rewrite Hcc; lia|rewrite nth_error_map, Nt; reflexivity|].
      exists r. split; [exact Nr|]. rewrite <- Et. exact Sr. }
  exists zs. split; [exact R1|]. split; [exact R2|]. split; [apply Fin; exact Z1|]. split; [exact Z2|]. split; [|exact R6].
  intros P1 P2. pose proof (Ex P1 P2) as Eq. rewrite Eq in R3.
  assert (Len : forall (a : list (nat * (Q * Q))) b, Forall2 (kept_with offset) a b -> List.length a = List.length b) by (clear; induction 1; cbn [List.length]; congruence).
  apply subseq_all; [exact Z2|]. rewrite <- (Len _ _ Z1). apply Len. exact R3.
Qed.

(** The settings that writing a VP3 file completes will do, if the caller gives no other length and kind of thread change. *)
Theorem C184_default_settings : forall (d : sdict N),
  leaves_alone qcos qsin qorient [KMaxStitch; KThreadChange] d ->
  let set := for_format qcos qsin qorient (vp3_attributes N inject_Z) d in
  match s_max_stitch N set with Some (Fin _ l) => (0 < l)%Q | _ => True end /\ requested_change set = COLOR_CHANGE.
Proof.
  intros d H. inversion H as [|? ? A1 Ha]; subst. inversion Ha as [|? ? A2 _]; subst. cbv zeta.
  unfold requested_change, for_format, read_settings. cbn [s_max_stitch s_thread_change_command s_needle_count].
  rewrite !C50_settings_override, A1, A2. split; reflexivity.
Qed.
End Pipeline.
Print Assumptions C184_vp3_pipeline.
Print Assumptions C184_default_settings.

(** The settings that writing a VP3 file completes will do. *)
Definition vp3_num : Num := QNum ex_cos ex_sin between_orient.
Definition vp3_defaults : settings vp3_num := for_format ex_cos ex_sin between_orient (vp3_attributes vp3_num inject_Z) [].
(** What the reader makes of hundredths. *)
Definition units (s : stitch Z) : stitch Q := mkS (sx s # 100) (sy s # 100) (scmd s).
Definition save_load (src : list (stitch Q)) (threads : list thread) : res (list (stitch Q)) :=
  do o <- transcode vp3_num vp3_defaults (mkP vp3_num src threads);
  do f <- vp3_write_q plain_thread (fst o) (map (fun t => match t with Own t => t | Filler => plain_thread 0 end) (snd o));
  do r <- vp3_read f;
  Ok (map units (fst r)).
Fixpoint save_load_times (n : nat) (src : list (stitch Q)) (threads : list thread) : res (list (stitch Q)) :=
  match n with
  | O => Ok src
  | S n => do l <- save_load src threads; save_load_times n l threads
  end.
Definition whole_colours (l : list (stitch Q)) : list (nat * (Z * Z)) := map (fun kq => (fst kq, (q_cut (fst (snd kq)), q_cut (snd (snd kq))))) (coloured 0 l).

(** A design of two threads and a third that is missing, with fractions, a trim and a moved section. *)
Definition c184_source : list (stitch Q) :=
  [qst (5 # 2) 3 STITCH; qst (15 # 2) (-7 # 3) STITCH; qst 0 0 COLOR_BREAK; qst 40 (45 # 2) STITCH; qst 400 (91 # 2) STITCH; qst 0 0 TRIM;
   qst 0 0 COLOR_CHANGE; qst 390 (99 # 2) STITCH; qst 0 0 END].
Example C184_case : direction_between between_orient /\ vp3_source ex_cos ex_sin between_orient vp3_defaults c184_source /\
  plain_settings vp3_defaults /\ Forall (fun a => has_command (matrix_commands ++ stitching_commands) a = false) (until_end c184_source) /\
  match save_load c184_source C18_threads with
  | Ok l => whole_colours l = [(0%nat, (2, 3)); (0%nat, (7, -2)); (1%nat, (40, 22)); (1%nat, (400, 45)); (2%nat, (389, 48))]
  | Err _ => False end.
Proof.
  split; [exact between_direction|]. split; [|split; [|split]].
  - constructor.
    + reflexivity.
    + reflexivity.
    + repeat (constructor; [split; reflexivity|]). constructor.
    + repeat (constructor; [split; [intros H; cbn in H; repeat (destruct H as [H|H]; [discriminate H|]); exact H|intros H; discriminate H]|]). constructor.
    + intros a H. cbn [c184_source In] in H.
      repeat (destruct H as [<-|H]; [intros G; first [apply in_frame_true; vm_compute; reflexivity|exfalso; cbn in G; repeat (destruct G as [G|G]; [discriminate G|]); exact G]|]).
      destruct H.
    + repeat (apply Forall_cons; [vm_compute; intros; first [discriminate|split; [intros; discriminate|reflexivity]]|]); apply Forall_nil.
    + repeat (constructor; [reflexivity|]); constructor.
    + repeat (constructor; [vm_compute; intros; first [discriminate|reflexivity]|]); constructor.
  - repeat split; vm_compute; auto.
  - repeat (constructor; [reflexivity|]); constructor.
  - vm_compute. reflexivity.
Qed.

(** ** C185: speed commands *)
(** Where the needle is after the commands of a section that began at (x, y). *)
Fixpoint needle (x y : Z) (l : list (stitch Z)) : Z * Z :=
  match l with [] => (x, y) | s :: r => if cmd_of (scmd s) =? STITCH then needle (sx s) (sy s) r else needle x y r end.
Definition speed (s : stitch Z) : Prop := cmd_of (scmd s) = SLOW \/ cmd_of (scmd s) = FAST.
(** A speed command given where the last stitch was made changes none of the stitches written. *)
Theorem C185_speed_in_place_partial : forall a x y s b, Forall (fun c => vp3_command (cmd_of (scmd c))) a -> speed s ->
  (sx s, sy s) = needle x y a -> vp3_stitches x y (a ++ s :: b) = vp3_stitches x y (a ++ b).
Proof.
  induction a as [|c a IH]; intros x y s b Ha Hs Hn.
  - cbn [needle] in Hn. injection Hn as Ex Ey. cbn [app vp3_stitches]. rewrite Ex, Ey, !Z.sub_diag, !Z.add_0_r.
    destruct Hs as [-> | ->]; reflexivity.
  - inversion Ha as [|? ? Hc Ha']; subst. cbn [needle] in Hn. cbn [app vp3_stitches].
    unfold vp3_command in Hc. cbn [In] in Hc.
    repeat (destruct Hc as [Hc|Hc]; [rewrite <- Hc in *; cbn [Z.eqb Pos.eqb STITCH TRIM COLOR_CHANGE JUMP STOP SEQUIN_MODE SEQUIN_EJECT END] in *;
      cbv zeta; first [rewrite (IH _ _ _ _ Ha' Hs Hn); reflexivity
        |replace (x + (sx c - x)) with (sx c) by lia; replace (y + (sy c - y)) with (sy c) by lia; rewrite (IH _ _ _ _ Ha' Hs Hn); reflexivity]|]).
    destruct Hc.
Qed.
Print Assumptions C185_speed_in_place_partial.
Example C185_case : speed (mkS 5 5 SLOW) /\ (5, 5) = needle 0 0 [mkS 5 5 STITCH; mkS 5 5 TRIM] /\ vp3_stitches 0 0 [mkS 5 5 STITCH; mkS 9 5 STITCH] = [5; 5; 4; 0].
Proof. split; [left; reflexivity|split; reflexivity]. Qed.
(** After a jump it does: the second stitch comes back 100 units from its place, and without the SLOW where it should. *)
Theorem C185_speed_refuted : exists src,
  (forall a, In a src -> In (scmd a) [STITCH; JUMP; SLOW]) /\
  match save_load src [] with Ok l => whole_colours l = [(0%nat, (0, 0)); (0%nat, (10, 0))] | Err _ => False end /\
  match save_load (filter (fun a => negb (scmd a =? SLOW)) src) [] with
  | Ok l => whole_colours l = [(0%nat, (0, 0)); (0%nat, (110, 0))] | Err _ => False end.
Proof.
  exists [qst 0 0 STITCH; qst 100 0 JUMP; qst 0 0 SLOW; qst 110 0 STITCH].
  split; [|split; vm_compute; reflexivity]. intros a H. cbn [In] in H. repeat (destruct H as [<-|H]; [cbn; tauto|]). destruct H.
Qed.
Print Assumptions C185_speed_refuted.

(** ** C186: how far off *)
(** Forty sections of one stitch each, on the line y = 0, 0.9 units apart: all come back at the origin. *)
Definition c186_source : list (stitch Q) := concat (map (fun k => [qst (Z.of_nat k * 9 # 10) 0 STITCH; qst 0 0 COLOR_CHANGE]) (seq 0 40)).
Theorem C186_far_off_refuted : exists src,
  vp3_source ex_cos ex_sin between_orient vp3_defaults src /\
  match save_load src [] with
  | Ok l => exists a b, In a (coloured 0 src) /\ In b (coloured 0 l) /\ fst a = fst b /\ (fst (snd b) + 35 <= fst (snd a))%Q /\
              List.length (filter (fun b => (fst b =? fst a)%nat) (coloured 0 l)) = 1%nat
  | Err _ => False end.
Proof.
  exists c186_source. split.
  - assert (K : forall a, In a c186_source -> (exists k, (k < 40)%nat /\ a = qst (Z.of_nat k * 9 # 10) 0 STITCH) \/ a = qst 0 0 COLOR_CHANGE).
    { intros a H. unfold c186_source in H. apply in_concat in H. destruct H as (b & B & H). apply in_map_iff in B. destruct B as (k & <- & B). apply in_seq in B.
      cbn [In] in H. destruct H as [<-|[<-|[]]]; [left; exists k; split; [lia|reflexivity]|right; reflexivity]. }
    constructor.
    + reflexivity.
    + reflexivity.
    + apply Forall_forall. intros a H. destruct (K a H) as [(k & _ & ->)| ->]; split; reflexivity.
    + apply Forall_forall. intros a H. destruct (K a H) as [(k & _ & ->)| ->]; (split; [intros T; cbn in T; repeat (destruct T as [T|T]; [discriminate T|]); exact T|intros T; discriminate T]).
    + intros a H G. destruct (K a H) as [(k & Hk & ->)| ->]; [|exfalso; cbn in G; repeat (destruct G as [G|G]; [discriminate G|]); exact G].
      destruct (settings_point ex_cos ex_sin between_orient vp3_defaults (qst (Z.of_nat k * 9 # 10) 0 STITCH)) as [X Y].
      eapply frame_eq; [exact X|exact Y|]. clear X Y H G. apply in_frame_true.
      do 40 (destruct k as [|k]; [vm_compute; reflexivity|]). lia.
    + apply Forall_forall. intros a H. destruct (K a H) as [(k & _ & ->)| ->]; [intros _; unfold qst, STITCH; cbn [scmd]; lia|intros T; discriminate T].
    + apply Forall_forall. intros a H. destruct (K a H) as [(k & _ & ->)| ->]; reflexivity.
    + apply Forall_forall. intros a H. destruct (K a H) as [(k & _ & ->)| ->]; [intros T; discriminate T|reflexivity].
  - set (r := save_load c186_source []). vm_compute in r.
    match goal with r := Ok ?v |- _ => exists (39%nat, (351 # 10, 0)%Q), (39%nat, (0 # 100, 0 # 100)%Q) end.
    unfold r. clear r. split; [vm_compute; tauto|]. split; [vm_compute; tauto|]. split; [reflexivity|]. split; [vm_compute; discriminate|vm_compute; reflexivity].
Qed.
Print Assumptions C186_far_off_refuted.

(** ** C187: saving again and again *)
(** A design of whole coordinates, 101 units wide and high: its second section moves by one unit, left and up, at every saving. *)
Definition c187_source : list (stitch Q) := [qst 0 0 STITCH; qst 101 101 STITCH; qst 0 0 COLOR_CHANGE; qst 90 90 STITCH; qst 80 90 STITCH].
Theorem C187_wanders_refuted : exists src, forall n, (n <= 30)%nat ->
  match save_load_times n src [] with
  | Ok l => whole_colours l = [(0%nat, (0, 0)); (0%nat, (101, 101)); (1%nat, (90 - Z.of_nat n, 90 - Z.of_nat n)); (1%nat, (80 - Z.of_nat n, 90 - Z.of_nat n))]
  | Err _ => False end.
Proof. exists c187_source. intros n H. do 31 (destruct n as [|n]; [vm_compute; reflexivity|]). lia. Qed.
Print Assumptions C187_wanders_refuted.
