(** C244: a design with no more threads than needles has a needle for each thread. *)
From Coq Require Import Ascii String ZArith QArith List Bool Lia.
From Verif Require Import PyBase EmbConst PatternModel FunctionsModel StreamModel StreamSpec StreamProofs ThreadModel NumModel NumQ MatrixModel EncoderModel
  EncoderProofs EncoderSpec EncoderColorSpec QuantModel QuantProofs MetricSpec SettingsModel HelperModel U01Model TbfModel FormatSpec WholeModel WholeSpec WholeProofs
  TextProofs DstFileModel
  PropertiesEncoder PropertiesSettings PropertiesPipeline FidelitySpec FidelityProofs PropertiesFidelity PropertiesColor PropertiesWhole NeedleProofs MachineSpec MachineProofs PropertiesMachines
  PropertiesWork PropertiesWorkFile PropertiesWorkFiles PropertiesWorkU01 PropertiesWorkTbf PropertiesColorFiles PropertiesNeedleFiles PropertiesNeedleOrder PropertiesNeedleStitch.
Import ListNotations.
Open Scope Z_scope.

(** The design sews with at most [n] threads. *)
Definition threads_within (n : Z) (src : list (stitch Q)) : Prop := Forall (fun ka => Z.of_nat (fst ka) < n) (threaded None src).
(** As many stitches as in the design, and two of them have the same needle exactly if they have the same thread in the design. *)
Definition needle_each (src : list (stitch Q)) (l : list (option Z * (Z * Z))) : Prop :=
  List.length l = List.length (threaded None src) /\
  forall i j ka kb za zb, nth_error (threaded None src) i = Some ka -> nth_error (threaded None src) j = Some kb ->
    nth_error l i = Some za -> nth_error l j = Some zb -> (fst za = fst zb <-> fst ka = fst kb).

Lemma Forall2_nth A B (R : A -> B -> Prop) l m : Forall2 R l m -> forall i a b, nth_error l i = Some a -> nth_error m i = Some b -> R a b.
Proof.
  induction 1 as [|x y l m H _ IH]; intros [|i] a b Ha Hb; cbn [nth_error] in *; try discriminate; [|eapply IH; eassumption].
  injection Ha as <-. injection Hb as <-. exact H.
Qed.
Lemma sewn_each which src l n : sewn_with which src l -> threads_within n src -> (forall a b, 0 <= a < n -> 0 <= b < n -> which a = which b -> a = b) -> needle_each src l.
Proof.
  intros S T I. split; [symmetry; induction S; cbn [List.length]; [reflexivity|f_equal; assumption]|]. intros i j ka kb za zb Hi Hj Zi Zj.
  destruct (Forall2_nth _ _ _ _ _ S _ _ _ Hi Zi) as [-> _]. destruct (Forall2_nth _ _ _ _ _ S _ _ _ Hj Zj) as [-> _].
  unfold threads_within in T. rewrite Forall_forall in T. pose proof (T _ (nth_error_In _ _ Hi)) as Ti. pose proof (T _ (nth_error_In _ _ Hj)) as Tj. cbv beta in Ti, Tj.
  split; [|intros ->; reflexivity]. intros E. injection E as E. apply I in E; lia.
Qed.
Lemma turn_injective n a b : 0 <= a < n -> 0 <= b < n -> a mod n + 1 = b mod n + 1 -> a = b.
Proof. intros Ha Hb. rewrite !Z.mod_small by assumption. lia. Qed.

Section NeedleOwn.
Variables (qcos qsin : Q -> Q) (qorient : Q -> Q -> Q -> Q -> Q -> Q * Q).
Notation N := (QNum qcos qsin qorient).
Hypothesis (Hturn : forall t, ~ (qcos t * qcos t + qsin t * qsin t == 0)%Q) (Hdir : direction_bounded qorient).

(** TBF, any number of needles. *)
Theorem C244_tbf : forall info (set : settings N) (p : pattern N),
  machine_savable qcos qsin qorient 127 set (p_stitches N p) -> s_round N set = Some true -> tbf_colors info = map t_color (p_threads N p) ->
  no_speeds (p_stitches N p) -> nameless (p_stitches N p) -> plain_settings set ->
  Forall (fun a => has_command left_out a = false) (until_end (p_stitches N p)) -> breaks_clear (p_stitches N p) ->
  threads_within (needles_of_machine set) (p_stitches N p) ->
  exists out, transcode N set p = Ok (out, map Own (p_threads N p)) /\
  (tbf_room info out -> (List.length (needle_numbers out) <= 255)%nat ->
   exists file l, tbf_write info out = Ok file /\ tbf_read_file file = Ok (shown_name info, map (fun t => Some (t_color t)) (p_threads N p), l) /\
     needle_each (p_stitches N p) (sewn_by None l)).
Proof.
  intros info set p V R Hi Hs Hu Hp Hl Hb Ht. destruct (C243_tbf qcos qsin qorient Hturn Hdir info set p V R Hi Hs Hu Hp Hl Hb) as (out & E & X).
  exists out. split; [exact E|]. intros room L. destruct (X room L) as (file & l & Wf & Rf & S). exists file, l. split; [exact Wf|]. split; [exact Rf|].
  apply (sewn_each _ _ _ _ S Ht). apply turn_injective.
Qed.

(** U01. Missing: fifteen needles and more, where the claim is false (below). *)
Theorem C244_u01_partial : forall (set : settings N) (p : pattern N),
  machine_savable qcos qsin qorient 254 set (p_stitches N p) -> no_speeds (p_stitches N p) -> nameless (p_stitches N p) ->
  plain_settings set -> Forall (fun a => has_command left_out a = false) (until_end (p_stitches N p)) -> breaks_clear (p_stitches N p) ->
  threads_within (needles_of_machine set) (p_stitches N p) -> needles_of_machine set <= 14 ->
  exists out file, transcode N set p = Ok (out, map Own (p_threads N p)) /\ u01_write out = Ok file /\
  ((List.length (needle_numbers out) <= 255)%nat -> needle_each (p_stitches N p) (sewn_by None (u01_read_file file))).
Proof.
  intros set p V Hs Hu Hp Hl Hb Ht Hn. destruct (C243_u01 qcos qsin qorient Hturn Hdir set p V Hs Hu Hp Hl Hb) as (out & file & E & Wf & X).
  exists out, file. split; [exact E|]. split; [exact Wf|]. intros L. apply (sewn_each _ _ _ _ (X L) Ht).
  intros a b Ha Hb' Q. apply (turn_injective _ _ _ Ha Hb'). rewrite !Z.mod_small in * by assumption. unfold u01_needle in Q.
  destruct (Z.leb_spec 15 (a + 1)), (Z.leb_spec 15 (b + 1)); lia.
Qed.
End NeedleOwn.
Print Assumptions C244_tbf.
Print Assumptions C244_u01_partial.

(** Fifteen threads on a U01 machine with all its fifteen needles: the last thread is given needle 1, as the first. *)
Definition fifteen_needles : settings ExNum := for_format ex_cos ex_sin ex_orient (u01_attributes ExNum inject_Z) [existT (value ExNum) KNeedleCount 15].
Theorem C244_u01_refuted : exists (p : pattern ExNum) out file,
  machine_savable ex_cos ex_sin ex_orient 254 fifteen_needles (p_stitches ExNum p) /\ no_speeds (p_stitches ExNum p) /\ nameless (p_stitches ExNum p) /\
  plain_settings fifteen_needles /\ Forall (fun a => has_command left_out a = false) (until_end (p_stitches ExNum p)) /\ breaks_clear (p_stitches ExNum p) /\
  needles_of_machine fifteen_needles = 15 /\ threads_within 15 (p_stitches ExNum p) /\
  transcode ExNum fifteen_needles p = Ok (out, []) /\ u01_write out = Ok file /\ (List.length (needle_numbers out) <= 255)%nat /\
  nth_error (sewn_by None (u01_read_file file)) 0 = Some (Some 1, (1, 0)) /\ nth_error (sewn_by None (u01_read_file file)) 14 = Some (Some 1, (2, 0)) /\
  ~ needle_each (p_stitches ExNum p) (sewn_by None (u01_read_file file)).
Proof.
  exists (EncoderModel.mkP ExNum (many_threads 14) []). do 2 eexists. cbn [p_stitches].
  assert (V : machine_savable ex_cos ex_sin ex_orient 254 needle_settings (many_threads 14)).
  { eapply (C123_default_settings ex_cos ex_sin ex_orient [] (many_threads 14)); [each|each|each|each|each]. }
  split. { destruct V as [V1 V2 V3 V4 V5 V6 V7]. constructor; first [assumption|reflexivity]. }
  split; [each|]. split; [split; repeat constructor; intros H; try discriminate H; split; reflexivity|].
  split. { split; [left; reflexivity|]. split; [left; reflexivity|]. left. reflexivity. }
  split; [repeat constructor|]. split; [left; repeat constructor|]. split; [reflexivity|]. split; [repeat constructor|].
  split; [vm_compute; reflexivity|]. split; [vm_compute; reflexivity|]. split; [vm_compute; lia|]. split; [vm_compute; reflexivity|]. split; [vm_compute; reflexivity|].
  intros [_ X]. specialize (X 0%nat 14%nat _ _ _ _ eq_refl eq_refl eq_refl eq_refl). vm_compute in X. destruct X as [X _]. specialize (X eq_refl). discriminate X.
Qed.
Print Assumptions C244_u01_refuted.

Example C244_case :
  machine_savable ex_cos ex_sin ex_orient 254 needle_settings (many_threads 4) /\ threads_within (needles_of_machine needle_settings) (many_threads 4) /\ nameless (many_threads 4) /\
  needles_of_machine needle_settings = 5 /\
  exists out file, transcode ExNum needle_settings (EncoderModel.mkP ExNum (many_threads 4) []) = Ok (out, []) /\ u01_write out = Ok file /\
  map fst (sewn_by None (u01_read_file file)) = [Some 1; Some 2; Some 3; Some 4; Some 5].
Proof.
  split; [eapply (C123_default_settings ex_cos ex_sin ex_orient [] (many_threads 4)); [each|each|each|each|each]|].
  split; [repeat constructor|]. split; [split; repeat constructor; intros H; try discriminate H; split; reflexivity|]. split; [reflexivity|].
  do 2 eexists. split; [vm_compute; reflexivity|]. split; [vm_compute; reflexivity|]. vm_compute. reflexivity.
Qed.
