(** C243: the number of the needle that sews each stitch in U01 and TBF files. *)
From Coq Require Import Ascii String ZArith QArith List Bool Lia.
From Verif Require Import PyBase EmbConst PatternModel FunctionsModel StreamModel StreamSpec StreamProofs ThreadModel NumModel NumQ MatrixModel EncoderModel
  EncoderProofs EncoderSpec EncoderColorSpec QuantModel QuantProofs MetricSpec SettingsModel HelperModel U01Model TbfModel FormatSpec WholeModel WholeSpec WholeProofs
  TextProofs DstFileModel
  PropertiesEncoder PropertiesSettings PropertiesPipeline FidelitySpec FidelityProofs PropertiesFidelity PropertiesColor PropertiesWhole NeedleProofs MachineSpec MachineProofs PropertiesMachines
  PropertiesWork PropertiesWorkFile PropertiesWorkFiles PropertiesWorkU01 PropertiesWorkTbf PropertiesColorFiles PropertiesNeedleFiles PropertiesNeedleOrder.
Import ListNotations.
Open Scope Z_scope.

(** The stitches of a pattern, each with the needle last chosen before it ([now] at the start). *)
Fixpoint sewn_by {C} (now : option Z) (l : list (stitch C)) : list (option Z * (C * C)) :=
  match l with
  | [] => []
  | a :: r =>
      if is_cmd NEEDLE_SET a then sewn_by (needle_of (scmd a)) r
      else if is_cmd STITCH a then (now, (sx a, sy a)) :: sewn_by now r
      else sewn_by now r
  end.
(** The stitches of the design come back in order, each within half a unit of its place and sewn by the needle that [which] gives
    for the number of its thread, counted from 0. *)
Definition sewn_with (which : Z -> Z) (src : list (stitch Q)) (l : list (option Z * (Z * Z))) : Prop :=
  Forall2 (fun ka kz => fst kz = Some (which (Z.of_nat (fst ka))) /\ half_unit (snd ka) (snd kz)) (threaded None src) l.

Lemma sewn_needled C (l : list (stitch C)) : forall pre,
  sewn_by (nth (List.length pre) (None :: pre) None) l = map (fun kp => (nth (fst kp) (None :: pre ++ needle_numbers l) None, snd kp)) (needled (List.length pre) l).
Proof.
  induction l as [|a r IH]; intros pre; [reflexivity|]. unfold needle_numbers. cbn [sewn_by needled filter].
  destruct (is_cmd NEEDLE_SET a) eqn:E.
  - cbn [map]. specialize (IH (pre ++ [needle_of (scmd a)])). rewrite app_length in IH. cbn [List.length] in IH. rewrite Nat.add_1_r in IH.
    assert (T : nth (S (List.length pre)) (None :: pre ++ [needle_of (scmd a)]) None = needle_of (scmd a)) by (cbn [nth]; rewrite app_nth2, Nat.sub_diag by lia; reflexivity).
    rewrite T in IH. rewrite <- app_assoc in IH. exact IH.
  - destruct (is_cmd STITCH a); [|apply IH]. cbn [map fst snd]. f_equal; [|apply IH]. f_equal.
    destruct pre as [|x pre]; [reflexivity|]. cbn [List.length nth]. symmetry. apply (app_nth1 (x :: pre)). cbn [List.length]. lia.
Qed.
Lemma needled_range C (l : list (stitch C)) : forall n, Forall (fun kp => (fst kp <= n + List.length (needle_numbers l))%nat) (needled n l).
Proof.
  induction l as [|a r IH]; intros n; [constructor|]. unfold needle_numbers. cbn [needled filter]. destruct (is_cmd NEEDLE_SET a) eqn:E.
  - cbn [map List.length]. eapply Forall_impl; [|exact (IH (S n))]. cbn beta. unfold needle_numbers. intros; lia.
  - destruct (is_cmd STITCH a); [constructor; [cbn [fst]; lia|]|]; apply IH.
Qed.
Lemma kept_sewn (src : list (stitch Q)) (l : list (stitch Z)) which : needles_kept src (needled 0 l) ->
  (forall k n, nth_error (needle_numbers l) k = Some n -> n = Some (which (Z.of_nat k))) -> sewn_with which src (sewn_by None l).
Proof.
  intros K W. pose proof (sewn_needled _ l []) as S. cbn [List.length nth app] in S. rewrite S. unfold sewn_with, needles_kept in *. pose proof (needled_range _ l 0) as R.
  revert K R. generalize (needled 0 l). generalize (threaded None src). intros t m K. induction K as [|a b t m [H1 H2] K IH]; intros R; cbn [map]; constructor.
  - apply Forall_inv in R. cbn [fst snd]. split; [|exact H2]. rewrite H1 in R |- *. cbn [nth].
    destruct (nth_error (needle_numbers l) (fst a)) as [n|] eqn:En.
    + rewrite (nth_error_nth _ _ None En). apply W. exact En.
    + apply nth_error_None in En. lia.
  - apply IH. exact (Forall_inv_tail R).
Qed.

Section NeedleStitch.
Variables (qcos qsin : Q -> Q) (qorient : Q -> Q -> Q -> Q -> Q -> Q * Q).
Notation N := (QNum qcos qsin qorient).
Hypothesis (Hturn : forall t, ~ (qcos t * qcos t + qsin t * qsin t == 0)%Q) (Hdir : direction_bounded qorient).

(** Saved as U01 and read back, each stitch of thread number k is sewn by needle k mod n + 1, where n is the number of needles set. *)
Theorem C243_u01 : forall (set : settings N) (p : pattern N),
  machine_savable qcos qsin qorient 254 set (p_stitches N p) -> no_speeds (p_stitches N p) -> nameless (p_stitches N p) ->
  plain_settings set -> Forall (fun a => has_command left_out a = false) (until_end (p_stitches N p)) -> breaks_clear (p_stitches N p) ->
  exists out file, transcode N set p = Ok (out, map Own (p_threads N p)) /\ u01_write out = Ok file /\
  ((List.length (needle_numbers out) <= 255)%nat ->
   sewn_with (fun k => u01_needle (k mod needles_of_machine set + 1)) (p_stitches N p) (sewn_by None (u01_read_file file))).
Proof.
  intros set p V Hs Hu Hp Hl Hb. destruct (C241_u01 qcos qsin qorient Hturn Hdir set p V Hs Hp Hl Hb) as (out & file & E & Wf & X).
  destruct (C242_u01 qcos qsin qorient Hturn Hdir set p V Hs Hu) as (out' & file' & E' & Wf' & Y). rewrite E in E'. injection E' as <-. rewrite Wf in Wf'. injection Wf' as <-.
  exists out, file. split; [exact E|]. split; [exact Wf|]. intros L. apply kept_sewn; [|exact (proj2 (Y L))].
  apply X. exact (in_turn_from_one _ _ _ _ _ _ _ E (w_change _ _ _ _ _ _ V) (w_needles _ _ _ _ _ _ V) Hu L).
Qed.

(** The same for TBF. *)
Theorem C243_tbf : forall info (set : settings N) (p : pattern N),
  machine_savable qcos qsin qorient 127 set (p_stitches N p) -> s_round N set = Some true -> tbf_colors info = map t_color (p_threads N p) ->
  no_speeds (p_stitches N p) -> nameless (p_stitches N p) -> plain_settings set ->
  Forall (fun a => has_command left_out a = false) (until_end (p_stitches N p)) -> breaks_clear (p_stitches N p) ->
  exists out, transcode N set p = Ok (out, map Own (p_threads N p)) /\
  (tbf_room info out -> (List.length (needle_numbers out) <= 255)%nat ->
   exists file l, tbf_write info out = Ok file /\ tbf_read_file file = Ok (shown_name info, map (fun t => Some (t_color t)) (p_threads N p), l) /\
     sewn_with (fun k => k mod needles_of_machine set + 1) (p_stitches N p) (sewn_by None l)).
Proof.
  intros info set p V R Hi Hs Hu Hp Hl Hb. destruct (C241_tbf qcos qsin qorient Hturn Hdir info set p V R Hi Hs Hp Hl Hb) as (out & E & X).
  destruct (C242_tbf qcos qsin qorient Hturn Hdir info set p V R Hi Hu) as (out' & E' & Y). rewrite E in E'. injection E' as <-.
  exists out. split; [exact E|]. intros room L.
  pose proof (in_turn_from_one _ _ _ _ _ _ _ E (w_change _ _ _ _ _ _ V) (w_needles _ _ _ _ _ _ V) Hu L) as Z1.
  destruct (X room Z1) as (file & l & Wf & Rf & K). destruct (Y room L) as (file' & l' & Wf' & Rf' & _ & K').
  rewrite Wf in Wf'. injection Wf' as <-. rewrite Rf in Rf'. injection Rf' as <-.
  exists file, l. split; [exact Wf|]. split; [exact Rf|]. apply kept_sewn; assumption.
Qed.
End NeedleStitch.
Print Assumptions C243_u01.
Print Assumptions C243_tbf.

(** Seven threads on five needles: the sixth thread is sewn by the first needle again. *)
Example C243_case :
  machine_savable ex_cos ex_sin ex_orient 254 needle_settings seven_threads /\ no_speeds seven_threads /\ nameless seven_threads /\ plain_settings needle_settings /\
  Forall (fun a => has_command left_out a = false) (until_end seven_threads) /\ breaks_clear seven_threads /\
  exists out file ths, transcode ExNum needle_settings (EncoderModel.mkP ExNum seven_threads []) = Ok (out, ths) /\ u01_write out = Ok file /\
  (List.length (needle_numbers out) <= 255)%nat /\
  sewn_by None (u01_read_file file) = [(Some 1, (1, 0)); (Some 2, (2, 0)); (Some 3, (3, 0)); (Some 4, (4, 0)); (Some 5, (5, 0)); (Some 1, (6, 0)); (Some 2, (7, 0))].
Proof.
  destruct C242_case as (A & B & C & _). repeat (split; [assumption|]). split.
  { split; [left; reflexivity|]. split; [left; reflexivity|]. left. reflexivity. }
  split; [repeat constructor|]. split; [left; repeat constructor|].
  do 3 eexists. split; [vm_compute; reflexivity|]. split; [vm_compute; reflexivity|]. split; [vm_compute; lia|]. vm_compute. reflexivity.
Qed.
