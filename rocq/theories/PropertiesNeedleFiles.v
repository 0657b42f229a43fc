(** C241: the needle of every stitch in U01 and TBF files. *)
From Coq Require Import Ascii String ZArith QArith List Bool Lia.
From Verif Require Import PyBase EmbConst PatternModel FunctionsModel StreamModel StreamSpec StreamProofs ThreadModel NumModel NumQ MatrixModel EncoderModel
  EncoderProofs EncoderSpec EncoderColorSpec QuantModel QuantProofs MetricSpec SettingsModel HelperModel U01Model TbfModel FormatSpec WholeModel WholeSpec WholeProofs
  TextProofs DstFileModel
  PropertiesEncoder PropertiesSettings PropertiesPipeline FidelitySpec FidelityProofs PropertiesFidelity PropertiesColor PropertiesWhole NeedleProofs MachineSpec MachineProofs PropertiesMachines
  PropertiesWork PropertiesWorkFile PropertiesWorkFiles PropertiesWorkU01 PropertiesWorkTbf PropertiesColorFiles.
Import ListNotations.
Open Scope Z_scope.

(** The stitches of a pattern, each with the number of needle changes before it ([n] at the start). *)
Fixpoint needled {C} (n : nat) (l : list (stitch C)) : list (nat * (C * C)) :=
  match l with
  | [] => []
  | a :: r =>
      if is_cmd NEEDLE_SET a then needled (S n) r
      else if is_cmd STITCH a then (n, (sx a, sy a)) :: needled n r
      else needled n r
  end.
(** The stitches of the design come back in order, each within half a unit of its place; the needle has been chosen once for
    the first thread and once more for each later one. *)
Definition needles_kept (src : list (stitch Q)) (l : list (nat * (Z * Z))) : Prop :=
  Forall2 (fun ka kz => fst kz = S (fst ka) /\ half_unit (snd ka) (snd kz)) (threaded None src) l.

Fixpoint nsections (n : nat) (ks : list Z) : list nat :=
  match ks with
  | [] => []
  | k :: r => if k =? NEEDLE_SET then nsections (S n) r else if k =? STITCH then n :: nsections n r else nsections n r
  end.
Lemma nsections_uncut ks : forall n, nsections n (uncut ks) = nsections n ks.
Proof.
  unfold uncut. induction ks as [|k r IH]; intros n; [reflexivity|]. cbn [filter nsections]. destruct (Z.eqb_spec k TRIM) as [->|_]; cbn [negb nsections]; rewrite ?IH; reflexivity.
Qed.
Lemma nsections_work C (l : list (stitch C)) : forall n, map fst (needled n l) = nsections n (work l) /\ map snd (needled n l) = needle_points l.
Proof.
  induction l as [|a r IH]; intros n; [split; reflexivity|]. rewrite work_cons. unfold needle_points. cbn [needled map filter].
  change (cmd_of (scmd a)) with (Z.land (scmd a) 255). destruct (is_cmd NEEDLE_SET a) eqn:E.
  - assert (E2 : is_cmd STITCH a = false) by (unfold is_cmd in *; apply Z.eqb_eq in E; rewrite E; reflexivity). rewrite E2. unfold is_cmd in E. apply Z.eqb_eq in E. rewrite E. apply IH.
  - destruct (is_cmd STITCH a) eqn:E2.
    + cbn [map fst snd]. destruct (IH n) as [-> ->]. unfold is_cmd in E2. apply Z.eqb_eq in E2. rewrite E2. split; reflexivity.
    + unfold is_cmd in E, E2. destruct (is_work _); cbn [when app nsections]; rewrite ?E, ?E2; apply IH.
Qed.
Lemma nsections_app a : forall n b, Forall (fun k => k <> NEEDLE_SET /\ k <> STITCH) a -> nsections n (a ++ b) = nsections n b.
Proof.
  induction a as [|k a IH]; intros n b H; [reflexivity|]. inversion H as [|? ? [H1 H2] H3]; subst. cbn [app nsections]. apply Z.eqb_neq in H1, H2. rewrite H1, H2. apply IH. exact H3.
Qed.
(** What the design asks for, told by the numbers of its threads. *)
Lemma asked_needles (l : list (stitch Q)) : Forall (fun a => has_command left_out a = false) (until_end l) ->
  forall w n, begun w = (match n with Some _ => true | None => false end) ->
  nsections (next_thread n) (all_asked NEEDLE_SET true w (until_end l)) = map (fun ka => S (fst ka)) (threaded n l).
Proof.
  induction l as [|a r IH]; intros H w n Hw; [reflexivity|]. cbn [until_end threaded] in *. destruct (is_cmd END a) eqn:Ee; [reflexivity|].
  inversion H as [|? ? Ha Hr]; subst. cbn [all_asked]. specialize (IH Hr).
  assert (Lt : existsb (fun b => sews_src b) (until_end r) = later_sewing r).
  { unfold later_sewing. clear - Hr. induction Hr as [|b l Hb _ IH]; [reflexivity|]. cbn [existsb]. rewrite IH. f_equal. unfold sews_any.
    unfold has_command, left_out, stitching_commands in Hb. cbn [app existsb] in Hb. rewrite !orb_false_iff in Hb. destruct Hb as (_ & H1 & H2 & _). rewrite H1, H2, !orb_false_r. reflexivity. }
  rewrite Lt. set (k := Z.land (scmd a) 255).
  assert (K : forall c, is_cmd c a = (k =? c)) by (intros c; reflexivity).
  assert (NoSew : (k =? SEW_TO) = false /\ (k =? SEQUIN_EJECT) = false).
  { unfold has_command, left_out, stitching_commands in Ha. cbn [app existsb] in Ha. rewrite !orb_false_iff in Ha. destruct Ha as (H1 & H2 & _). split; assumption. }
  destruct NoSew as [N1 N2]. unfold take_thread, sews_any, sews_src, explicit_change, is_break. rewrite !K, N1, N2, !orb_false_r. unfold asked, first_change.
  change (NEEDLE_SET =? COLOR_CHANGE) with false. cbn [negb]. rewrite !andb_true_r.
  assert (Quiet : forall (b c : bool) j j2, j <> NEEDLE_SET -> j <> STITCH -> j2 <> NEEDLE_SET -> j2 <> STITCH -> Forall (fun x => x <> NEEDLE_SET /\ x <> STITCH) (when b j ++ when c j2)).
  { intros [|] [|] j j2 A B C D; cbn [when app]; repeat constructor; assumption. }
  assert (Q1 : forall (b : bool) j, j <> NEEDLE_SET -> j <> STITCH -> Forall (fun x => x <> NEEDLE_SET /\ x <> STITCH) (when b j)).
  { intros [|] j A B; cbn [when]; repeat constructor; assumption. }
  destruct ((k =? STITCH) || (k =? NEEDLE_AT)) eqn:E1.
  { rewrite Hw. destruct n as [n|]; cbn [negb when app nsections next_thread map fst]; change (STITCH =? NEEDLE_SET) with false; change (STITCH =? STITCH) with true;
      change (NEEDLE_SET =? NEEDLE_SET) with true; cbn iota; f_equal; apply (IH _ (Some _)); reflexivity. }
  destruct ((k =? TRIM) || (k =? SEQUENCE_BREAK)) eqn:E2.
  { assert (X : (k =? COLOR_CHANGE) || (k =? NEEDLE_SET) = false /\ (k =? COLOR_BREAK) = false).
    { apply orb_true_iff in E2 as [E2|E2]; apply Z.eqb_eq in E2; rewrite E2; split; reflexivity. }
    destruct X as [-> ->]. cbn [andb]. rewrite nsections_app by (apply Q1; discriminate). destruct n; cbn [app map]; apply IH; exact Hw. }
  destruct ((k =? COLOR_CHANGE) || (k =? NEEDLE_SET)) eqn:E3.
  { rewrite <- app_assoc, nsections_app by (apply Q1; discriminate). rewrite Hw. destruct n as [n|]; cbn [negb when app nsections next_thread map fst]; change (NEEDLE_SET =? NEEDLE_SET) with true; cbn iota;
      apply (IH _ (Some _)); reflexivity. }
  destruct (k =? COLOR_BREAK) eqn:E4.
  { rewrite Hw. destruct n as [n|]; cbn [andb]; [|cbn [app map]; apply IH; exact Hw]. rewrite <- app_assoc, nsections_app by (apply Q1; discriminate).
    destruct (later_sewing r); cbn [when app nsections next_thread map]; [change (NEEDLE_SET =? NEEDLE_SET) with true; cbn iota|]; apply (IH _ (Some _)); reflexivity. }
  cbn [andb]. assert (Rest : map (fun ka => S (fst ka)) (match n with Some _ => [] | None => [] end ++ threaded n r) = map (fun ka : nat * stitch Q => S (fst ka)) (threaded n r)) by (destruct n; reflexivity).
  rewrite Rest.
  destruct (k =? STOP); [rewrite nsections_app by (repeat constructor; discriminate); apply IH; exact Hw|].
  destruct (k =? FRAME_EJECT); [rewrite nsections_app by (apply (Quiet _ true); discriminate); apply IH; exact Hw|].
  destruct ((k =? SLOW) || (k =? FAST)) eqn:E5.
  { rewrite nsections_app; [apply IH; exact Hw|]. apply orb_true_iff in E5 as [E5|E5]; apply Z.eqb_eq in E5; rewrite E5; apply Q1; discriminate. }
  destruct (k =? OPTION_EXPLICIT_TRIM); [apply IH; exact Hw|]. destruct (k =? OPTION_IMPLICIT_TRIM); [apply IH; exact Hw|]. apply IH; exact Hw.
Qed.
Lemma kept_pairs (src : list (stitch Q)) (l : list (nat * (Z * Z))) : map fst l = map (fun ka => S (fst ka)) (threaded None src) -> stitches_exact src (map snd l) -> needles_kept src l.
Proof.
  unfold stitches_exact, needles_kept. rewrite <- (threaded_stitches src None). generalize (threaded None src). intros t. revert l.
  induction t as [|a t IH]; intros [|b l] H1 H2; cbn [map] in *; try discriminate; constructor.
  - injection H1 as H1 _. inversion H2; subst. auto.
  - injection H1 as _ H1. inversion H2; subst. apply IH; assumption.
Qed.

Section NeedleFiles.
Variables (qcos qsin : Q -> Q) (qorient : Q -> Q -> Q -> Q -> Q -> Q * Q).
Notation N := (QNum qcos qsin qorient).
Hypothesis (Hturn : forall t, ~ (qcos t * qcos t + qsin t * qsin t == 0)%Q) (Hdir : direction_bounded qorient).

Theorem C241_u01 : forall (set : settings N) (p : pattern N),
  machine_savable qcos qsin qorient 254 set (p_stitches N p) -> no_speeds (p_stitches N p) ->
  plain_settings set -> Forall (fun a => has_command left_out a = false) (until_end (p_stitches N p)) -> breaks_clear (p_stitches N p) ->
  exists out file, transcode N set p = Ok (out, map Own (p_threads N p)) /\ u01_write out = Ok file /\
  (needles_count_from_one out -> needles_kept (p_stitches N p) (needled 0 (u01_read_file file))).
Proof.
  intros set p V Hs Hp Hl Hb. destruct (C232_u01 qcos qsin qorient Hturn Hdir set p V Hs Hp Hl Hb) as (out & file & E & Wf & X). exists out, file. split; [exact E|]. split; [exact Wf|].
  intros Zr. destruct (X Zr) as [St W]. destruct (nsections_work _ (u01_read_file file) 0) as [A B]. apply kept_pairs; [|rewrite B; exact St].
  rewrite A. change (F N) with Q in *. rewrite W. apply (asked_needles (p_stitches N p) Hl _ None). reflexivity.
Qed.

Theorem C241_tbf : forall info (set : settings N) (p : pattern N),
  machine_savable qcos qsin qorient 127 set (p_stitches N p) -> s_round N set = Some true -> tbf_colors info = map t_color (p_threads N p) ->
  no_speeds (p_stitches N p) -> plain_settings set ->
  Forall (fun a => has_command left_out a = false) (until_end (p_stitches N p)) -> breaks_clear (p_stitches N p) ->
  exists out, transcode N set p = Ok (out, map Own (p_threads N p)) /\
  (tbf_room info out -> needles_count_from_one out ->
   exists file l, tbf_write info out = Ok file /\ tbf_read_file file = Ok (shown_name info, map (fun t => Some (t_color t)) (p_threads N p), l) /\
     needles_kept (p_stitches N p) (needled 0 l)).
Proof.
  intros info set p V R Hi Hs Hp Hl Hb. destruct (C234_tbf_partial qcos qsin qorient Hturn Hdir info set p V R Hi Hs Hp Hl Hb) as (out & E & X). exists out. split; [exact E|].
  intros room Zr. destruct (X room Zr) as (file & l & Wf & Rf & St & W & _). exists file, l. split; [exact Wf|]. split; [exact Rf|].
  destruct (nsections_work _ l 0) as [A B]. apply kept_pairs; [|rewrite B; exact St].
  rewrite A, <- nsections_uncut. change (F N) with Q in *. rewrite W, nsections_uncut. apply (asked_needles (p_stitches N p) Hl _ None). reflexivity.
Qed.
End NeedleFiles.
Print Assumptions C241_u01.
Print Assumptions C241_tbf.

(** The design of C232 (with a stop and a break) as U01. *)
Example C241_case :
  machine_savable ex_cos ex_sin ex_orient 254 needle_settings worked_design /\ no_speeds worked_design /\ plain_settings needle_settings /\
  Forall (fun a => has_command left_out a = false) (until_end worked_design) /\ breaks_clear worked_design /\
  map fst (threaded None worked_design) = [0; 0; 0; 0; 1]%nat /\
  exists out file ths, transcode ExNum needle_settings (mkP ExNum worked_design []) = Ok (out, ths) /\ u01_write out = Ok file /\ needles_count_from_one out /\
  needled 0 (u01_read_file file) = [(1%nat, (10, 0)); (1%nat, (300, 0)); (1%nat, (9, 0)); (1%nat, (9, 9)); (2%nat, (6, 6))].
Proof.
  destruct C232_case as (A & B & C & D & E & _). repeat (split; [assumption|]). split; [reflexivity|].
  do 3 eexists. split; [vm_compute; reflexivity|]. split; [vm_compute; reflexivity|]. split; [vm_compute; intuition discriminate|]. vm_compute. reflexivity.
Qed.
