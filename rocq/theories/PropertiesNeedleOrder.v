(** C242: which needle sews which thread. *)
From Coq Require Import Ascii String ZArith QArith List Bool Lia.
From Verif Require Import PyBase EmbConst PatternModel FunctionsModel FunctionsProofs StreamModel StreamSpec StreamProofs ThreadModel NumModel NumQ MatrixModel EncoderModel
  BitLemmas EncoderProofs EncoderPlanProofs EncoderSpec EncoderColorSpec EncoderFlowProofs EncoderSewProofs EncoderThreadProofs EncoderColorProofs
  QuantModel QuantProofs MetricSpec SettingsModel HelperModel U01Model FormatSpec WholeModel WholeSpec WholeProofs
  PropertiesEncoder PropertiesSettings PropertiesPipeline FidelitySpec FidelityProofs PropertiesFidelity PropertiesColor PropertiesWhole NeedleProofs MachineSpec MachineProofs PropertiesMachines
  PropertiesWork PropertiesWorkFile PropertiesWorkFiles PropertiesWorkU01 PropertiesNeedleFiles.
Import ListNotations.
Open Scope Z_scope.

(** Thread changes of the design name neither threads nor needles and are not rearranged. *)
Definition nameless {C} (l : list (stitch C)) : Prop :=
  Forall (fun a => is_cmd SET_CHANGE_SEQUENCE a = false) l /\
  Forall (fun a => changes_thread a = true -> thread_number a = None /\ needle_of (scmd a) = None) l.

Definition numberless (c : Z) : Prop := is_change (cmd_of c) = true -> dec_field c THREAD_MASK 8 = None /\ dec_field c NEEDLE_MASK 16 = None.
Definition empty_draft (d : draft) : Prop := d_thread d = None /\ d_needle d = None.
Lemma plan_empty : forall threads cs ci la d, Forall numberless cs -> Forall (fun c => cmd_of c <> SET_CHANGE_SEQUENCE) cs ->
  counted empty_draft 0 d -> d <> [] -> (ci = Z.of_nat (List.length d) \/ (ci = 0 /\ List.length d = 1%nat)) ->
  counted empty_draft 0 (plan_events threads la d (thread_change_events ci cs)).
Proof.
  intros threads. induction cs as [|c cs IH]; intros ci la d Hu Hs Hd Hne Hl; [exact Hd|].
  apply Forall_cons_iff in Hu. destruct Hu as [Hu Hu']. apply Forall_cons_iff in Hs. destruct Hs as [Hs Hs'].
  rewrite events_cons. cbv zeta. unfold decode_embroidery_command.
  apply Z.eqb_neq in Hs. rewrite Hs.
  assert (L1 : (1 <= List.length d)%nat) by (destruct d; [congruence|cbn; lia]).
  assert (Hb : bump ci (cmd_of c) = Z.of_nat (List.length d) \/ (bump ci (cmd_of c) = 0 /\ List.length d = 1%nat)).
  { unfold bump. destruct ((ci =? 0) && is_sewing (cmd_of c)) eqn:Eb; [|exact Hl]. apply andb_prop in Eb. destruct Eb as [Eb _].
    apply Z.eqb_eq in Eb. left. lia. }
  set (b := bump ci (cmd_of c)) in *.
  destruct (is_change (cmd_of c)) eqn:Ec.
  - cbn [plan_events e_index]. cbv zeta.
    set (cur := match dict_get b d with Some c0 => c0 | None => no_draft end).
    assert (Hcur : empty_draft cur).
    { unfold cur. destruct (dict_get b d) as [x|] eqn:Eg; [|split; reflexivity].
      apply (counted_get _ _ _ _ _ _ Hd Eg). }
    match goal with |- context [fill_draft threads ?e cur] => set (e0 := e) end.
    assert (Hf : empty_draft (fill_draft threads e0 cur)).
    { unfold e0, fill_draft. cbn [e_thread e_needle]. destruct (Hu Ec) as [-> ->]. destruct Hcur as [B1 B2]. split; assumption. }
    destruct (counted_set _ _ d 0 b _ Hd Hf ltac:(lia)) as [D1 D2].
    apply IH; try assumption.
    + intros X. apply (f_equal (@List.length _)) in X. rewrite D2 in X. cbn [List.length] in X. destruct (b =? _); lia.
    + left. rewrite D2. destruct (Z.eqb_spec b (0 + Z.of_nat (List.length d))); lia.
  - apply IH; assumption.
Qed.
Lemma finish_empty : forall threads tcc lim, 1 <= lim -> forall d t q k ch, 0 <= t -> counted empty_draft t d -> finish_plan threads tcc lim t (t + 1) d = Ok q ->
  dict_get k q = Some ch -> c_thread ch = k /\ c_needle ch = k mod lim + 1.
Proof.
  intros threads tcc lim Hlim. induction d as [|[j b] d IH]; intros t q k ch Ht H E G; cbn [finish_plan] in E.
  - injection E as <-. discriminate.
  - destruct H as (-> & [B1 B2] & H). rewrite B1, B2 in E.
    assert (X : (if lim <? t + 1 then if lim =? 0 then Err ZeroDivisionError else Ok ((t + 1 - 1) mod lim + 1, t + 1 + 1) else Ok (t + 1, t + 1 + 1)) = Ok (t mod lim + 1, t + 1 + 1)).
    { destruct (Z.ltb_spec lim (t + 1)); [|rewrite Z.mod_small by lia; reflexivity]. destruct (Z.eqb_spec lim 0); [lia|]. replace (t + 1 - 1) with t by lia. reflexivity. }
    rewrite X in E. cbn [bindr] in E.
    destruct (finish_plan threads tcc lim (t + 1) (t + 1 + 1) d) as [q'|] eqn:Eq; [|discriminate]. cbn [bindr] in E. injection E as <-.
    cbn [dict_get] in G. destruct (Z.eqb_spec t k) as [->|Hn].
    + injection G as <-. split; reflexivity.
    + eapply (IH (t + 1)); [lia|exact H|exact Eq|exact G].
Qed.

(** The number of needles of the machine: the setting needle_count, five when it is not given. *)
Definition needles_of_machine {N : Num} (set : settings N) : Z := match s_needle_count N set with Some n => n | None => 5 end.

(** For designs that name no threads or needles: thread change number k of the encoded pattern, counted from 0, names
    needle k mod n + 1, where n is the number of needles. *)
Theorem C242_needles_in_turn : forall N (set : settings N) p o ths, transcode N set p = Ok (o, ths) ->
  requested_change set = NEEDLE_SET -> needles_of_machine set <= 254 -> nameless (p_stitches N p) ->
  forall k n, nth_error (needle_numbers o) k = Some n -> (k < 255)%nat -> n = Some (Z.of_nat k mod needles_of_machine set + 1).
Proof.
  intros N set p o ths E Hk Hn [Hs Hu] k n Ek Hb.
  destruct (transcode_inv N set p o ths E) as (sq & body & e & s1 & m & B & Eo & He & Hi & Ob & Et).
  rewrite requested_ok, Hk in B.
  change (needles_of_machine set) with (needle_count (init_config N set)) in *.
  assert (Hc : 1 <= needle_count (init_config N set)).
  { clear - Hk. unfold requested_change in Hk. cbn [init_config needle_count]. unfold get.
    destruct (s_thread_change_command N set) as [k|]; [|discriminate Hk].
    destruct (s_needle_count N set) as [n|]; [|lia]. destruct (Z.leb_spec n 1); [|lia].
    destruct (k =? NEEDLE_SET) eqn:Ek; [discriminate Hk|]. cbn [andb] in Hk. rewrite Hk in Ek. discriminate Ek. }
  destruct (i_plan _ _ _ _ _ _ _ _ Hi) as (chs & L & G & _ & P2 & _).
  rewrite requested_ok in P2. specialize (P2 Hk). destruct P2 as [T1 C1].
  pose proof (i_run _ _ _ _ _ _ _ _ Hi) as Run. unfold EncoderProofs.cmds in Run. rewrite requested_ok, Hk, Ob in Run.
  pose proof (filter_needles _ _ _ _ _ _ Run) as Fc. cbn [mon0 m_changes app] in Fc. rewrite C1 in Fc.
  assert (En : needle_numbers o = map (fun ch => needle_of (enc NEEDLE_SET ch)) chs).
  { unfold needle_numbers. rewrite Eo, filter_app. cbn [filter].
    replace (is_cmd NEEDLE_SET e) with false.
    2:{ symmetry. unfold is_cmd in *. apply Z.eqb_eq in He. rewrite He. reflexivity. }
    rewrite app_nil_r, <- (map_map scmd needle_of). rewrite <- Fc, map_map. reflexivity. }
  rewrite En, nth_error_map in Ek. destruct (nth_error chs k) as [ch|] eqn:Ech; [|discriminate]. cbn [option_map] in Ek. injection Ek as <-.
  specialize (G k ch Ech). unfold build_thread_change_sequence in B.
  assert (X : c_thread ch = Z.of_nat k /\ c_needle ch = Z.of_nat k mod needle_count (init_config N set) + 1).
  { eapply (finish_empty _ _ _ Hc _ 0 sq); [lia| |exact B|exact G].
    apply plan_empty.
    - apply Forall_map. eapply Forall_impl; [|exact Hu]. cbn beta. intros a H Hc'. rewrite change_flags in Hc'. destruct (H Hc') as [H1 H2].
      split; [|exact H2]. rewrite thread_number_dec. exact H1.
    - apply Forall_map. eapply Forall_impl; [|exact Hs]. cbn beta. intros a H. apply Z.eqb_neq. exact H.
    - split; [reflexivity|]. split; [split; reflexivity|exact I].
    - discriminate.
    - right. split; reflexivity. }
  destruct X as [X1 X2]. pose proof (Z.mod_pos_bound (Z.of_nat k) (needle_count (init_config N set)) ltac:(lia)) as Mb.
  destruct (needle_packed (c_thread ch) (c_needle ch) ltac:(lia)) as (n' & E1 & _ & E3). unfold enc. rewrite E1, E3, X2 by lia. reflexivity.
Qed.
Print Assumptions C242_needles_in_turn.

Section NeedleOrderFiles.
Variables (qcos qsin : Q -> Q) (qorient : Q -> Q -> Q -> Q -> Q -> Q * Q).
Notation N := (QNum qcos qsin qorient).
Hypothesis (Hturn : forall t, ~ (qcos t * qcos t + qsin t * qsin t == 0)%Q) (Hdir : direction_bounded qorient).

Lemma in_turn_from_one : forall (set : settings N) p o ths, transcode N set p = Ok (o, ths) ->
  requested_change set = NEEDLE_SET -> needles_of_machine set <= 254 -> nameless (p_stitches N p) -> (List.length (needle_numbers o) <= 255)%nat ->
  needles_count_from_one o.
Proof.
  intros set p o ths E Hk Hn Hu Hl I. apply In_nth_error in I as (k & Ek).
  pose proof (C242_needles_in_turn N set p o ths E Hk Hn Hu k _ Ek) as X.
  assert (L : (k < List.length (needle_numbers o))%nat) by (apply nth_error_Some; congruence).
  specialize (X ltac:(lia)). injection X as X.
  destruct (Z.le_gt_cases (needles_of_machine set) 0) as [H|H].
  - clear - Hk H. unfold requested_change in Hk. unfold needles_of_machine in H. destruct (s_thread_change_command N set) as [k|]; [|discriminate Hk].
    destruct (s_needle_count N set) as [n|]; [|lia]. destruct (Z.leb_spec n 1); [|lia].
    destruct (k =? NEEDLE_SET) eqn:Ek; [discriminate Hk|]. cbn [andb] in Hk. rewrite Hk in Ek. discriminate Ek.
  - pose proof (Z.mod_pos_bound (Z.of_nat k) _ H). lia.
Qed.

(** The same read back from a U01 file, whose machines have fifteen needles. *)
Theorem C242_u01 : forall (set : settings N) (p : pattern N),
  machine_savable qcos qsin qorient 254 set (p_stitches N p) -> no_speeds (p_stitches N p) -> nameless (p_stitches N p) ->
  exists out file, transcode N set p = Ok (out, map Own (p_threads N p)) /\ u01_write out = Ok file /\
  ((List.length (needle_numbers out) <= 255)%nat ->
   List.length (needle_numbers (u01_read_file file)) = List.length (needle_numbers out) /\
   forall k n, nth_error (needle_numbers (u01_read_file file)) k = Some n -> n = Some (u01_needle (Z.of_nat k mod needles_of_machine set + 1))).
Proof.
  intros set p V Hs Hu. destruct (C124_u01 qcos qsin qorient Hturn Hdir set p V Hs) as (out & file & E & Wf & _ & _ & X). exists out, file. split; [exact E|]. split; [exact Wf|].
  intros Hl. pose proof (w_change _ _ _ _ _ _ V) as Hk. pose proof (w_needles _ _ _ _ _ _ V : needles_of_machine set <= 254) as Hn.
  rewrite (X (in_turn_from_one _ _ _ _ E Hk Hn Hu Hl)), map_length. split; [reflexivity|]. intros k n Ek. rewrite nth_error_map in Ek.
  destruct (nth_error (needle_numbers out) k) as [m|] eqn:Em; [|discriminate]. cbn [option_map] in Ek. injection Ek as <-.
  assert (L : (k < List.length (needle_numbers out))%nat) by (apply nth_error_Some; congruence).
  rewrite (C242_needles_in_turn N set p out _ E Hk Hn Hu k m Em ltac:(lia)). reflexivity.
Qed.

(** And from a TBF file. *)
Theorem C242_tbf : forall info (set : settings N) (p : pattern N),
  machine_savable qcos qsin qorient 127 set (p_stitches N p) -> s_round N set = Some true -> tbf_colors info = map t_color (p_threads N p) -> nameless (p_stitches N p) ->
  exists out, transcode N set p = Ok (out, map Own (p_threads N p)) /\
  (tbf_room info out -> (List.length (needle_numbers out) <= 255)%nat ->
   exists file l, tbf_write info out = Ok file /\ tbf_read_file file = Ok (shown_name info, map (fun t => Some (t_color t)) (p_threads N p), l) /\
     List.length (needle_numbers l) = List.length (needle_numbers out) /\
     forall k n, nth_error (needle_numbers l) k = Some n -> n = Some (Z.of_nat k mod needles_of_machine set + 1)).
Proof.
  intros info set p V R Hi Hu. destruct (C123_tbf qcos qsin qorient Hturn Hdir info set p V R Hi) as (out & E & X). exists out. split; [exact E|].
  intros room Hl. destruct (X room) as (file & l & Wf & Rf & _ & _ & Y). exists file, l. split; [exact Wf|]. split; [exact Rf|].
  pose proof (w_change _ _ _ _ _ _ V) as Hk. pose proof (w_needles _ _ _ _ _ _ V : needles_of_machine set <= 254) as Hn.
  rewrite (Y (in_turn_from_one _ _ _ _ E Hk Hn Hu Hl)). split; [reflexivity|]. intros k n Ek.
  assert (L : (k < List.length (needle_numbers out))%nat) by (apply nth_error_Some; congruence).
  exact (C242_needles_in_turn N set p out _ E Hk Hn Hu k n Ek ltac:(lia)).
Qed.
End NeedleOrderFiles.
Print Assumptions C242_u01.
Print Assumptions C242_tbf.

(** Seven threads on a machine with the default of five needles. *)
Definition seven_threads : list (stitch Q) :=
  [mkS 1 0 STITCH; mkS 1 0 COLOR_BREAK; mkS 2 0 STITCH; mkS 2 0 COLOR_CHANGE; mkS 3 0 STITCH; mkS 3 0 COLOR_BREAK; mkS 4 0 STITCH; mkS 4 0 NEEDLE_SET;
   mkS 5 0 STITCH; mkS 5 0 COLOR_BREAK; mkS 6 0 STITCH; mkS 6 0 COLOR_BREAK; mkS 7 0 STITCH; mkS 7 0 END]%Q.
Example C242_case :
  machine_savable ex_cos ex_sin ex_orient 254 needle_settings seven_threads /\ no_speeds seven_threads /\ nameless seven_threads /\ needles_of_machine needle_settings = 5 /\
  exists out file ths, transcode ExNum needle_settings (EncoderModel.mkP ExNum seven_threads []) = Ok (out, ths) /\ u01_write out = Ok file /\
  (List.length (needle_numbers out) <= 255)%nat /\ needle_numbers (u01_read_file file) = map Some [1; 2; 3; 4; 5; 1; 2].
Proof.
  split; [|split; [|split; [|split]]].
  - eapply (C123_default_settings ex_cos ex_sin ex_orient [] seven_threads); [each|each|each|each|each].
  - each.
  - split; repeat constructor; intros H; try discriminate H; split; reflexivity.
  - reflexivity.
  - do 3 eexists. split; [vm_compute; reflexivity|]. split; [vm_compute; reflexivity|]. split; [vm_compute; lia|]. vm_compute. reflexivity.
Qed.

(** The bound of 255 is needed: the number of the 256th thread does not fit its field of the packed command and runs over into the needle,
    so a design of 256 threads on five needles sews the last with needle 2, not with needle 1. *)
Definition many_threads (n : nat) : list (stitch Q) := flat_map (fun _ => [mkS 1 0 STITCH; mkS 1 0 COLOR_BREAK]%Q) (seq 0 n) ++ [mkS 2 0 STITCH; mkS 2 0 END]%Q.
Theorem C242_256_threads_refuted : exists (p : pattern ExNum) o ths, transcode ExNum needle_settings p = Ok (o, ths) /\
  requested_change needle_settings = NEEDLE_SET /\ needles_of_machine needle_settings = 5 /\ nameless (p_stitches ExNum p) /\
  nth_error (needle_numbers o) 254 = Some (Some 5) /\ nth_error (needle_numbers o) 255 = Some (Some 2) /\ 255 mod 5 + 1 = 1.
Proof.
  exists (EncoderModel.mkP ExNum (many_threads 255) []).
  destruct (transcode ExNum needle_settings (EncoderModel.mkP ExNum (many_threads 255) [])) as [[o ths]|] eqn:E; [|vm_compute in E; discriminate E].
  exists o, ths. split; [reflexivity|]. split; [reflexivity|]. split; [reflexivity|]. split.
  - cbn [p_stitches]. unfold many_threads. split; apply Forall_app; (split; [|repeat constructor; intros H; discriminate H]); apply Forall_forall; intros a Ia;
      apply in_flat_map in Ia as (x & _ & [<-|[<-|[]]]); try reflexivity; intros H; try discriminate H; split; reflexivity.
  - assert (X : match transcode ExNum needle_settings (EncoderModel.mkP ExNum (many_threads 255) []) with
      | Ok (o, _) => nth_error (needle_numbers o) 254 = Some (Some 5) /\ nth_error (needle_numbers o) 255 = Some (Some 2) | Err _ => True end)
      by (vm_compute; split; reflexivity).
    rewrite E in X. destruct X as [X1 X2]. split; [exact X1|]. split; [exact X2|reflexivity].
Qed.
Print Assumptions C242_256_threads_refuted.
