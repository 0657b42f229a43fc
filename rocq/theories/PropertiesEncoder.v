(** Properties of EmbEncoder.Transcoder that hold for every arithmetic. *)
From Coq Require Import ZArith QArith List Bool Lia.
From Verif Require Import PyBase EmbConst FunctionsModel ThreadModel NumModel NumQ MatrixModel EncoderModel
  EncoderProofs EncoderPlanProofs EncoderSpec EncoderFlowProofs EncoderSewProofs EncoderThreadProofs.
Import ListNotations.
Open Scope Z_scope.

(** ** Settings as the caller sees them *)
(** The kind of thread change asked for: NEEDLE_SET needs more than one needle. *)
Definition requested_change {N} (set : settings N) : Z :=
  match s_thread_change_command N set with
  | None => COLOR_CHANGE
  | Some k => if (k =? NEEDLE_SET) && (match s_needle_count N set with Some n => n | None => 5 end <=? 1)
              then STOP else k
  end.

(** Sequins are kept: "sequin_contingency" says so, or it is absent and "strip_sequins" is False,
    or the pattern itself contains the command. *)
Definition sequins_requested {N} (set : settings N) (l : list (stitch (F N))) : Prop :=
  s_sequin_contingency N set = Some CONTINGENCY_SEQUIN_UTILIZE \/
  (s_sequin_contingency N set = None /\ s_strip_sequins N set = Some false) \/
  Exists (fun a => is_cmd CONTINGENCY_SEQUIN_UTILIZE a = true) l.

Definition speeds_requested {N} (set : settings N) : Prop := s_writes_speeds N set <> Some false.

Lemma requested_ok : forall N (set : settings N), thread_change_command (init_config N set) = requested_change set.
Proof.
  intros N set. unfold init_config, requested_change, get. cbn [thread_change_command].
  destruct (s_thread_change_command N set) as [k|]; [|rewrite andb_comm; reflexivity].
  rewrite andb_comm. reflexivity.
Qed.

Lemma sequins_ok : forall N (set : settings N) l, sequins_allowed N set l = true -> sequins_requested set l.
Proof.
  intros N set l H. unfold sequins_allowed in H. apply orb_true_iff in H. destruct H as [H|H].
  - apply Z.eqb_eq in H. cbn [init_state sequin_contingency] in H. unfold get in H. unfold sequins_requested.
    destruct (s_sequin_contingency N set) as [k|]; [left; congruence|].
    destruct (s_strip_sequins N set) as [[]|]; [discriminate| |discriminate]. right. left. auto.
  - right. right. apply Exists_exists. apply existsb_exists in H. exact H.
Qed.

Lemma speeds_ok : forall N (set : settings N), writes_speeds (init_config N set) = true -> speeds_requested set.
Proof.
  intros N set H E. unfold init_config, get in H. cbn [writes_speeds] in H. rewrite E in H. discriminate.
Qed.

Lemma only_core_mono : forall C k (s1 s2 p1 p2 : Prop) (l : list (stitch C)), (s1 -> s2) -> (p1 -> p2) ->
  only_core k s1 p1 l -> only_core k s2 p2 l.
Proof. intros C k s1 s2 p1 p2 l H1 H2. apply Forall_impl. intros a. tauto. Qed.

Lemma encoded_means : forall N set p o ths, transcode N set p = Ok (o, ths) ->
  exists body e m, o = body ++ [e] /\ is_cmd END e = true /\
    mrun (requested_change set) (sequins_allowed N set (p_stitches N p)) (writes_speeds (init_config N set))
      mon0 (map scmd body) = Some m /\
    means (requested_change set) (sequins_allowed N set (p_stitches N p)) (writes_speeds (init_config N set)) m body.
Proof.
  intros N set p o ths E. destruct (transcode_inv N set p o ths E) as (seq & body & e & s1 & m & _ & -> & He & Hi & <- & _).
  exists (out N s1), e, m. split; [reflexivity|]. split; [exact He|].
  pose proof (i_run _ _ _ _ _ _ _ _ Hi) as R. unfold cmds in R. rewrite requested_ok in R.
  split; [exact R|]. apply (run_means _ _ _ _ [] mon0 m (means_nil _ _ _) R).
Qed.

(** ** C22 *)
Theorem C22_single_end : forall N (set : settings N) p o ths, transcode N set p = Ok (o, ths) -> ends_once o.
Proof.
  intros N set p o ths E. destruct (encoded_means _ _ _ _ _ E) as (body & e & m & -> & He & _ & M).
  exists body, e. split; [reflexivity|]. split; [exact He|]. apply M.
Qed.

(** ** C23 *)
Theorem C23_core_commands : forall N (set : settings N) p o ths, transcode N set p = Ok (o, ths) ->
  only_core (requested_change set) (sequins_requested set (p_stitches N p)) (speeds_requested set) o.
Proof.
  intros N set p o ths E. destruct (encoded_means _ _ _ _ _ E) as (body & e & m & -> & He & _ & M).
  destruct M as (_ & _ & _ & _ & M & _). apply Forall_app. split.
  - eapply only_core_mono; [apply sequins_ok|apply speeds_ok|exact M].
  - constructor; [tauto|constructor].
Qed.

(** ** C27 *)
Theorem C27_trims_after_sewing : forall N (set : settings N) p o ths, transcode N set p = Ok (o, ths) ->
  trims_after_sewing o.
Proof.
  intros N set p o ths E. destruct (encoded_means _ _ _ _ _ E) as (body & e & m & -> & He & R & _).
  apply trims_snoc; [exact He|]. eapply run_trims. exact R.
Qed.

(** ** C28 *)
Theorem C28_sequin_discipline : forall N (set : settings N) p o ths, transcode N set p = Ok (o, ths) ->
  sequin_discipline o.
Proof.
  intros N set p o ths E. destruct (encoded_means _ _ _ _ _ E) as (body & e & m & -> & He & R & _).
  apply sequins_snoc; [exact He|]. eapply run_sequins. exact R.
Qed.

(** ** C25 *)
(** Whatever the arithmetic raises, a missing plan entry is never the reason for a failure. *)
Theorem C25_plan_never_missing : forall N (set : settings N) p,
  (forall a b, fdiv N a b <> Err KeyError) -> (forall a n, fdivz N a n <> Err KeyError) ->
  (forall a, fceil N a <> Err KeyError) -> (forall a, fround N a <> Err KeyError) ->
  transcode N set p <> Err KeyError.
Proof. intros N set p H1 H2 H3 H4. apply transcode_no_key. unfold arith_no_key. auto. Qed.

(** One thread more than colour changes, if anything is sewn. *)
Theorem C25_threads_match_changes : forall N (set : settings N) p o ths, transcode N set p = Ok (o, ths) ->
  requested_change set = COLOR_CHANGE ->
  Forall (fun a => is_cmd TIE_ON a = false /\ is_cmd TIE_OFF a = false) (p_stitches N p) ->
  sews o -> Z.of_nat (length ths) = count_cmd COLOR_CHANGE o + 1.
Proof.
  intros N set p o ths E Hk Ht Hs.
  destruct (transcode_inv N set p o ths E) as (seq & body & e & s1 & m & _ & -> & He & Hi & <- & ->).
  pose proof (i_run _ _ _ _ _ _ _ _ Hi) as R. unfold cmds in R. rewrite requested_ok in R.
  pose proof (run_means _ _ _ _ [] mon0 m (means_nil _ _ _) R) as M. cbn [app] in M.
  destruct M as (_ & _ & M3 & M4 & _).
  rewrite count_app, <- (M4 Hk). clear M4.
  assert (Ce : is_cmd COLOR_CHANGE e = false).
  { unfold is_cmd in *. apply Z.eqb_eq in He. rewrite He. reflexivity. }
  rewrite Ce.
  assert (Any : m_any m = true).
  { apply M3. apply sews_app in Hs. destruct Hs as [Hs|Hs]; [exact Hs|].
    unfold is_cmd in *. apply Z.eqb_eq in He. rewrite He in Hs. destruct Hs; discriminate. }
  assert (Nt : has_ties N (p_stitches N p) = false).
  { destruct (has_ties N (p_stitches N p)) eqn:Et; [|reflexivity]. unfold has_ties in Et.
    apply existsb_exists in Et. destruct Et as (a & Ha & Hb). rewrite Forall_forall in Ht.
    destruct (Ht a Ha) as [X Y]. rewrite X, Y in Hb. discriminate. }
  pose proof (i_any _ _ _ _ _ _ _ _ Hi Nt Any) as Ho.
  destruct (i_plan _ _ _ _ _ _ _ _ Hi) as (chs & L & _ & P1 & _).
  rewrite requested_ok in P1. destruct (P1 Hk) as [T1 C1]. rewrite T1, C1.
  assert (Hb : start_threads N set (p_threads N p) = []).
  { unfold start_threads. rewrite requested_ok, Hk. reflexivity. }
  rewrite Hb. cbn [app]. rewrite !map_length.
  destruct chs as [|c0 chs]; cbn [length tl] in *; lia.
Qed.

(** ** C24 *)
(** Where a source command is sewn: its coordinates under the matrix of the settings, rounded if
    the settings ask for it. *)
Definition sewn_at {N} (set : settings N) (a : stitch (F N)) : res (F N * F N) :=
  let '(x, y) := point_in_matrix_space N (init_matrix N set) (sx a) (sy a) in
  match s_round N set with
  | Some true => do x <- fround N x; do y <- fround N y; Ok (x, y)
  | _ => Ok (x, y)
  end.

Definition has_command {C} (ks : list Z) (a : stitch C) : bool := existsb (fun k => is_cmd k a) ks.
Definition matrix_commands : list Z :=
  [MATRIX_TRANSLATE; MATRIX_SCALE_ORIGIN; MATRIX_ROTATE_ORIGIN; MATRIX_SCALE; MATRIX_ROTATE; MATRIX_RESET].
(** Commands with stitches of their own, or that switch such stitches on. *)
Definition stitching_commands : list Z :=
  [SEW_TO; SEQUIN_EJECT; TIE_ON; TIE_OFF; CONTINGENCY_TIE_ON_THREE_SMALL; CONTINGENCY_TIE_ON_NONE;
   CONTINGENCY_TIE_OFF_THREE_SMALL; CONTINGENCY_TIE_OFF_NONE; CONTINGENCY_LONG_STITCH_NONE;
   CONTINGENCY_LONG_STITCH_JUMP_NEEDLE; CONTINGENCY_LONG_STITCH_SEW_TO].

Lemma classify_matrix : forall k, existsb (fun j => k =? j) matrix_commands = false -> matrix_op (classify k) = false.
Proof.
  intros k H. cbn [existsb matrix_commands] in H. repeat rewrite orb_false_iff in H. unfold classify.
  destruct H as (E1 & E2 & E3 & E4 & E5 & E6 & _). rewrite E1, E2, E3, E4, E5, E6.
  repeat match goal with |- context [if ?p =? ?q then _ else _] => destruct (p =? q); [reflexivity|] end. reflexivity.
Qed.

Lemma classify_plain : forall k, existsb (fun j => k =? j) matrix_commands = false ->
  existsb (fun j => k =? j) stitching_commands = false -> plain_op (classify k) = true.
Proof.
  intros k H G. cbn [existsb matrix_commands] in H. repeat rewrite orb_false_iff in H.
  cbn [existsb stitching_commands] in G. repeat rewrite orb_false_iff in G. unfold classify.
  destruct H as (E1 & E2 & E3 & E4 & E5 & E6 & _). rewrite E1, E2, E3, E4, E5, E6.
  destruct G as (G1 & G2 & G3 & G4 & G5 & G6 & G7 & G8 & G9 & G10 & G11 & _).
  rewrite G1, G2, G3, G4, G5, G6, G7, G8, G9, G10, G11.
  repeat match goal with |- context [if ?p =? ?q then _ else _] => destruct (p =? q); [reflexivity|] end. reflexivity.
Qed.

Lemma points_of_transcode : forall N (set : settings N) p o ths, transcode N set p = Ok (o, ths) ->
  Forall (fun a => has_command matrix_commands a = false) (until_end (p_stitches N p)) ->
  exists qs, Forall2 (fun a q => sewn_at set a = Ok q) (filter sews_src (until_end (p_stitches N p))) qs /\
    subseq qs (needle_points o) /\
    (no_ties N (init_state N set) ->
     Forall (fun a => has_command stitching_commands a = false) (until_end (p_stitches N p)) -> needle_points o = qs).
Proof.
  intros N set p o ths E Hm. rewrite transcode_unfold in E.
  destruct (build_thread_change_sequence _ _ _ _) as [seq|] eqn:Eb; [|discriminate]. cbn [bindr] in E.
  destruct (main_loop _ _ _ _ _ _ _) as [s|] eqn:Em; [|discriminate]. cbn [bindr] in E. injection E as <- <-.
  set (s0 := start N set (p_threads N p)) in *.
  assert (H0 : hi N s0 /\ matrix N s0 = init_matrix N set /\ out N s0 = [] /\
     (no_ties N (init_state N set) -> no_ties N s0)).
  { unfold s0, start. destruct (_ =? _); (split; [reflexivity|]; split; [reflexivity|]; split; [reflexivity|auto]). }
  destruct H0 as (H0 & M0 & O0 & T0).
  assert (Hm' : Forall (fun a => matrix_op (classify (cmd_of (scmd a))) = false) (until_end (p_stitches N p))).
  { eapply Forall_impl; [|exact Hm]. intros a Ha. apply classify_matrix. exact Ha. }
  destruct (main_loop_points _ _ _ _ _ _ _ _ H0 Hm' Em) as (qs & l & Q & P & S & Pl).
  rewrite O0 in P. cbn in P. exists qs. split; [|rewrite P; split; [exact S|]].
  - eapply Forall2_imp; [|exact Q]. intros a q' Hq. unfold placed in Hq. rewrite M0 in Hq. unfold sewn_at.
    destruct (point_in_matrix_space N (init_matrix N set) (sx a) (sy a)) as [x y].
    unfold init_config, get in Hq. cbn [rounding] in Hq. destruct (s_round N set) as [[]|]; exact Hq.
  - intros Nt Hst. apply Pl; [auto|]. apply Forall_forall. intros a Ha.
    rewrite Forall_forall in Hm, Hst. apply classify_plain; [exact (Hm a Ha)|exact (Hst a Ha)].
Qed.

(** Every stitch of the source up to its END is sewn, in order, whatever the other commands. *)
Theorem C24_penetrations_kept : forall N (set : settings N) p o ths, transcode N set p = Ok (o, ths) ->
  Forall (fun a => has_command matrix_commands a = false) (until_end (p_stitches N p)) ->
  exists qs, Forall2 (fun a q => sewn_at set a = Ok q) (filter sews_src (until_end (p_stitches N p))) qs /\
    subseq qs (needle_points o).
Proof.
  intros N set p o ths E Hm. destruct (points_of_transcode N set p o ths E Hm) as (qs & Q & S & _). eauto.
Qed.

(** No tie stitches and no sewn long stitches asked for by the settings. *)
Definition plain_settings {N} (set : settings N) : Prop :=
  (s_tie_on N set = None \/ s_tie_on N set = Some (TieBool false)) /\
  (s_tie_off N set = None \/ s_tie_off N set = Some (TieBool false)) /\
  (s_long_stitch_contingency N set = None \/
   s_long_stitch_contingency N set = Some CONTINGENCY_LONG_STITCH_JUMP_NEEDLE \/
   s_long_stitch_contingency N set = Some CONTINGENCY_LONG_STITCH_NONE).

(** Without lock stitches, sewn gaps and sequins there are no other penetrations. *)
Theorem C24_no_other_penetrations : forall N (set : settings N) p o ths, transcode N set p = Ok (o, ths) ->
  plain_settings set ->
  Forall (fun a => has_command (matrix_commands ++ stitching_commands) a = false) (until_end (p_stitches N p)) ->
  Forall2 (fun a q => sewn_at set a = Ok q) (filter sews_src (until_end (p_stitches N p))) (needle_points o).
Proof.
  intros N set p o ths E (T1 & T2 & T3) Hm.
  assert (D : forall a : stitch (F N), has_command (matrix_commands ++ stitching_commands) a = false ->
     has_command matrix_commands a = false /\ has_command stitching_commands a = false).
  { intros a Ha. unfold has_command in *. rewrite existsb_app in Ha. apply orb_false_iff. exact Ha. }
  destruct (points_of_transcode N set p o ths E) as (qs & Q & _ & P).
  { eapply Forall_impl; [|exact Hm]. intros a Ha. apply D. exact Ha. }
  rewrite P; [exact Q| |].
  - unfold no_ties. cbn [init_state tie_on_contingency tie_off_contingency long_stitch_contingency]. unfold get.
    split; [destruct T1 as [-> | ->]; discriminate|]. split; [destruct T2 as [-> | ->]; discriminate|].
    destruct T3 as [->|[->| ->]]; discriminate.
  - eapply Forall_impl; [|exact Hm]. intros a Ha. apply D. exact Ha.
Qed.

(** ** C26: explicit thread numbers are not always honoured *)
Section Refute26.
Definition no_settings : settings ExNum :=
  mkSettings ExNum None None None None None None None None None None None None None None None None.
Definition q (z : Z) : Q := inject_Z z.
Definition st_at (x y c : Z) : stitch Q := mkS (q x) (q y) c.
Definition with_thread (k t : Z) : Z := encode_thread_change k (Some t) None None.

(** Two leading breaks: the planner counts both, the encoder ignores both. *)
Definition c26_src : list (stitch Q) :=
  [st_at 0 0 (with_thread COLOR_BREAK 5); st_at 0 0 (with_thread COLOR_BREAK 7); st_at 0 0 STITCH;
   st_at 0 0 (with_thread COLOR_BREAK 9); st_at 5 5 STITCH].
End Refute26.

(** The colour change between the two stitches is asked for with thread 9 and emitted with
    thread 7. *)
Theorem C26_explicit_thread_refuted :
  exists o ths,
    transcode ExNum no_settings (mkP ExNum c26_src []) = Ok (o, ths) /\
    map (fun a => Z.land (scmd a) 255) o = [STITCH; COLOR_CHANGE; STITCH; END] /\
    exists a, nth_error o 1 = Some a /\
      decode_embroidery_command (scmd a) = (COLOR_CHANGE, Some 7, Some 2, None).
Proof.
  eexists. eexists. split; [vm_compute; reflexivity|]. split; [vm_compute; reflexivity|].
  eexists. split; [reflexivity|]. vm_compute. reflexivity.
Qed.

(** What holds: if every break has an effect (see EncoderSpec.breaks_effective), the colour
    changes carry exactly the numbers asked for, in order, and the threads of the encoded pattern
    after the first are the ones with these numbers.  Missing: patterns with breaks that have no
    effect. *)
Theorem C26_explicit_thread_partial : forall N (set : settings N) p o ths, transcode N set p = Ok (o, ths) ->
  requested_change set = COLOR_CHANGE ->
  (* every change has a number; sewing, TIE_ON and END have none; no SET_CHANGE_SEQUENCE *)
  Forall (fun a => changes_thread a = true -> thread_number a <> None) (p_stitches N p) ->
  Forall (fun a => has_command [STITCH; NEEDLE_AT; SEW_TO; SEQUIN_EJECT; TIE_ON; END] a = true -> 0 <= scmd a < 256)
    (p_stitches N p) ->
  Forall (fun a => is_cmd SET_CHANGE_SEQUENCE a = false) (p_stitches N p) ->
  breaks_effective false (p_stitches N p) = true ->
  map thread_number (filter (is_cmd COLOR_CHANGE) o) = asked_threads false (p_stitches N p) /\
  map Some (tl ths) = map (option_map (get_thread_or_filler (p_threads N p))) (asked_threads false (p_stitches N p)).
Proof.
  intros N set p o ths E Hk Hn Hp Hs Hb. apply (transcode_threads N set p o ths E); auto.
  - rewrite requested_ok. exact Hk.
  - eapply Forall_impl; [|exact Hp]. intros a Ha.
    assert (X : forall k, In k [STITCH; NEEDLE_AT; SEW_TO; SEQUIN_EJECT; TIE_ON; END] -> plain_cmd N k a).
    { intros k Hin Hc. assert (R : 0 <= scmd a < 256).
      { apply Ha. unfold has_command. apply existsb_exists. exists k. auto. }
      unfold is_cmd in Hc. apply Z.eqb_eq in Hc. rewrite BitLemmas.land_ff, Z.mod_small in Hc by exact R. exact Hc. }
    unfold plain_sewing. repeat (split; [apply X; cbn; tauto|]). apply X. cbn. tauto.
Qed.

Definition c26_good : list (stitch Q) :=
  [st_at 0 0 (with_thread COLOR_BREAK 5); st_at 0 0 STITCH; st_at 0 0 (with_thread COLOR_BREAK 7); st_at 5 5 STITCH;
   st_at 5 5 (with_thread COLOR_CHANGE 2); st_at 9 9 STITCH; st_at 0 0 (with_thread COLOR_BREAK 3); st_at 0 0 END].
Example C26_case : breaks_effective false c26_good = true /\
  asked_threads false c26_good = [Some 7; Some 2] /\
  breaks_effective false c26_src = false /\
  Forall (fun a => changes_thread a = true -> thread_number a <> None) c26_good /\
  Forall (fun a => has_command [STITCH; NEEDLE_AT; SEW_TO; SEQUIN_EJECT; TIE_ON; END] a = true -> 0 <= scmd a < 256)
    c26_good /\
  Forall (fun a => is_cmd SET_CHANGE_SEQUENCE a = false) c26_good /\
  is_ok (transcode ExNum no_settings (mkP ExNum c26_good [])) = true.
Proof.
  split; [reflexivity|]. split; [reflexivity|]. split; [reflexivity|].
  split; [repeat (apply Forall_cons; [vm_compute; intros; discriminate|]); apply Forall_nil|].
  split; [repeat (apply Forall_cons; [vm_compute; intros; first [discriminate|split; [intros; discriminate|reflexivity]]|]); apply Forall_nil|].
  split; [repeat (apply Forall_cons; [reflexivity|]); apply Forall_nil|]. vm_compute. reflexivity.
Qed.

(** ** The hypotheses can be met *)
(** A pattern with a middle-level break, a trim, sequins, speeds, an END and commands after it. *)
Definition ex_src : list (stitch Q) :=
  [st_at 0 0 SLOW; st_at 10 0 STITCH; st_at 300 20 STITCH; st_at 300 40 SEQUIN_EJECT; st_at 350 40 JUMP;
   st_at 300 40 TRIM; st_at 20 0 COLOR_BREAK; st_at 20 5 STITCH; st_at 20 9 STITCH; st_at 0 0 END; st_at 7 7 STITCH].
Definition ex_settings : settings ExNum :=
  mkSettings ExNum (Some (Fin ExNum (q 121))) (Some (Fin ExNum (q 121))) None (Some true) None None (Some false)
    None None (Some true) None (Some (TieBool true)) None None None None.
Definition cmds_of (r : res (list (stitch Q) * list tref)) : option (list Z) :=
  match r with Ok (o, _) => Some (map (fun a => Z.land (scmd a) 255) o) | Err _ => None end.

Example ex_encoded : cmds_of (transcode ExNum ex_settings (mkP ExNum ex_src [])) =
  Some [SLOW; STITCH; JUMP; JUMP; STITCH; SEQUIN_MODE; SEQUIN_EJECT; SEQUIN_MODE; JUMP; TRIM; COLOR_CHANGE;
        JUMP; JUMP; STITCH; STITCH; END].
Proof. vm_compute. reflexivity. Qed.

Example ex_hypotheses : exists o ths,
  transcode ExNum ex_settings (mkP ExNum ex_src []) = Ok (o, ths) /\
  requested_change ex_settings = COLOR_CHANGE /\
  Forall (fun a => is_cmd TIE_ON a = false /\ is_cmd TIE_OFF a = false) ex_src /\ sews o /\
  length ths = 2%nat /\ sequins_requested ex_settings ex_src /\ speeds_requested ex_settings.
Proof.
  eexists. eexists. split; [vm_compute; reflexivity|]. split; [reflexivity|].
  split; [repeat (constructor; [split; reflexivity|]); constructor|].
  split; [right; left; left; reflexivity|]. split; [reflexivity|]. split; [right; left; auto|discriminate].
Qed.

Example ex_points :
  plain_settings no_settings /\
  Forall (fun a => has_command (matrix_commands ++ stitching_commands) a = false) (until_end c26_good) /\
  Forall (fun a => has_command matrix_commands a = false) (until_end ex_src) /\
  length (filter sews_src (until_end c26_good)) = 3%nat /\ length (filter sews_src (until_end ex_src)) = 4%nat.
Proof.
  split; [repeat split; left; reflexivity|].
  split; [repeat (apply Forall_cons; [reflexivity|]); apply Forall_nil|].
  split; [repeat (apply Forall_cons; [reflexivity|]); apply Forall_nil|]. split; reflexivity.
Qed.

Example ex_arith : (forall a b, fdiv ExNum a b <> Err KeyError) /\ (forall a n, fdivz ExNum a n <> Err KeyError) /\
  (forall a, fceil ExNum a <> Err KeyError) /\ (forall a, fround ExNum a <> Err KeyError).
Proof.
  split; [|split; [|split]]; try discriminate; intros a b; cbn; unfold q_div; destruct (Qeq_bool _ _); discriminate.
Qed.

Print Assumptions C22_single_end.
Print Assumptions C23_core_commands.
Print Assumptions C24_penetrations_kept.
Print Assumptions C24_no_other_penetrations.
Print Assumptions C25_plan_never_missing.
Print Assumptions C25_threads_match_changes.
Print Assumptions C26_explicit_thread_refuted.
Print Assumptions C26_explicit_thread_partial.
Print Assumptions C27_trims_after_sewing.
Print Assumptions C28_sequin_discipline.
