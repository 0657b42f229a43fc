(** C236: the work of a design in a VP3 file. *)
From Coq Require Import ZArith List Bool Lia QArith Qabs Lqa.
From Verif Require Import PyBase EmbConst FunctionsModel ThreadModel NumModel NumQ MatrixModel PatternModel EncoderModel
  JefSpec EncoderProofs EncoderSpec EncoderColorSpec DstFileModel Vp3Model Vp3Spec Vp3Proofs Vp3AnyProofs Vp3QModel Vp3QSpec Vp3QProofs Vp3QIntProofs
  PropertiesEncoder SettingsModel PropertiesSettings PropertiesPipeline PropertiesFidelity PropertiesColor FrameSpec PropertiesFrame PropertiesVp3 PropertiesVp3Q
  PropertiesWork PropertiesWorkFile.
Import ListNotations.
Open Scope Z_scope.

Definition kept_in_vp3 (k : Z) : bool := (k =? STITCH) || (k =? TRIM) || (k =? COLOR_CHANGE).
(** The commands a VP3 file keeps, with a cut for the end. *)
Fixpoint vp3_work {C} (l : list (stitch C)) : list Z :=
  match l with
  | [] => []
  | s :: r => if cmd_of (scmd s) =? END then [TRIM] else when (kept_in_vp3 (cmd_of (scmd s))) (cmd_of (scmd s)) ++ vp3_work r
  end.

Lemma work_jump_near ux uy x y : work (jump_near ux uy x y) = [].
Proof. unfold jump_near. destruct (off_axes _ _); reflexivity. Qed.
Lemma work_any_view ux uy l : forall ex ey px py, work (any_view ux uy ex ey px py l) = vp3_work l.
Proof.
  induction l as [|s l IH]; intros ex ey px py; [reflexivity|]. cbn [any_view vp3_work]. unfold kept_in_vp3.
  destruct (Z.eqb_spec (cmd_of (scmd s)) STITCH) as [E1|N1]; [rewrite E1, work_cons, IH; reflexivity|].
  destruct (Z.eqb_spec (cmd_of (scmd s)) TRIM) as [E2|N2]; [rewrite E2, work_cons, IH; reflexivity|].
  destruct (Z.eqb_spec (cmd_of (scmd s)) END) as [E3|N3]; [reflexivity|].
  destruct (Z.eqb_spec (cmd_of (scmd s)) COLOR_CHANGE) as [E4|N4]; [|apply IH].
  rewrite E4, work_cons, work_app, work_jump_near. cbv zeta. rewrite IH. reflexivity.
Qed.
Lemma work_hundredths l : work (in_hundredths l) = work l.
Proof. unfold work, in_hundredths. rewrite map_map. reflexivity. Qed.
Lemma vp3_work_steps l : forall lx ly ax ay ex ey (rest : list (stitch Z)), Forall (fun s => cmd_of (scmd s) <> END) l ->
  vp3_work (steps_q lx ly ax ay ex ey l ++ rest) = vp3_work l ++ vp3_work rest.
Proof.
  induction l as [|s l IH]; intros lx ly ax ay ex ey rest H; [reflexivity|]. inversion H as [|? ? Hs Hl]; subst. cbn [steps_q vp3_work]. apply Z.eqb_neq in Hs. rewrite Hs.
  destruct (cmd_of (scmd s) =? STITCH) eqn:E; cbv zeta; cbn [app vp3_work scmd]; rewrite Hs, IH by exact Hl; rewrite app_assoc; reflexivity.
Qed.
Lemma vp3_work_ended l : forall lx ly ax ay ex ey, vp3_commands l -> vp3_work (steps_q lx ly ax ay ex ey l) = vp3_work l.
Proof.
  induction l as [|s l IH]; intros lx ly ax ay ex ey H; [reflexivity|]. cbn [steps_q vp3_work]. cbn [vp3_commands] in H.
  destruct (cmd_of (scmd s) =? END) eqn:Ee; [cbn [vp3_work scmd]; rewrite Ee; reflexivity|].
  destruct H as [[_ Hl]|[K _]]; [|rewrite K in Ee; discriminate].
  destruct (cmd_of (scmd s) =? STITCH) eqn:E; cbv zeta; cbn [app vp3_work scmd]; rewrite Ee, IH by exact Hl; reflexivity.
Qed.
Lemma plain_no_end (l : list (stitch Q)) : plain_commands l -> Forall (fun s => cmd_of (scmd s) <> END) l.
Proof.
  unfold plain_commands. intros H. eapply Forall_impl; [|exact H]. intros a Ha Ka. unfold vp3_command in Ha. rewrite Ka in Ha. cbn [In] in Ha.
  repeat (destruct Ha as [Ha|Ha]; [discriminate Ha|]). exact Ha.
Qed.
Lemma vp3_work_app C (a b : list (stitch C)) : Forall (fun s => cmd_of (scmd s) <> END) a -> vp3_work (a ++ b) = vp3_work a ++ vp3_work b.
Proof. induction 1 as [|s l Hs _ IH]; [reflexivity|]. cbn [app vp3_work]. apply Z.eqb_neq in Hs. rewrite Hs, IH. apply app_assoc. Qed.
Lemma vp3_work_blocks cx cy T (get : Z -> T) bs : forall i first, shape get i first bs ->
  vp3_work (concat (map fst (cut_blocks cx cy first bs))) = vp3_work (concat (map fst bs)).
Proof.
  induction bs as [|[b t] r IH]; intros i first H; [reflexivity|]. cbn [shape] in H. destruct H as (_ & _ & _ & Hc & Hp & Hr). cbn [cut_blocks map fst concat].
  destruct Hp as [-> | Hp].
  - cbn [cut_blocks map concat]. rewrite !app_nil_r. unfold cut_block. apply vp3_work_ended. exact Hc.
  - unfold cut_block. rewrite vp3_work_steps, vp3_work_app by (apply plain_no_end; exact Hp). rewrite (IH _ _ Hr). reflexivity.
Qed.
(** For a design that ends once, the commands kept are those of its work, less stops, with a cut at the end. *)
Lemma vp3_work_of_work (body : list (stitch Q)) e : cmd_of (scmd e) = END -> Forall (fun s => cmd_of (scmd s) <> END) body ->
  vp3_work (body ++ [e]) = filter kept_in_vp3 (work (body ++ [e])) ++ [TRIM].
Proof.
  intros He Hb. rewrite vp3_work_app by exact Hb. cbn [vp3_work]. rewrite He. change (END =? END) with true. cbn iota. f_equal. rewrite work_app, work_cons, He. change (is_work END) with false.
  cbn [when app]. change (work (@nil (stitch Q))) with (@nil Z). rewrite app_nil_r. induction Hb as [|s l Hs _ IH]; [reflexivity|].
  cbn [vp3_work]. apply Z.eqb_neq in Hs. rewrite Hs, work_cons, filter_app, IH. f_equal. destruct (kept_in_vp3 (cmd_of (scmd s))) eqn:K.
  - assert (W : is_work (cmd_of (scmd s)) = true).
    { unfold kept_in_vp3 in K. unfold is_work, work_commands, existsb. apply orb_true_iff in K as [K|K]; [apply orb_true_iff in K as [K|K]|]; rewrite K; rewrite ?orb_true_r; reflexivity. }
    rewrite W. cbn [when filter]. rewrite K. reflexivity.
  - destruct (is_work _); [|reflexivity]. cbn [when filter]. rewrite K. reflexivity.
Qed.

Section WorkVp3.
Variables (qcos qsin : Q -> Q) (qorient : Q -> Q -> Q -> Q -> Q -> Q * Q).
Notation N := (QNum qcos qsin qorient).
Hypothesis (Hdir : direction_between qorient).

(** Saved as VP3 and loaded: between the stitches (C184), in order, the cuts and colour changes the design asks for,
    without its stops, and one more cut at the end. *)
Theorem C236_vp3 : forall set src threads out ths look filler,
  vp3_source qcos qsin qorient set src -> transcode N set (mkP N src threads) = Ok (out, ths) ->
  Z.of_nat (threads_taken None src) < 65535 ->
  (forall t, plain_texts (look t)) -> (forall i, plain_texts (filler i)) ->
  plain_settings set -> Forall (fun a => has_command left_out a = false) (until_end src) -> breaks_clear src ->
  exists file, vp3_write_q filler out (map look ths) = Ok file /\
    (Z.of_nat (List.length file) < 2 ^ 32 ->
     exists l read, vp3_read file = Ok (l, read) /\
       work l = filter kept_in_vp3
         (all_asked COLOR_CHANGE true (mkAsk (match s_explicit_trim N set with Some b => b | None => false end) false false) (until_end src)) ++ [TRIM]).
Proof.
  intros set src threads out ths look filler V E Hn Hl Hf Hp Hlo Hbr.
  assert (Hm : Forall (fun a => has_command matrix_commands a = false) (until_end src)).
  { apply Forall_forall. intros a Ia. pose proof (vs_plain _ _ _ _ _ V) as P. rewrite Forall_forall in P.
    destruct (P a (until_end_in _ _ Ia)) as [T _]. unfold transforms in T. unfold has_command, matrix_commands. cbn [existsb].
    unfold is_cmd. apply not_true_is_false. intros X. rewrite !orb_true_iff, !Z.eqb_eq in X. apply T. cbn [In].
    repeat (destruct X as [X|X]; [rewrite X; tauto|]). discriminate X. }
  destruct (colours_of_transcode N set _ out ths E (vs_change _ _ _ _ _ V) Hm (vs_bare _ _ _ _ _ V) (vs_sequence _ _ _ _ _ V) (vs_numbers _ _ _ _ _ V))
    as (Lt & Cc & _). cbn [p_stitches p_threads] in *.
  destruct (C22_single_end N set _ out ths E) as (body & e & Eo & He & Hb).
  assert (Hc : vp3_commands out).
  { assert (Ws := E). rewrite <- (transcode_speeds N false set (mkP N src threads) (vs_speeds _ _ _ _ _ V)) in Ws.
    pose proof (C23_core_commands N _ _ _ _ Ws) as K. apply (core_commands out (sequins_requested (with_speeds N false set) src)); [exists body, e; auto|].
    eapply Forall_impl; [|exact K]. intros a. change (requested_change (with_speeds N false set)) with (requested_change set). rewrite (vs_change _ _ _ _ _ V). cbn beta.
    intros Ha. repeat (destruct Ha as [Ha|Ha]; [tauto|]). right; right; right; right; right; right; right; right.
    destruct Ha as [Ha Sp]. split; [exact Ha|]. apply Sp. reflexivity. }
  assert (Hi : in_field out).
  { eapply Forall_impl; [|exact (C160_stays_in_frame qcos qsin qorient Hdir set (mkP N src threads) out ths field (vs_length _ _ _ _ _ V) (vs_plain _ _ _ _ _ V) (vs_field _ _ _ _ _ V) E)].
    intros a (X1 & X2 & Y1 & Y2). change (inject_Z (left_ (with_origin field))) with (-16000 # 1)%Q in X1. change (inject_Z (right_ (with_origin field))) with (16000 # 1)%Q in X2.
    change (inject_Z (top_ (with_origin field))) with (-16000 # 1)%Q in Y1. change (inject_Z (bottom_ (with_origin field))) with (16000 # 1)%Q in Y2.
    split; apply Qabs_Qle_condition; split; lra. }
  pose proof (C229_work N set (mkP N src threads) out ths E Hp ltac:(rewrite (vs_change _ _ _ _ _ V); left; reflexivity) Hlo Hbr) as Wa. rewrite (vs_change _ _ _ _ _ V) in Wa. cbn [p_stitches] in Wa.
  rewrite asked_without_speeds in Wa; [|apply Forall_forall; intros a Ha; pose proof (vs_speeds _ _ _ _ _ V) as S0; unfold no_speeds in S0; rewrite Forall_forall in S0; apply S0; exact (until_end_in _ _ Ha)].
  change (NumModel.F N) with Q in *. assert (Hcc : color_changes out = pred (List.length ths)) by exact Cc.
  assert (Hne : out <> []) by (rewrite Eo; destruct body; discriminate).
  destruct (vp3_roundtrip_q filler (map look ths) out Hne Hc Hi ltac:(rewrite Hcc, Lt; lia)) as (file & cx & cy & bs & W & Eb & R).
  { apply Forall_forall. intros t It. apply in_map_iff in It. destruct It as (u & <- & _). apply Hl. }
  { exact Hf. }
  exists file. split; [exact W|]. intros L. specialize (R L). do 2 eexists. split; [exact R|].
  rewrite work_hundredths, work_any_view.
  set (get := PatternModel.get_thread_or_filler filler (fix_color_count filler out (map look ths))) in *.
  destruct (blocks_shape get out 0 [] true) as [Sh Cat]; [exact I|constructor|exact Hc|]. cbn [app] in Cat. rewrite <- Eb in Sh, Cat.
  rewrite (vp3_work_blocks cx cy _ get bs 0 true Sh), Cat, Eo, vp3_work_of_work, <- Eo, Wa.
  - reflexivity.
  - apply Z.eqb_eq. exact He.
  - eapply Forall_impl; [|exact Hb]. intros a Ha. apply Z.eqb_neq. exact Ha.
Qed.
End WorkVp3.
Print Assumptions C236_vp3.

(** The design of C184, with a colour break, a trim and a colour change, meets the conditions. *)
Example C236_case : direction_between between_orient /\ vp3_source ex_cos ex_sin between_orient vp3_defaults c184_source /\
  plain_settings vp3_defaults /\ Forall (fun a => has_command left_out a = false) (until_end c184_source) /\ breaks_clear c184_source /\
  match save_load c184_source C18_threads with
  | Ok l => work l = [STITCH; STITCH; COLOR_CHANGE; STITCH; STITCH; TRIM; COLOR_CHANGE; STITCH; TRIM]
  | Err _ => False end.
Proof.
  destruct C184_case as (A & B & C & _ & _). split; [exact A|]. split; [exact B|]. split; [exact C|]. split; [|split].
  - repeat (constructor; [reflexivity|]); constructor.
  - left. repeat constructor.
  - vm_compute. reflexivity.
Qed.
