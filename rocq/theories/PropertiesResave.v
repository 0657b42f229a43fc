(** Properties C162 and C163: saving a loaded file again. *)
From Coq Require Import ZArith QArith Qabs List Bool Lia Lqa.
From Verif Require Import PyBase EmbConst StreamModel StreamSpec StreamProofs FunctionsModel ThreadModel NumModel NumQ
  MatrixModel EncoderModel EncoderProofs EncoderSpec MetricSpec EncoderMetricProofs QuantModel QuantProofs
  DstFileModel ExpModel EightBitProofs PropertiesEncoder SettingsModel PropertiesSettings PropertiesPipeline PropertiesFidelity PropertiesBlockFiles
  ConvertSpec PropertiesConvert ResaveSpec EncoderSettleProofs EncoderAgainProofs.
Import ListNotations.
Open Scope Z_scope.

(** ** Rounding keeps a design settled *)
Lemma settles_written : forall l cut x y xx yy, settles Qeq cut x y l -> near x xx -> near y yy ->
  settles eq cut xx yy (apply_rel xx yy (quantise qz_q xx yy l)).
Proof.
  induction l as [|a l IH]; intros cut x y xx yy H Nx Ny; [exact I|].
  cbn [quantise apply_rel settles sx sy scmd] in *. destruct H as (A & B & D). split.
  - intros E1 E2. destruct (A E1 E2) as [Ex Ey]. rewrite (near_stay _ _ Nx _ Ex), (near_stay _ _ Ny _ Ey). lia.
  - split; [exact B|]. apply (IH _ (sx a) (sy a)); [exact D|apply near_next|apply near_next].
Qed.

Lemma Forall2_impl' {A B} (P R : A -> B -> Prop) : (forall a b, P a b -> R a b) -> forall l m, Forall2 P l m -> Forall2 R l m.
Proof. intros H l m F. induction F; constructor; auto. Qed.
Lemma qz_q_int : forall x z, qz_q (inject_Z x) z = qz_int x z.
Proof. intros x z. unfold qz_q, qz_int. apply q_round_int. unfold Z.sub. rewrite inject_Z_plus, inject_Z_opp. reflexivity. Qed.

(** EXP stores a stop as a colour change. *)
Definition exp_code (c : Z) : Z := if cmd_of c =? STOP then COLOR_CHANGE else cmd_of c.
Definition exp_command (a : stitch Z) : stitch Z := mkS (sx a) (sy a) (exp_code (scmd a)).
Definition plain6 (a : stitch Z) : Prop := In (cmd_of (scmd a)) [STITCH; JUMP; TRIM; STOP; END; COLOR_CHANGE].

Lemma cut_exp : forall cut c, cut_by cut (exp_code c) = cut_by cut c.
Proof.
  intros cut c. unfold cut_by at 1. unfold exp_code. destruct (Z.eqb_spec (cmd_of c) STOP) as [e|_].
  - unfold cut_by. rewrite e. reflexivity.
  - replace (cmd_of (cmd_of c)) with (cmd_of c); [reflexivity|]. unfold cmd_of. rewrite <- Z.land_assoc. reflexivity.
Qed.
Lemma cmd_exp : forall c, cmd_of (exp_code c) = if cmd_of c =? STOP then COLOR_CHANGE else cmd_of c.
Proof.
  intros c. unfold exp_code. destruct (_ =? _); [reflexivity|]. unfold cmd_of. rewrite <- Z.land_assoc. reflexivity.
Qed.
Lemma settles_exp : forall l cut px py, settles eq cut px py l -> settles eq cut px py (map exp_command l).
Proof.
  induction l as [|a l IH]; intros cut px py H; [exact I|]. cbn [map settles exp_command sx sy scmd] in *. destruct H as (A & B & D).
  rewrite cmd_exp, cut_exp. split; [|split; [|apply IH; exact D]].
  - intros E. destruct (Z.eqb_spec (cmd_of (scmd a)) STOP); [discriminate|]. exact (A E).
  - intros E. destruct (Z.eqb_spec (cmd_of (scmd a)) STOP); [discriminate|]. exact (B E).
Qed.
Lemma iwalk_exp : forall m l px py, iwalk m px py l -> Forall plain6 l ->
  representable m [STITCH; JUMP] [TRIM; COLOR_CHANGE; STOP; END] px py (map exp_command l).
Proof.
  intros m l px py W H. pose proof (iwalk_representable m l px py W H) as R. clear W H. revert px py R.
  induction l as [|a l IH]; intros px py R; [exact I|]. cbn [map representable exp_command sx sy scmd] in *. destruct R as [R1 R2].
  split; [|apply IH; exact R2]. rewrite cmd_exp. destruct (Z.eqb_spec (cmd_of (scmd a)) STOP) as [e|_]; [|exact R1].
  rewrite e in R1. destruct R1 as [[R1 _]|[_ R1]]; [cbn in R1; intuition discriminate|]. right. split; [right; left; reflexivity|exact R1].
Qed.
(** What the reader returns for the file of a list that ends with its only END. *)
Lemma closed_exp : forall body e px py, Forall plain6 body -> Forall (fun a => cmd_of (scmd a) <> END) body -> cmd_of (scmd e) = END ->
  representable 127 [STITCH; JUMP] [TRIM; COLOR_CHANGE; STOP; END] px py (map exp_command (body ++ [e])) ->
  renamed (as_color_change [END]) (body ++ [e]) = map exp_command body /\
  needle_after px py (map exp_command body) = (sx e, sy e).
Proof.
  induction body as [|a body IH]; intros e px py H1 H2 He R.
  - cbn [app map renamed needle_after representable exp_command sx sy scmd] in *. unfold as_color_change. rewrite He. cbn [existsb]. rewrite Z.eqb_refl.
    split; [reflexivity|]. rewrite cmd_exp, He in R. destruct R as [[[R _]|[_ [R1 R2]]] _]; [cbn in R; intuition discriminate|]. congruence.
  - apply Forall_cons_iff in H1, H2. destruct H1 as [Ha H1], H2 as [Hn H2]. cbn [app map renamed needle_after representable exp_command sx sy scmd] in *.
    destruct R as [_ R]. destruct (IH e _ _ H1 H2 He R) as [A B]. split; [|exact B]. unfold as_color_change at 1. cbn [existsb].
    destruct (Z.eqb_spec (cmd_of (scmd a)) END) as [E|_]; [contradiction|]. cbn [orb]. rewrite A.
    change (exp_command a) with (mkS (sx a) (sy a) (exp_code (scmd a))). unfold exp_code. destruct (_ =? STOP); reflexivity.
Qed.
(** The writer looks at the kind of a command only, and writes stops as colour changes. *)
Lemma emit_exp : forall a b : rel, sx a = sx b -> sy a = sy b -> exp_code (scmd a) = exp_code (scmd b) -> exp_emit a = exp_emit b.
Proof.
  intros a b Hx Hy Hc. unfold exp_emit. rewrite Hx, Hy. unfold exp_code in Hc.
  destruct (Z.eqb_spec (cmd_of (scmd a)) STOP) as [e|e], (Z.eqb_spec (cmd_of (scmd b)) STOP) as [e'|e'].
  - rewrite e, e'. reflexivity.
  - rewrite e, <- Hc. reflexivity.
  - rewrite e', Hc. reflexivity.
  - rewrite Hc. reflexivity.
Qed.
Lemma write_exp : forall A B (qa : A -> Z -> Z) (qb : B -> Z -> Z) la lb xx yy,
  Forall2 (fun (a : stitch A) (b : stitch B) => (forall z, qa (sx a) z = qb (sx b) z) /\ (forall z, qa (sy a) z = qb (sy b) z) /\
    exp_code (scmd a) = exp_code (scmd b)) la lb ->
  flat_map exp_emit (quantise qa xx yy la) = flat_map exp_emit (quantise qb xx yy lb).
Proof.
  intros A B qa qb la lb xx yy H. revert xx yy. induction H as [|a b la lb (H1 & H2 & H3) _ IH]; intros xx yy; [reflexivity|].
  cbn [quantise flat_map]. rewrite H1, H2. rewrite IH. f_equal. apply emit_exp; [reflexivity|reflexivity|exact H3].
Qed.

Section Resave.
Variables (qcos qsin : Q -> Q) (qorient : Q -> Q -> Q -> Q -> Q -> Q * Q).
Notation N := (QNum qcos qsin qorient).
Hypothesis (Hturn : forall t, ~ (qcos t * qcos t + qsin t * qsin t == 0)%Q) (Hdir : direction_bounded qorient).
Notation settings_fit := (settings_fit qcos qsin qorient).
Notation resaving := (resaving qcos qsin qorient).
Notation loaded := (loaded qcos qsin qorient).

(** ** C162 *)
(** A steady design with steps the settings allow: encoding it gives the same commands at the
    same positions. *)
Theorem C162_encoded_again : forall m (set : settings N) l threads, 0 < m -> resaving m set -> s_needle_count N set <> Some 0 ->
  steady m l -> sewn_first l ->
  exists out ths, transcode N set (loaded (map of_int l) threads) = Ok (out, ths) /\ same_commands out l.
Proof.
  intros m set l threads Hm R Hn S Hf.
  assert (G : forall o : option (limit N), allows qcos qsin qorient m (get o (Inf N)) -> length_positive qcos qsin qorient o).
  { intros [[v|]|] H; cbn [get allows length_positive] in *; [|exact I|exact I]. rewrite Zlt_Qlt in Hm. change (inject_Z 0) with 0%Q in Hm. change (F N) with Q in *. lra. }
  destruct (C115_encode_total qcos qsin qorient Hturn set (loaded (map of_int l) threads)) as (out & ths & E).
  - apply G, (r_ms _ _ _ _ _ R).
  - apply G, (r_mj _ _ _ _ _ R).
  - destruct (r_plain _ _ _ _ _ R) as (_ & -> & _). exact I.
  - exact Hn.
  - cbn [p_stitches loaded]. destruct S as ((body & e & -> & He & Hb) & _). rewrite Forall_forall. intros a Ia.
    assert (X : has_command [OPTION_MAX_JUMP_LENGTH; OPTION_MAX_STITCH_LENGTH] a = false /\ has_command [MATRIX_SCALE; MATRIX_SCALE_ORIGIN] a = false).
    { apply until_end_in in Ia. apply in_map_iff in Ia. destruct Ia as (b & <- & Ib). apply in_app_iff in Ib.
      assert (Y : In (scmd b) [STITCH; JUMP; TRIM; COLOR_CHANGE; STOP; END]).
      { destruct Ib as [Ib|[<-|[]]]; [|rewrite He; cbn; tauto]. rewrite Forall_forall in Hb. specialize (Hb b Ib). cbn [In] in *. tauto. }
      unfold has_command, is_cmd. cbn [of_int scmd existsb]. cbn [In] in Y.
      destruct Y as [Y|[Y|[Y|[Y|[Y|[Y|[]]]]]]]; rewrite <- Y; split; reflexivity. }
    destruct X as [X1 X2]. split; intros K; congruence.
  - exists out, ths. split; [exact E|]. exact (encoded_again qcos qsin qorient m set l threads out ths R S Hf E).
Qed.

(** What is loaded from an EXP file that was written from an encoded design. *)
Lemma exp_loaded_steady : forall (set : settings N) (p : pattern N) out threads,
  settings_fit 127 set -> s_full_jump N set = Some true -> source_fits 127 (p_stitches N p) ->
  no_speeds (p_stitches N p) -> requested_change set <> NEEDLE_SET -> ~ sequins_requested set (p_stitches N p) ->
  Forall (fun a => is_cmd TIE_ON a = false /\ is_cmd TIE_OFF a = false) (p_stitches N p) ->
  transcode N set p = Ok (out, threads) ->
  exp_read (exp_write qz_q out) = map exp_command (written out) /\ steady 127 (map exp_command (written out)).
Proof.
  intros set p out threads Hf Hj Hs Hq Hc Hr Ht E.
  destruct (encoded_written qcos qsin qorient Hdir 127 set p out threads) as (W & C & _); try assumption; [lia|].
  assert (Hp : Forall plain6 (written out)).
  { eapply Forall_impl; [|exact C]. intros a [Ha|[_ Ha]]; [exact Ha|contradiction]. }
  pose proof (iwalk_exp 127 _ 0 0 W Hp) as R.
  assert (S : settles eq true 0 0 (map exp_command (written out))).
  { apply settles_exp. unfold written. apply (settles_written out true 0%Q 0%Q).
    - refine (transcode_settles qcos qsin qorient set p out threads E Hj _ _); [apply Hf|].
      eapply Forall_impl; [|exact Ht]. intros a [H1 H2]. unfold is_cmd in *.
      change (Z.land (scmd a) 255) with (cmd_of (scmd a)) in *. split; intros K; rewrite K in *; discriminate.
    - split; [vm_compute; split; discriminate|intros _; reflexivity].
    - split; [vm_compute; split; discriminate|intros _; reflexivity]. }
  pose proof (C20_exp qcos qsin qorient set p out threads Hdir Hf Hs Hq Hc Hr E) as V.
  assert (O : PecFileSpec.ends_once (written out)).
  { apply PecFileProofs.ends_written. destruct (C22_single_end N set p out threads E) as (b & e & -> & He & Hb).
    exists b, e. split; [reflexivity|]. split; [apply Z.eqb_eq; exact He|]. eapply Forall_impl; [|exact Hb]. intros a Ha. apply Z.eqb_neq. exact Ha. }
  destruct O as (body & e & O & He & Hb). rewrite O in *.
  destruct (closed_exp body e 0 0) as [V1 V2]; [apply Forall_app in Hp; apply Hp|exact Hb|exact He|exact R|].
  assert (Z1 : map exp_command (body ++ [e]) = map exp_command body ++ [mkS (sx e) (sy e) END]).
  { rewrite map_app. cbn [map]. unfold exp_command at 2, exp_code. rewrite He. reflexivity. }
  split.
  - rewrite V, V1. unfold closed. rewrite V2. symmetry. exact Z1.
  - split; [|split; [exact R|exact S]]. exists (map exp_command body), (mkS (sx e) (sy e) END). split; [exact Z1|]. split; [reflexivity|].
    apply Forall_app in Hp. destruct Hp as [Hp _]. apply Forall_map. rewrite Forall_forall in *. intros a Ia. specialize (Hp a Ia). specialize (Hb a Ia).
    unfold plain6 in Hp. cbn [exp_command scmd]. unfold exp_code. cbn [In] in *.
    destruct Hp as [K|[K|[K|[K|[K|[K|[]]]]]]]; rewrite <- K in *; cbn; tauto.
Qed.

(** A design is saved as EXP; the file is loaded and saved as EXP: the second file is the first
    one, byte for byte. *)
Theorem C162_exp_resaved : forall (set set' : settings N) (p : pattern N) out threads,
  settings_fit 127 set -> s_full_jump N set = Some true -> source_fits 127 (p_stitches N p) ->
  no_speeds (p_stitches N p) -> requested_change set <> NEEDLE_SET -> ~ sequins_requested set (p_stitches N p) ->
  Forall (fun a => is_cmd TIE_ON a = false /\ is_cmd TIE_OFF a = false) (p_stitches N p) ->
  transcode N set p = Ok (out, threads) ->
  let file := exp_write qz_q out in
  sewn_first (exp_read file) -> resaving 127 set' -> s_needle_count N set' <> Some 0 ->
  exists out' threads', transcode N set' (loaded (map of_int (exp_read file)) []) = Ok (out', threads') /\ exp_write qz_q out' = file.
Proof.
  intros set set' p out threads Hf Hj Hs Hq Hc Hr Ht E file Sf R Hn.
  destruct (exp_loaded_steady set p out threads Hf Hj Hs Hq Hc Hr Ht E) as [V S].
  unfold file in *. rewrite V in *.
  destruct (C162_encoded_again 127 set' _ [] ltac:(lia) R Hn S Sf) as (out' & ths' & E' & K).
  exists out', ths'. split; [exact E'|]. unfold exp_write.
  transitivity (flat_map exp_emit (quantise qz_int 0 0 (map exp_command (written out)))).
  - apply write_exp. eapply Forall2_impl'; [|exact K]. intros a b (H1 & H2 & H3). rewrite H1, H2. unfold exp_code. rewrite H3.
    split; [|split; [|reflexivity]]; intros z; apply qz_q_int.
  - rewrite <- (quantise_snap Q qz_q out 0 0). apply write_exp. unfold written.
    induction (apply_rel 0 0 (quantise qz_q 0 0 out)) as [|a l IH]; [constructor|]. constructor; [|exact IH].
    split; [reflexivity|]. split; [reflexivity|]. unfold exp_code at 1. cbn [exp_command scmd]. rewrite cmd_exp. unfold exp_code.
    destruct (cmd_of (scmd a) =? STOP) eqn:Ec; [reflexivity|]. rewrite Ec. reflexivity.
Qed.
End Resave.

(** ** Writing without settings of the caller *)
Section Defaults.
Variables (qcos qsin : Q -> Q) (qorient : Q -> Q -> Q -> Q -> Q -> Q * Q).
Notation N := (QNum qcos qsin qorient).
Definition exp_settings : settings N := for_format qcos qsin qorient (exp_attributes N inject_Z) [].
Lemma exp_defaults : settings_fit qcos qsin qorient 127 exp_settings /\ s_full_jump N exp_settings = Some true /\
  requested_change exp_settings <> NEEDLE_SET /\ resaving qcos qsin qorient 127 exp_settings /\ s_needle_count N exp_settings <> Some 0.
Proof.
  destruct (C148_default_settings qcos qsin qorient []) as (_ & ([F _ _ _] & _) & _); [repeat constructor|repeat constructor|].
  split; [exact F|]. split; [reflexivity|]. split; [discriminate|]. split; [|discriminate].
  constructor; try reflexivity; try (left; reflexivity); try (apply Qle_refl).
  split; [reflexivity|]. split; reflexivity.
Qed.

(** A pattern whose commands ask for no ties, sequins, speeds or lengths: saved as EXP with the
    settings of the format, loaded and saved again. *)
Theorem C162_exp_plain : (forall t, ~ (qcos t * qcos t + qsin t * qsin t == 0)%Q) -> direction_bounded qorient -> forall p : pattern N,
  Forall (fun a => has_command [TIE_ON; TIE_OFF; CONTINGENCY_SEQUIN_UTILIZE; SLOW; FAST; OPTION_MAX_JUMP_LENGTH;
    OPTION_MAX_STITCH_LENGTH; CONTINGENCY_LONG_STITCH_NONE] a = false) (p_stitches N p) ->
  forall out threads, transcode N exp_settings p = Ok (out, threads) ->
  sewn_first (exp_read (exp_write qz_q out)) ->
  exists out' threads', transcode N exp_settings (loaded qcos qsin qorient (map of_int (exp_read (exp_write qz_q out))) []) = Ok (out', threads') /\
    exp_write qz_q out' = exp_write qz_q out.
Proof.
  intros Ht Hd p H out threads E Sf. destruct exp_defaults as (D1 & D2 & D3 & D4 & D5).
  assert (G : forall P : stitch Q -> Prop, (forall a, has_command [TIE_ON; TIE_OFF; CONTINGENCY_SEQUIN_UTILIZE; SLOW; FAST; OPTION_MAX_JUMP_LENGTH;
    OPTION_MAX_STITCH_LENGTH; CONTINGENCY_LONG_STITCH_NONE] a = false -> P a) -> Forall P (p_stitches N p)).
  { intros P HP. eapply Forall_impl; [|exact H]. exact HP. }
  assert (K : forall a : stitch Q, has_command [TIE_ON; TIE_OFF; CONTINGENCY_SEQUIN_UTILIZE; SLOW; FAST; OPTION_MAX_JUMP_LENGTH;
    OPTION_MAX_STITCH_LENGTH; CONTINGENCY_LONG_STITCH_NONE] a = false ->
    is_cmd TIE_ON a = false /\ is_cmd TIE_OFF a = false /\ is_cmd CONTINGENCY_SEQUIN_UTILIZE a = false /\ is_cmd SLOW a = false /\ is_cmd FAST a = false /\
    is_cmd OPTION_MAX_JUMP_LENGTH a = false /\ is_cmd OPTION_MAX_STITCH_LENGTH a = false /\ is_cmd CONTINGENCY_LONG_STITCH_NONE a = false).
  { intros a Ha. unfold has_command in Ha. cbn [existsb] in Ha. repeat rewrite orb_false_iff in Ha. tauto. }
  apply (C162_exp_resaved qcos qsin qorient Ht Hd exp_settings exp_settings p out threads); try assumption.
  - apply G. intros a Ha. destruct (K a Ha) as (K1 & K2 & K3 & K4 & K5 & K6 & K7 & K8). split; [|exact K8].
    intros [X|X]; exfalso; congruence.
  - apply G. intros a Ha. destruct (K a Ha) as (K1 & K2 & K3 & K4 & K5 & K6 & K7 & K8). split; assumption.
  - intros [X|[[X _]|X]]; [discriminate X|discriminate X|]. apply Exists_exists in X. destruct X as (a & Ia & Ha).
    rewrite Forall_forall in H. destruct (K a (H a Ia)) as (_ & _ & K3 & _). exact (eq_true_false_abs _ Ha K3).
  - apply G. intros a Ha. split; apply (K a Ha).
Qed.
End Defaults.

(** ** C163 *)
(** The colour changes before the first stitch. *)
Fixpoint changes_before {C} (l : list (stitch C)) : nat :=
  match l with
  | [] => 0%nat
  | a :: r => if cmd_of (scmd a) =? STITCH then 0%nat else if cmd_of (scmd a) =? COLOR_CHANGE then S (changes_before r) else changes_before r
  end.
Definition saved (l : list (stitch Q)) : list Z :=
  match transcode ExNum (exp_settings ex_cos ex_sin ex_orient) (loaded ex_cos ex_sin ex_orient l []) with
  | Ok (out, _) => exp_write qz_q out
  | Err _ => []
  end.
Definition resaved (file : list Z) : list Z := saved (map of_int (exp_read file)).
Definition c163_src : list (stitch Q) :=
  [st_at 0 0 COLOR_CHANGE; st_at 0 0 COLOR_CHANGE; st_at 0 0 COLOR_CHANGE; st_at 5 5 STITCH; st_at 20 5 STITCH; st_at 20 5 END].
Theorem C163_leading_changes_lost_refuted : exists src : list (stitch Q),
  Forall (fun a => In (scmd a) [STITCH; COLOR_CHANGE; END]) src /\
  let file := saved src in
  resaved file <> file /\ resaved (resaved file) <> resaved file /\
  map changes_before [exp_read file; exp_read (resaved file); exp_read (resaved (resaved file))] = [2; 1; 0]%nat /\
  resaved (resaved (resaved file)) = resaved (resaved file).
Proof.
  exists c163_src. split; [repeat (constructor; [cbn; tauto|]); constructor|].
  split; [vm_compute; discriminate|]. split; [vm_compute; discriminate|]. split; vm_compute; reflexivity.
Qed.

(** Fractional coordinates, long stitches and jumps, trims, a stop and a colour break: the
    conditions of C162 are met, and the file is not empty. *)
Definition c162_src : list (stitch Q) :=
  [mkS (21 # 2) (7 # 3) STITCH; st_at 300 20 STITCH; st_at 350 40 JUMP; st_at 350 41 NEEDLE_AT;
   st_at 300 40 TRIM; st_at 20 0 COLOR_BREAK; mkS (61 # 3) (5 # 2) STITCH; st_at 20 300 STITCH;
   st_at 20 300 STOP; st_at 400 400 TRIM; st_at 500 500 STITCH; st_at 0 0 COLOR_CHANGE; st_at 0 0 END; st_at 5 5 STITCH].
Fixpoint sewn_firstb {C} (l : list (stitch C)) : bool :=
  match l with
  | [] => true
  | a :: r => (cmd_of (scmd a) =? STITCH) || negb (cmd_of (scmd a) =? COLOR_CHANGE) && sewn_firstb r
  end.
Lemma sewn_firstb_spec : forall C (l : list (stitch C)), sewn_firstb l = true -> sewn_first l.
Proof.
  induction l as [|a r IH]; intros H; [exact I|]. cbn [sewn_firstb sewn_first] in *. apply orb_true_iff in H.
  destruct H as [H|H]; [left; apply Z.eqb_eq; exact H|right]. apply andb_true_iff in H. destruct H as [H1 H2].
  split; [apply Z.eqb_neq, negb_true_iff; exact H1|auto].
Qed.
Example C162_case :
  Forall (fun a => has_command [TIE_ON; TIE_OFF; CONTINGENCY_SEQUIN_UTILIZE; SLOW; FAST; OPTION_MAX_JUMP_LENGTH;
    OPTION_MAX_STITCH_LENGTH; CONTINGENCY_LONG_STITCH_NONE] a = false) c162_src /\
  sewn_first (exp_read (saved c162_src)) /\ List.length (saved c162_src) = 80%nat /\ resaved (saved c162_src) = saved c162_src.
Proof.
  split; [repeat (constructor; [reflexivity|]); constructor|].
  split; [apply sewn_firstb_spec; vm_compute; reflexivity|]. split; vm_compute; reflexivity.
Qed.
Print Assumptions C162_encoded_again.
Print Assumptions C162_exp_resaved.
Print Assumptions C162_exp_plain.
Print Assumptions C163_leading_changes_lost_refuted.
