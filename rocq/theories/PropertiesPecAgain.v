(** Properties C176 and C177: loading PEC stitch data and saving it again. *)
From Coq Require Import ZArith QArith Qabs List Bool Lia Lqa.
From Verif Require Import PyBase EmbConst StreamModel StreamSpec StreamProofs FunctionsModel ThreadModel NumModel NumQ
  MatrixModel EncoderModel EncoderProofs EncoderSpec MetricSpec EncoderMetricProofs QuantModel QuantProofs
  DstFileModel PecModel PecSpec EightBitProofs PropertiesEncoder SettingsModel PropertiesSettings PropertiesPipeline PropertiesFidelity PropertiesBlockFiles
  ConvertSpec PropertiesConvert ResaveSpec EncoderSettleProofs EncoderAgainProofs EncoderCutProofs PropertiesResave.
Import ListNotations.
Open Scope Z_scope.

(** ** What is read from the data of a list of commands *)
Definition five : list Z := [STITCH; JUMP; TRIM; STOP; COLOR_CHANGE].
Lemma view_cons : forall jumped first px py s r, In (cmd_of (scmd s)) five ->
  pec_view jumped first px py (s :: r) =
    (if cmd_of (scmd s) =? STITCH then
        (if jumped && (negb (sx s =? px) && negb (sy s =? py)) then [mkS px py STITCH] else [])
        ++ mkS (sx s) (sy s) STITCH :: pec_view false false (sx s) (sy s) r
      else if cmd_of (scmd s) =? JUMP then
        (if first then [] else [mkS px py TRIM])
        ++ mkS (sx s) (sy s) JUMP :: pec_view true false (sx s) (sy s) r
      else if cmd_of (scmd s) =? COLOR_CHANGE then
        (if jumped then [mkS px py STITCH] else [])
        ++ mkS (sx s) (sy s) COLOR_CHANGE :: pec_view false false (sx s) (sy s) r
      else pec_view jumped false (sx s) (sy s) r).
Proof. reflexivity. Qed.

Ltac split_if := match goal with |- context[if ?b then _ else _] => destruct b end.
Ltac kinds H e := cbn [In five] in H; destruct H as [e|[e|[e|[e|[e|[]]]]]]; rewrite <- e in *.

Lemma view_cmds : forall l jumped first px py, Forall (fun a => In (scmd a) four) (pec_view jumped first px py l).
Proof.
  induction l as [|s l IH]; intros jumped first px py; [constructor|]. cbn [pec_view].
  assert (F : forall x y k, In k four -> In (scmd (mkS x y k : stitch Z)) four) by (intros x y k Hk; exact Hk).
  destruct (_ =? STITCH); [|destruct (_ =? JUMP); [|destruct (_ =? COLOR_CHANGE); [|apply IH]]]; apply Forall_app;
    (split; [split_if; repeat constructor; apply F; cbn; tauto|constructor; [cbn; tauto|apply IH]]).
Qed.
Lemma view_needle : forall l jumped first px py, representable 2047 [STITCH; JUMP] [TRIM; COLOR_CHANGE; STOP; END] px py l ->
  needle_after px py (pec_view jumped first px py l) = needle_after px py l.
Proof.
  induction l as [|s l IH]; intros jumped first px py R; [reflexivity|]. cbn [pec_view needle_after representable] in *. destruct R as [R1 R2].
  assert (A : forall b a : list (stitch Z), b = [] \/ (exists k, b = [mkS px py k]) -> needle_after px py (b ++ a) = needle_after px py a).
  { intros b a [-> | [k ->]]; reflexivity. }
  destruct (Z.eqb_spec (cmd_of (scmd s)) STITCH) as [e|n1]; [|destruct (Z.eqb_spec (cmd_of (scmd s)) JUMP) as [e|n2]; [|destruct (Z.eqb_spec (cmd_of (scmd s)) COLOR_CHANGE) as [e|n3]]].
  1-3: rewrite A by (split_if; first [left; reflexivity|right; eexists; reflexivity]); cbn [needle_after sx sy]; apply IH; exact R2.
  destruct R1 as [[R1 _]|[_ [X Y]]]; [exfalso; cbn [In] in R1; intuition congruence|]. rewrite X, Y in *. apply IH. exact R2.
Qed.
Lemma view_representable : forall l jumped first px py, representable 2047 [STITCH; JUMP] [TRIM; COLOR_CHANGE; STOP; END] px py l ->
  representable 2047 [STITCH; JUMP] [TRIM; COLOR_CHANGE; STOP; END] px py (pec_view jumped first px py l).
Proof.
  induction l as [|s l IH]; intros jumped first px py R; [exact I|]. cbn [pec_view]. cbn [representable] in R. destruct R as [R1 R2].
  assert (A : forall (b : bool) k a, In k [STITCH; TRIM] -> representable 2047 [STITCH; JUMP] [TRIM; COLOR_CHANGE; STOP; END] px py a ->
    representable 2047 [STITCH; JUMP] [TRIM; COLOR_CHANGE; STOP; END] px py ((if b then [mkS px py k] else []) ++ a)).
  { intros [|] k a Hk Ha; [|exact Ha]. cbn [app representable sx sy scmd]. split; [|exact Ha]. cbn [In] in Hk.
    destruct Hk as [<-|[<-|[]]]; [left|right]; (split; [cbn; tauto|]); [unfold step_within; lia|auto]. }
  destruct (Z.eqb_spec (cmd_of (scmd s)) STITCH) as [e|n1]; [|destruct (Z.eqb_spec (cmd_of (scmd s)) JUMP) as [e|n2]; [|destruct (Z.eqb_spec (cmd_of (scmd s)) COLOR_CHANGE) as [e|n3]]].
  - apply A; [cbn; tauto|]. cbn [representable sx sy scmd]. split; [|apply IH; exact R2]. left. split; [cbn; tauto|].
    destruct R1 as [[_ R1]|[R1 _]]; [exact R1|]. rewrite e in R1. cbn in R1. intuition discriminate.
  - replace (if first then [] else [mkS px py TRIM]) with (if negb first then [mkS px py TRIM] else []) by (destruct first; reflexivity).
    apply A; [cbn; tauto|]. cbn [representable sx sy scmd]. split; [|apply IH; exact R2]. left. split; [cbn; tauto|].
    destruct R1 as [[_ R1]|[R1 _]]; [exact R1|]. rewrite e in R1. cbn in R1. intuition discriminate.
  - apply A; [cbn; tauto|]. cbn [representable sx sy scmd]. split; [|apply IH; exact R2]. right. split; [cbn; tauto|].
    destruct R1 as [[R1 _]|[_ R1]]; [|exact R1]. rewrite e in R1. cbn in R1. intuition discriminate.
  - destruct R1 as [[R1 _]|[_ [X Y]]]; [exfalso; cbn [In] in R1; intuition congruence|]. rewrite X, Y in *. apply IH. exact R2.
Qed.
Lemma view_jumps : forall l jumped first px py cut, (first = true -> cut = true) -> jumps_cut cut (pec_view jumped first px py l).
Proof.
  induction l as [|s l IH]; intros jumped first px py cut H; [exact I|]. cbn [pec_view].
  destruct (_ =? STITCH); [|destruct (_ =? JUMP); [|destruct (_ =? COLOR_CHANGE)]].
  - split_if; cbn [app jumps_cut scmd]; repeat (split; [discriminate|]); apply IH; discriminate.
  - destruct first; cbn [app jumps_cut scmd].
    + split; [intros _; apply H; reflexivity|]. apply IH. discriminate.
    + split; [discriminate|]. split; [reflexivity|]. apply IH. discriminate.
  - destruct jumped; cbn [app jumps_cut scmd]; repeat (split; [discriminate|]); apply IH; discriminate.
  - apply IH. discriminate.
Qed.
Lemma view_lands : forall l jumped first px py cut cut', Forall (fun a => In (cmd_of (scmd a)) five) l ->
  lands eq cut px py l -> jumps_cut cut l -> (cut' = true -> cut = true) -> (jumped = true -> cut = true) ->
  representable 2047 [STITCH; JUMP] [TRIM; COLOR_CHANGE; STOP; END] px py l ->
  lands eq cut' px py (pec_view jumped first px py l).
Proof.
  induction l as [|s l IH]; intros jumped first px py cut cut' K L J H1 H2 R; [exact I|].
  apply Forall_cons_iff in K. destruct K as [Ks K]. rewrite view_cons by exact Ks. cbn [lands jumps_cut representable] in L, J, R.
  destruct L as [L1 L2], J as [J1 J2], R as [R1 R2].
  assert (C : forall b, cut_by b (scmd s) = cut_by b (cmd_of (scmd s))).
  { intros b. unfold cut_by, cmd_of. rewrite <- Z.land_assoc. reflexivity. }
  rewrite C in L2, J2. kinds Ks e.
  - change (STITCH =? STITCH) with true. cbv iota. change (cut_by cut STITCH) with false in *.
    assert (T : forall b, (b = true -> cut = true) -> lands eq b px py (mkS (sx s) (sy s) STITCH :: pec_view false false (sx s) (sy s) l)).
    { intros b Hb. cbn [lands sx sy scmd]. split; [intros e1 _; apply L1; auto|]. change (cut_by b STITCH) with false.
      apply (IH _ _ _ _ false); auto. }
    split_if; [|apply T; exact H1]. cbn [app lands sx sy scmd]. split; [auto|]. change (cut_by cut' STITCH) with false. apply T. discriminate.
  - change (JUMP =? STITCH) with false. change (JUMP =? JUMP) with true. cbv iota. specialize (J1 eq_refl). subst cut. change (cut_by true JUMP) with true in *.
    destruct first; cbn [app lands sx sy scmd].
    + split; [discriminate|]. apply (IH _ _ _ _ true); auto.
    + split; [discriminate|]. split; [discriminate|]. apply (IH _ _ _ _ true); auto.
  - change (TRIM =? STITCH) with false. change (TRIM =? JUMP) with false. change (TRIM =? COLOR_CHANGE) with false. cbv iota. change (cut_by cut TRIM) with true in *.
    destruct R1 as [[R1 _]|[_ [X Y]]]; [cbn in R1; intuition discriminate|]. rewrite X, Y in *. apply (IH _ _ _ _ true); auto.
  - change (STOP =? STITCH) with false. change (STOP =? JUMP) with false. change (STOP =? COLOR_CHANGE) with false. cbv iota. change (cut_by cut STOP) with true in *.
    destruct R1 as [[R1 _]|[_ [X Y]]]; [cbn in R1; intuition discriminate|]. rewrite X, Y in *. apply (IH _ _ _ _ true); auto.
  - change (COLOR_CHANGE =? STITCH) with false. change (COLOR_CHANGE =? JUMP) with false. change (COLOR_CHANGE =? COLOR_CHANGE) with true. cbv iota.
    change (cut_by cut COLOR_CHANGE) with true in *.
    destruct jumped; cbn [app lands sx sy scmd].
    + split; [auto|]. split; [discriminate|]. apply (IH _ _ _ _ true); auto.
    + split; [discriminate|]. apply (IH _ _ _ _ true); auto.
Qed.
Lemma view_sewn : forall l first px py e, scmd e = END -> sewn_first (pec_view true first px py l ++ [e]).
Proof.
  induction l as [|s l IH]; intros first px py e He.
  - cbn [pec_view app sewn_first]. rewrite He. right. split; [discriminate|exact I].
  - cbn [pec_view]. destruct (_ =? STITCH); [|destruct (_ =? JUMP); [|destruct (_ =? COLOR_CHANGE)]].
    + split_if; cbn [app sewn_first scmd]; left; reflexivity.
    + destruct first; cbn [app sewn_first scmd]; right; (split; [discriminate|]); [apply IH; exact He|].
      right. split; [discriminate|]. apply IH. exact He.
    + cbn [app sewn_first scmd]. left. reflexivity.
    + apply IH. exact He.
Qed.

(** ** The bytes *)
(** The first command is neither a trim nor a stop. *)
Definition starts_well {C} (l : list (stitch C)) : Prop :=
  match l with [] => True | a :: _ => cmd_of (scmd a) <> TRIM /\ cmd_of (scmd a) <> STOP end.

Lemma loop_cons : forall ct j i dx dy k r, pec_loop ct j i (mkS dx dy k :: r) =
      if cmd_of k =? STITCH then
        (if j && (negb (dx =? 0) && negb (dy =? 0)) then write_stitch 0 0 else [])
        ++ write_stitch dx dy ++ pec_loop ct false false r
      else if cmd_of k =? JUMP then
        (if i then write_jump dx dy else write_trimjump dx dy) ++ pec_loop ct true false r
      else if cmd_of k =? COLOR_CHANGE then
        (if j then write_stitch 0 0 else []) ++ [0xfe; 0xb0] ++ (if ct then [0x02] else [0x01]) ++ pec_loop (negb ct) false false r
      else if cmd_of k =? END then [0xff]
      else pec_loop ct j false r.
Proof. reflexivity. Qed.
Lemma quantise_cons : forall px py x y k (r : list (stitch Z)), quantise qz_int px py (mkS x y k :: r) =
  mkS (x - px) (y - py) k :: quantise qz_int x y r.
Proof. intros. cbn [quantise sx sy scmd]. unfold qz_int. rewrite !Zplus_minus. reflexivity. Qed.

Lemma view_bytes : forall l ct j i px py cut e e', Forall (fun a => In (cmd_of (scmd a)) five) l ->
  cmd_of (scmd e) = END -> cmd_of (scmd e') = END -> (i = true -> starts_well l) ->
  representable 2047 [STITCH; JUMP] [TRIM; COLOR_CHANGE; STOP; END] px py l ->
  pec_loop ct j i (quantise qz_int px py (without_cut_trims cut (pec_view j i px py l ++ [e])))
  = pec_loop ct j i (quantise qz_int px py (l ++ [e'])).
Proof.
  induction l as [|s l IH]; intros ct j i px py cut e e' K He He' W R.
  - cbn [pec_view app without_cut_trims]. rewrite He. replace (cut && (END =? TRIM)) with false by (destruct cut; reflexivity).
    cbn [app]. destruct e as [ex ey ek], e' as [ex' ey' ek']. rewrite !quantise_cons, !loop_cons. cbn [scmd] in He, He'. rewrite He, He'. reflexivity.
  - apply Forall_cons_iff in K. destruct K as [Ks K]. rewrite view_cons by exact Ks. cbn [representable] in R. destruct R as [R1 R2].
    destruct s as [x y k]. cbn [sx sy scmd] in *. change ((mkS x y k :: l) ++ [e']) with (mkS x y k :: (l ++ [e'])).
    rewrite quantise_cons, loop_cons. kinds Ks E.
    + change (STITCH =? STITCH) with true. cbv iota.
      rewrite <- (IH ct false false x y false e e' K He He' ltac:(discriminate) R2).
      replace (x - px =? 0) with (x =? px) by (destruct (Z.eqb_spec x px), (Z.eqb_spec (x - px) 0); lia || reflexivity).
      replace (y - py =? 0) with (y =? py) by (destruct (Z.eqb_spec y py), (Z.eqb_spec (y - py) 0); lia || reflexivity).
      destruct (j && (negb (x =? px) && negb (y =? py))) eqn:B.
      * cbn [app without_cut_trims scmd]. change (cmd_of STITCH =? TRIM) with false. rewrite !andb_false_r. cbn [app].
        change (cut_by (cut_by cut STITCH) STITCH) with false. rewrite !quantise_cons, !loop_cons. change (cmd_of STITCH =? STITCH) with true. cbv iota.
        rewrite !Z.sub_diag. cbn [Z.eqb negb andb]. rewrite andb_false_r. cbn [app]. reflexivity.
      * cbn [app without_cut_trims scmd]. change (cmd_of STITCH =? TRIM) with false. rewrite !andb_false_r. cbn [app].
        change (cut_by cut STITCH) with false. rewrite !quantise_cons, !loop_cons. change (cmd_of STITCH =? STITCH) with true. cbv iota.
        replace (x - px =? 0) with (x =? px) by (destruct (Z.eqb_spec x px), (Z.eqb_spec (x - px) 0); lia || reflexivity).
        replace (y - py =? 0) with (y =? py) by (destruct (Z.eqb_spec y py), (Z.eqb_spec (y - py) 0); lia || reflexivity).
        rewrite B. reflexivity.
    + change (JUMP =? STITCH) with false. change (JUMP =? JUMP) with true. cbv iota. destruct i.
      * cbn [app without_cut_trims scmd]. change (cmd_of JUMP =? TRIM) with false. rewrite !andb_false_r. cbn [app].
        rewrite quantise_cons, loop_cons. change (cmd_of JUMP =? STITCH) with false. change (cmd_of JUMP =? JUMP) with true. cbv iota. f_equal.
        apply IH; try assumption. discriminate.
      * cbn [app without_cut_trims scmd]. change (cmd_of JUMP =? TRIM) with false. rewrite !andb_false_r. change (cmd_of TRIM =? TRIM) with true. rewrite andb_true_r.
        change (cut_by (cut_by cut TRIM) JUMP) with true. cbn [app].
        transitivity (pec_loop ct j false (quantise qz_int px py (mkS x y JUMP :: without_cut_trims true (pec_view true false x y l ++ [e])))).
        { destruct cut; cbn [app]; [reflexivity|]. rewrite (quantise_cons px py px py TRIM), loop_cons. reflexivity. }
        rewrite quantise_cons, loop_cons. change (cmd_of JUMP =? STITCH) with false. change (cmd_of JUMP =? JUMP) with true. cbv iota. f_equal.
        apply IH; try assumption. discriminate.
    + change (TRIM =? STITCH) with false. change (TRIM =? JUMP) with false. change (TRIM =? COLOR_CHANGE) with false. change (TRIM =? END) with false. cbv iota.
      destruct R1 as [[R1 _]|[_ [X Y]]]; [cbn in R1; intuition discriminate|]. subst x y.
      destruct i; [destruct (W eq_refl) as [W1 _]; cbn [scmd] in W1; congruence|]. apply IH; try assumption. discriminate.
    + change (STOP =? STITCH) with false. change (STOP =? JUMP) with false. change (STOP =? COLOR_CHANGE) with false. change (STOP =? END) with false. cbv iota.
      destruct R1 as [[R1 _]|[_ [X Y]]]; [cbn in R1; intuition discriminate|]. subst x y.
      destruct i; [destruct (W eq_refl) as [_ W1]; cbn [scmd] in W1; congruence|]. apply IH; try assumption. discriminate.
    + change (COLOR_CHANGE =? STITCH) with false. change (COLOR_CHANGE =? JUMP) with false. change (COLOR_CHANGE =? COLOR_CHANGE) with true. cbv iota.
      rewrite <- (IH (negb ct) false false x y true e e' K He He' ltac:(discriminate) R2).
      destruct j; cbn [app without_cut_trims scmd]; change (cmd_of STITCH =? TRIM) with false; change (cmd_of COLOR_CHANGE =? TRIM) with false; rewrite !andb_false_r; cbn [app].
      * change (cut_by (cut_by cut STITCH) COLOR_CHANGE) with true. rewrite !quantise_cons, !loop_cons. change (cmd_of STITCH =? STITCH) with true.
        change (cmd_of COLOR_CHANGE =? STITCH) with false. change (cmd_of COLOR_CHANGE =? JUMP) with false. change (cmd_of COLOR_CHANGE =? COLOR_CHANGE) with true. cbv iota.
        rewrite !Z.sub_diag. cbn [Z.eqb negb andb app]. reflexivity.
      * change (cut_by cut COLOR_CHANGE) with true. rewrite !quantise_cons, !loop_cons.
        change (cmd_of COLOR_CHANGE =? STITCH) with false. change (cmd_of COLOR_CHANGE =? JUMP) with false. change (cmd_of COLOR_CHANGE =? COLOR_CHANGE) with true. cbv iota.
        reflexivity.
Qed.

(** The writer looks at the kind of a command only. *)
Lemma loop_same : forall A B (qa : A -> Z -> Z) (qb : B -> Z -> Z) la lb ct j i xx yy,
  Forall2 (fun (a : stitch A) (b : stitch B) => (forall z, qa (sx a) z = qb (sx b) z) /\ (forall z, qa (sy a) z = qb (sy b) z) /\
    cmd_of (scmd a) = cmd_of (scmd b)) la lb ->
  pec_loop ct j i (quantise qa xx yy la) = pec_loop ct j i (quantise qb xx yy lb).
Proof.
  intros A B qa qb la lb ct j i xx yy H. revert ct j i xx yy. induction H as [|a b la lb (H1 & H2 & H3) _ IH]; intros ct j i xx yy; [reflexivity|].
  cbn [quantise]. rewrite H1, H2. rewrite !loop_cons, H3. rewrite !IH. reflexivity.
Qed.
Lemma jumps_same : forall A B (la : list (stitch A)) (lb : list (stitch B)) cut,
  map scmd la = map scmd lb -> jumps_cut cut la -> jumps_cut cut lb.
Proof.
  induction la as [|a la IH]; intros [|b lb] cut E H; try discriminate; [exact I|]. cbn [map] in E. injection E as E1 E2.
  cbn [jumps_cut] in *. rewrite <- E1. destruct H as [H1 H2]. split; [exact H1|exact (IH lb _ E2 H2)].
Qed.
Lemma jumps_prefix : forall C (a b : list (stitch C)) cut, jumps_cut cut (a ++ b) -> jumps_cut cut a.
Proof. induction a as [|s a IH]; intros b cut H; [exact I|]. cbn [app jumps_cut] in *. destruct H as [H1 H2]. split; [exact H1|exact (IH b _ H2)]. Qed.
Lemma lands_prefix : forall C same (a b : list (stitch C)) cut px py, lands same cut px py (a ++ b) -> lands same cut px py a.
Proof. intros C same. induction a as [|s a IH]; intros b cut px py H; [exact I|]. cbn [app lands] in *. destruct H as [H1 H2]. split; [exact H1|exact (IH b _ _ _ H2)]. Qed.
Lemma lands_snoc : forall C same (a : list (stitch C)) e cut px py, lands same cut px py a -> cmd_of (scmd e) = END -> lands same cut px py (a ++ [e]).
Proof.
  intros C same. induction a as [|s a IH]; intros e cut px py H He; cbn [app lands] in *.
  - rewrite He. split; [discriminate|exact I].
  - destruct H as [H1 H2]. split; [exact H1|exact (IH e _ _ _ H2 He)].
Qed.
Lemma jumps_end : forall C (a : list (stitch C)) e cut, jumps_cut cut a -> cmd_of (scmd e) = END -> jumps_cut cut (a ++ [e]).
Proof. intros C a e cut H He. apply jumps_snoc; [exact H|]. rewrite He. discriminate. Qed.
Lemma representable_prefix : forall m mv ct a b px py, representable m mv ct px py (a ++ b) -> representable m mv ct px py a.
Proof. induction a as [|s a IH]; intros b px py H; [exact I|]. cbn [app representable] in *. destruct H as [H1 H2]. split; [exact H1|exact (IH b _ _ H2)]. Qed.
Lemma representable_end : forall m mv a px py e, representable m mv [TRIM; COLOR_CHANGE; STOP; END] px py a -> cmd_of (scmd e) = END ->
  needle_after px py a = (sx e, sy e) -> representable m mv [TRIM; COLOR_CHANGE; STOP; END] px py (a ++ [e]).
Proof.
  induction a as [|s a IH]; intros px py e H He Hn; cbn [app representable needle_after] in *.
  - injection Hn as -> ->. split; [|exact I]. right. rewrite He. split; [cbn; tauto|auto].
  - destruct H as [H1 H2]. split; [exact H1|exact (IH _ _ e H2 He Hn)].
Qed.

Section Again.
Variables (qcos qsin : Q -> Q) (qorient : Q -> Q -> Q -> Q -> Q -> Q * Q).
Notation N := (QNum qcos qsin qorient).
Hypothesis (Hturn : forall t, ~ (qcos t * qcos t + qsin t * qsin t == 0)%Q) (Hdir : direction_bounded qorient).
Notation settings_fit := (settings_fit qcos qsin qorient).
Notation resaving := (resaving qcos qsin qorient).
Notation loaded := (loaded qcos qsin qorient).

Theorem C176_encoded : forall m (set : settings N) l threads, 0 < m -> resaving m set -> s_needle_count N set <> Some 0 ->
  landing m l -> sewn_first l ->
  exists out ths, transcode N set (loaded (map of_int l) threads) = Ok (out, ths) /\ same_commands out (without_cut_trims true l).
Proof.
  intros m set l threads Hm R Hn S Hf.
  assert (G : forall o : option (limit N), allows qcos qsin qorient m (get o (Inf N)) -> length_positive qcos qsin qorient o).
  { intros [[v|]|] H; cbn [get allows length_positive] in *; [|exact I|exact I]. rewrite Zlt_Qlt in Hm. change (inject_Z 0) with 0%Q in Hm. change (F N) with Q in *. lra. }
  destruct (C115_encode_total qcos qsin qorient Hturn set (loaded (map of_int l) threads)) as (out & ths & E).
  - apply G, (r_ms _ _ _ _ _ R).
  - apply G, (r_mj _ _ _ _ _ R).
  - destruct (r_plain _ _ _ _ _ R) as (_ & -> & _). exact I.
  - exact Hn.
  - cbn [p_stitches loaded]. destruct S as ((body & e & -> & He & Hb) & _). rewrite Forall_forall. intros a Ia.
    assert (X : has_command [OPTION_MAX_JUMP_LENGTH; OPTION_MAX_STITCH_LENGTH] a = false /\ has_command [MATRIX_SCALE; MATRIX_SCALE_ORIGIN] a = false).
    { apply until_end_in in Ia. apply in_map_iff in Ia. destruct Ia as (b & <- & Ib). apply in_app_iff in Ib.
      assert (Y : In (scmd b) [STITCH; JUMP; TRIM; COLOR_CHANGE; STOP; END]).
      { destruct Ib as [Ib|[<-|[]]]; [|rewrite He; cbn; tauto]. rewrite Forall_forall in Hb. specialize (Hb b Ib). cbn [In] in *. tauto. }
      unfold has_command, is_cmd. cbn [of_int scmd existsb]. cbn [In] in Y.
      destruct Y as [Y|[Y|[Y|[Y|[Y|[Y|[]]]]]]]; rewrite <- Y; split; reflexivity. }
    destruct X as [X1 X2]. split; intros K; congruence.
  - exists out, ths. split; [exact E|]. exact (encoded_landing qcos qsin qorient m set l threads out ths R S Hf E).
Qed.

(** What is encoded, as the writer rounds it. *)
Lemma encoded_shape : forall (set : settings N) (p : pattern N) out threads,
  settings_fit 2047 set -> s_full_jump N set = Some true -> source_fits 2047 (p_stitches N p) ->
  no_speeds (p_stitches N p) -> requested_change set <> NEEDLE_SET -> ~ sequins_requested set (p_stitches N p) ->
  Forall (fun a => is_cmd TIE_ON a = false /\ is_cmd TIE_OFF a = false) (p_stitches N p) ->
  transcode N set p = Ok (out, threads) ->
  exists body e, written out = body ++ [e] /\ cmd_of (scmd e) = END /\
    Forall (fun a => In (cmd_of (scmd a)) five) body /\
    representable 2047 [STITCH; JUMP] [TRIM; COLOR_CHANGE; STOP; END] 0 0 (body ++ [e]) /\
    settles eq true 0 0 (body ++ [e]).
Proof.
  intros set p out threads Hf Hj Hs Hq Hc Hr Ht E.
  destruct (encoded_written qcos qsin qorient Hdir 2047 set p out threads) as (W & C & _); try assumption; [lia|].
  assert (Hp : Forall plain6 (written out)).
  { eapply Forall_impl; [|exact C]. intros a [Ha|[_ Ha]]; [exact Ha|contradiction]. }
  pose proof (iwalk_representable 2047 _ 0 0 W Hp) as R.
  assert (S : settles eq true 0 0 (written out)).
  { unfold written. apply (settles_written out true 0%Q 0%Q).
    - refine (transcode_settles qcos qsin qorient set p out threads E Hj _ _); [apply Hf|].
      eapply Forall_impl; [|exact Ht]. intros a [H1 H2]. unfold is_cmd in *.
      change (Z.land (scmd a) 255) with (cmd_of (scmd a)) in *. split; intros K; rewrite K in *; discriminate.
    - split; [vm_compute; split; discriminate|intros _; reflexivity].
    - split; [vm_compute; split; discriminate|intros _; reflexivity]. }
  assert (O : PecFileSpec.ends_once (written out)).
  { apply PecFileProofs.ends_written. destruct (C22_single_end N set p out threads E) as (b & e & -> & He & Hb).
    exists b, e. split; [reflexivity|]. split; [apply Z.eqb_eq; exact He|]. eapply Forall_impl; [|exact Hb]. intros a Ha. apply Z.eqb_neq. exact Ha. }
  destruct O as (body & e & O & He & Hb). rewrite O in *. exists body, e. split; [reflexivity|]. split; [exact He|]. split; [|split; assumption].
  apply Forall_app in Hp. destruct Hp as [Hp _]. rewrite Forall_forall in *. intros a Ia. specialize (Hp a Ia). specialize (Hb a Ia).
  unfold plain6 in Hp. unfold five. cbn [In] in *. intuition congruence.
Qed.
Lemma before_body : forall C (body : list (stitch C)) e, Forall (fun a => In (cmd_of (scmd a)) five) body -> cmd_of (scmd e) = END ->
  before_end (body ++ [e]) = body.
Proof.
  induction body as [|a body IH]; intros e H He; cbn [app before_end].
  - rewrite He. reflexivity.
  - apply Forall_cons_iff in H. destruct H as [Ha H]. rewrite (IH e H He). unfold five in Ha. cbn [In] in Ha.
    destruct Ha as [Ha|[Ha|[Ha|[Ha|[Ha|[]]]]]]; rewrite <- Ha; reflexivity.
Qed.

(** Something read from the stitch data of an encoded design. *)
Lemma read_shape : forall body e, cmd_of (scmd e) = END -> Forall (fun a => In (cmd_of (scmd a)) five) body ->
  representable 2047 [STITCH; JUMP] [TRIM; COLOR_CHANGE; STOP; END] 0 0 (body ++ [e]) ->
  let v := pec_view true true 0 0 body in
  exists f, closed v = v ++ [f] /\ scmd f = END /\ Forall (fun a => In (scmd a) four) v /\
    representable 2047 [STITCH; JUMP] [TRIM; COLOR_CHANGE; STOP; END] 0 0 (v ++ [f]) /\ jumps_cut true (v ++ [f]) /\ sewn_first (v ++ [f]).
Proof.
  intros body e He Hb R v. pose proof (representable_prefix _ _ _ _ _ _ _ R) as R'. unfold closed. pose proof (view_needle body true true 0 0 R') as Vn.
  change (pec_view true true 0 0 body) with v in Vn. destruct (needle_after 0 0 v) as [x y] eqn:Ev. exists (mkS x y END).
  split; [reflexivity|]. split; [reflexivity|]. split; [apply view_cmds|]. split; [|split].
  - apply representable_end; [apply view_representable; exact R'|reflexivity|exact Ev].
  - apply jumps_end; [|reflexivity]. apply view_jumps. reflexivity.
  - apply view_sewn. reflexivity.
Qed.

(** ** C176 *)
(** A design whose encoding jumps only with cut thread and does not begin with a stop. *)
Theorem C176_resaved : forall (set set' : settings N) (p : pattern N) out threads after loaded_threads,
  settings_fit 2047 set -> s_full_jump N set = Some true -> source_fits 2047 (p_stitches N p) ->
  no_speeds (p_stitches N p) -> requested_change set <> NEEDLE_SET -> ~ sequins_requested set (p_stitches N p) ->
  Forall (fun a => is_cmd TIE_ON a = false /\ is_cmd TIE_OFF a = false) (p_stitches N p) ->
  transcode N set p = Ok (out, threads) -> jumps_cut true out -> starts_well out ->
  resaving 2047 set' -> s_needle_count N set' <> Some 0 ->
  let data := pec_encode qz_q out in
  exists out' threads', transcode N set' (loaded (map of_int (pec_read (data ++ 0 :: after))) loaded_threads) = Ok (out', threads') /\
    pec_encode qz_q out' = data.
Proof.
  intros set set' p out threads after lt Hf Hj Hs Hq Hc Hr Ht E J W R Hn data.
  destruct (encoded_shape set p out threads Hf Hj Hs Hq Hc Hr Ht E) as (body & e & O & He & Hb & Rp & St).
  pose proof (C20_pec qcos qsin qorient set p out threads after Hdir Hf Hs Hq Hc Hr E) as V.
  unfold data. rewrite V, O, (before_body _ body e Hb He). destruct (read_shape body e He Hb Rp) as (f & Vc & Hf' & V4 & Vr & Vj & Vs).
  rewrite Vc. set (v := pec_view true true 0 0 body) in *.
  assert (Jb : jumps_cut true body).
  { apply (jumps_prefix _ body [e]). rewrite <- O. apply (jumps_same _ _ out); [|exact J]. symmetry. apply written_cmds. }
  assert (L : landing 2047 (v ++ [f])).
  { split; [|split; [exact Vr|]].
    - exists v, f. split; [reflexivity|]. split; [exact Hf'|]. eapply Forall_impl; [|exact V4]. intros a Ha. unfold four in Ha. cbn [In] in *. tauto.
    - apply lands_snoc; [|rewrite Hf'; reflexivity]. apply (view_lands body true true 0 0 true true Hb); auto.
      + exact (lands_prefix _ _ body [e] _ _ _ (settles_lands _ _ _ _ _ _ St)).
      + exact (representable_prefix _ _ _ _ _ _ _ Rp). }
  destruct (C176_encoded 2047 set' (v ++ [f]) lt ltac:(lia) R Hn L Vs) as (out' & ths' & E' & K).
  exists out', ths'. split; [exact E'|]. unfold pec_encode.
  transitivity (pec_loop true true true (quantise qz_int 0 0 (without_cut_trims true (v ++ [f])))).
  - apply loop_same. eapply Forall2_impl'; [|exact K]. intros a b (H1 & H2 & H3). rewrite H1, H2.
    split; [|split; [|exact H3]]; intros z; apply qz_q_int.
  - rewrite <- (quantise_snap Q qz_q out 0 0). change (apply_rel 0 0 (quantise qz_q 0 0 out)) with (written out). rewrite O.
    apply view_bytes; try assumption; [rewrite Hf'; reflexivity| |exact (representable_prefix _ _ _ _ _ _ _ Rp)].
    intros _. unfold starts_well. destruct body as [|a body]; [exact I|].
    assert (X : exists a0 r, out = a0 :: r /\ scmd a0 = scmd a).
    { pose proof (written_cmds out) as M. rewrite O in M. destruct out as [|a0 r]; [discriminate|]. cbn [map app] in M. exists a0, r. injection M as M1 M2. auto. }
    destruct X as (a0 & r & -> & Xa). cbn [starts_well] in W. rewrite <- Xa. exact W.
Qed.

(** Saved, loaded, saved, loaded and saved: the third data are the second, whatever the pattern. *)
Theorem C176_third : forall (set set' set'' : settings N) (p : pattern N) out threads after after' th th',
  settings_fit 2047 set -> s_full_jump N set = Some true -> source_fits 2047 (p_stitches N p) ->
  no_speeds (p_stitches N p) -> requested_change set <> NEEDLE_SET -> ~ sequins_requested set (p_stitches N p) ->
  Forall (fun a => is_cmd TIE_ON a = false /\ is_cmd TIE_OFF a = false) (p_stitches N p) ->
  transcode N set p = Ok (out, threads) ->
  settings_fit 2047 set' -> s_full_jump N set' = Some true -> resaving 2047 set' -> s_needle_count N set' <> Some 0 ->
  ~ sequins_requested set' [] ->
  resaving 2047 set'' -> s_needle_count N set'' <> Some 0 ->
  forall out' threads', transcode N set' (loaded (map of_int (pec_read (pec_encode qz_q out ++ 0 :: after))) th) = Ok (out', threads') ->
  exists out'' threads'', transcode N set'' (loaded (map of_int (pec_read (pec_encode qz_q out' ++ 0 :: after'))) th') = Ok (out'', threads'') /\
    pec_encode qz_q out'' = pec_encode qz_q out'.
Proof.
  intros set set' set'' p out threads after after' th th' Hf Hj Hs Hq Hc Hr Ht E Hf1 Hj1 R1 Hn1 Hr1 R2 Hn2 out' threads' E'.
  destruct (encoded_shape set p out threads Hf Hj Hs Hq Hc Hr Ht E) as (body & e & O & He & Hb & Rp & St).
  pose proof (C20_pec qcos qsin qorient set p out threads after Hdir Hf Hs Hq Hc Hr E) as V.
  rewrite V, O, (before_body _ body e Hb He) in E'. destruct (read_shape body e He Hb Rp) as (f & Vc & Hf' & V4 & Vr & Vj & Vs).
  rewrite Vc in E'. set (v := pec_view true true 0 0 body) in *.
  destruct (encoded_cut qcos qsin qorient 2047 set' v f th out' threads' R1 V4 Hf' Vr Vj E') as [Jo Co].
  assert (P : forall (P : stitch Q -> Prop), (forall a, In (scmd a) [STITCH; JUMP; TRIM; COLOR_CHANGE; END] -> P a) ->
    Forall P (p_stitches N (loaded (map of_int (v ++ [f])) th))).
  { intros P HP. cbn [p_stitches loaded]. apply Forall_map. rewrite Forall_forall. intros a Ia. apply HP. cbn [of_int scmd].
    apply in_app_iff in Ia. destruct Ia as [Ia|[<-|[]]]; [|rewrite Hf'; cbn; tauto]. rewrite Forall_forall in V4. specialize (V4 a Ia). unfold four in V4. cbn [In] in *. tauto. }
  assert (B : forall a : stitch Q, In (scmd a) [STITCH; JUMP; TRIM; COLOR_CHANGE; END] ->
    forall k, In k [TIE_ON; TIE_OFF; SLOW; FAST; OPTION_MAX_JUMP_LENGTH; OPTION_MAX_STITCH_LENGTH; CONTINGENCY_LONG_STITCH_NONE; CONTINGENCY_SEQUIN_UTILIZE] -> is_cmd k a = false).
  { intros a Ha k Hk. unfold is_cmd. cbn [In] in Ha, Hk.
    destruct Ha as [Ha|[Ha|[Ha|[Ha|[Ha|[]]]]]]; rewrite <- Ha; destruct Hk as [<-|[<-|[<-|[<-|[<-|[<-|[<-|[<-|[]]]]]]]]]; reflexivity. }
  apply (C176_resaved set' set'' (loaded (map of_int (v ++ [f])) th) out' threads' after' th'); try assumption.
  - apply P. intros a Ha. split; [|apply (B a Ha); cbn; tauto].
    intros [X|X]; exfalso; [rewrite (B a Ha) in X|rewrite (B a Ha) in X]; try discriminate; cbn; tauto.
  - apply P. intros a Ha. split; apply (B a Ha); cbn; tauto.
  - unfold requested_change. intros K. pose proof (r_change _ _ _ _ _ R1) as K'. cbn [init_config thread_change_command] in K'.
    destruct (s_thread_change_command N set') as [k|]; cbn [get] in K'; [|discriminate]. destruct (Z.eqb_spec k NEEDLE_SET) as [e0|e0]; [|cbn [andb] in K; contradiction].
    unfold get in K'. rewrite andb_true_r in K'. cbn [andb] in K. rewrite e0 in K'. destruct (_ <=? 1) in K'; discriminate K'.
  - intros X. apply Hr1. destruct X as [X|[X|X]]; [left; exact X|right; left; exact X|]. exfalso.
    apply Exists_exists in X. destruct X as (a & Ia & Ha). pose proof (P (fun a => is_cmd CONTINGENCY_SEQUIN_UTILIZE a = false)) as Q0.
    rewrite Forall_forall in Q0. rewrite Q0 in Ha; [discriminate| |exact Ia]. intros b Hb'. apply (B b Hb'). cbn. tauto.
  - apply P. intros a Ha. split; apply (B a Ha); cbn; tauto.
  - unfold starts_well. destruct out' as [|a r]; [exact I|]. apply Forall_cons_iff in Co. destruct Co as [Ca _]. split; intros K; [|rewrite K in Ca; cbn in Ca; intuition discriminate].
    assert (S : settles Qeq true 0%Q 0%Q (a :: r)).
    { refine (transcode_settles qcos qsin qorient set' _ _ threads' E' Hj1 _ _); [apply Hf1|].
      apply P. intros b Hb'. pose proof (B b Hb' TIE_ON ltac:(cbn; tauto)) as B1. pose proof (B b Hb' TIE_OFF ltac:(cbn; tauto)) as B2.
      unfold is_cmd in B1, B2. change (Z.land (scmd b) 255) with (cmd_of (scmd b)) in B1, B2. apply Z.eqb_neq in B1, B2. split; assumption. }
    cbn [settles] in S. destruct S as (_ & S & _). exact (S eq_refl K).
Qed.
End Again.

(** ** With the settings of the format *)
Section Defaults.
Variables (qcos qsin : Q -> Q) (qorient : Q -> Q -> Q -> Q -> Q -> Q * Q).
Notation N := (QNum qcos qsin qorient).
Definition pec_settings : settings N := for_format qcos qsin qorient (pec_attributes N inject_Z) [].
Lemma pec_defaults : settings_fit qcos qsin qorient 2047 pec_settings /\ s_full_jump N pec_settings = Some true /\
  requested_change pec_settings <> NEEDLE_SET /\ resaving qcos qsin qorient 2047 pec_settings /\ s_needle_count N pec_settings <> Some 0.
Proof.
  destruct (C148_default_settings qcos qsin qorient []) as (_ & _ & _ & [F _ _ _] & _); [repeat constructor|repeat constructor|].
  split; [exact F|]. split; [reflexivity|]. split; [discriminate|]. split; [|discriminate].
  constructor; try reflexivity; try (left; reflexivity); try (apply Qle_refl).
  split; [reflexivity|]. split; reflexivity.
Qed.
Definition plain_pattern (p : pattern N) : Prop :=
  Forall (fun a => has_command [TIE_ON; TIE_OFF; CONTINGENCY_SEQUIN_UTILIZE; SLOW; FAST; OPTION_MAX_JUMP_LENGTH;
    OPTION_MAX_STITCH_LENGTH; CONTINGENCY_LONG_STITCH_NONE] a = false) (p_stitches N p).
(** The stitch data saved from a pattern, and from what is loaded from stitch data. *)
Definition saves (p : pattern N) (data : list Z) : Prop :=
  exists out threads, transcode N pec_settings p = Ok (out, threads) /\ data = pec_encode qz_q out.
Definition saves_again (data data' : list Z) : Prop :=
  exists after threads, saves (loaded qcos qsin qorient (map of_int (pec_read (data ++ 0 :: after))) threads) data'.

Lemma plain_commands : forall p, plain_pattern p ->
  source_fits 2047 (p_stitches N p) /\ no_speeds (p_stitches N p) /\ ~ sequins_requested pec_settings (p_stitches N p) /\
  Forall (fun a => is_cmd TIE_ON a = false /\ is_cmd TIE_OFF a = false) (p_stitches N p).
Proof.
  intros p H.
  assert (K : forall a : stitch Q, has_command [TIE_ON; TIE_OFF; CONTINGENCY_SEQUIN_UTILIZE; SLOW; FAST; OPTION_MAX_JUMP_LENGTH;
    OPTION_MAX_STITCH_LENGTH; CONTINGENCY_LONG_STITCH_NONE] a = false ->
    is_cmd TIE_ON a = false /\ is_cmd TIE_OFF a = false /\ is_cmd CONTINGENCY_SEQUIN_UTILIZE a = false /\ is_cmd SLOW a = false /\ is_cmd FAST a = false /\
    is_cmd OPTION_MAX_JUMP_LENGTH a = false /\ is_cmd OPTION_MAX_STITCH_LENGTH a = false /\ is_cmd CONTINGENCY_LONG_STITCH_NONE a = false).
  { intros a Ha. unfold has_command in Ha. cbn [existsb] in Ha. repeat rewrite orb_false_iff in Ha. tauto. }
  assert (G : forall P : stitch Q -> Prop, (forall a, has_command [TIE_ON; TIE_OFF; CONTINGENCY_SEQUIN_UTILIZE; SLOW; FAST; OPTION_MAX_JUMP_LENGTH;
    OPTION_MAX_STITCH_LENGTH; CONTINGENCY_LONG_STITCH_NONE] a = false -> P a) -> Forall P (p_stitches N p)).
  { intros P HP. eapply Forall_impl; [|exact H]. exact HP. }
  split; [|split; [|split]].
  - apply G. intros a Ha. destruct (K a Ha) as (K1 & K2 & K3 & K4 & K5 & K6 & K7 & K8). split; [|exact K8].
    intros [X|X]; exfalso; congruence.
  - apply G. intros a Ha. destruct (K a Ha) as (K1 & K2 & K3 & K4 & K5 & K6 & K7 & K8). split; assumption.
  - intros [X|[[X _]|X]]; [discriminate X|discriminate X|]. apply Exists_exists in X. destruct X as (a & Ia & Ha).
    unfold plain_pattern in H. rewrite Forall_forall in H. destruct (K a (H a Ia)) as (_ & _ & K3 & _). exact (eq_true_false_abs _ Ha K3).
  - apply G. intros a Ha. split; apply (K a Ha).
Qed.

(** Whatever was saved first: a load and save that follow a load and save change nothing. *)
Theorem C176_pec_stable : (forall t, ~ (qcos t * qcos t + qsin t * qsin t == 0)%Q) -> direction_bounded qorient ->
  forall p data data' data'', plain_pattern p -> saves p data -> saves_again data data' -> saves_again data' data'' -> data'' = data'.
Proof.
  intros Ht Hd p data data' data'' H (out & threads & E & ->) (after & th & out' & threads' & E' & ->) (after' & th' & out'' & threads'' & E'' & ->).
  destruct pec_defaults as (D1 & D2 & D3 & D4 & D5). destruct (plain_commands p H) as (P1 & P2 & P3 & P4).
  assert (R : ~ sequins_requested pec_settings []).
  { intros [X|[[X _]|X]]; [discriminate X|discriminate X|]. inversion X. }
  destruct (C176_third qcos qsin qorient Ht Hd pec_settings pec_settings pec_settings p out threads after after' th th'
    D1 D2 P1 P2 D3 P3 P4 E D1 D2 D4 D5 R D4 D5 out' threads' E') as (o & t & X & Y).
  rewrite X in E''. injection E'' as <- _. exact Y.
Qed.
(** The first save already, if it jumps only with cut thread and does not begin with a stop. *)
Theorem C176_pec_same : (forall t, ~ (qcos t * qcos t + qsin t * qsin t == 0)%Q) -> direction_bounded qorient ->
  forall p out threads data', plain_pattern p -> transcode N pec_settings p = Ok (out, threads) ->
  jumps_cut true out -> starts_well out -> saves_again (pec_encode qz_q out) data' -> data' = pec_encode qz_q out.
Proof.
  intros Ht Hd p out threads data' H E J W (after & th & out' & threads' & E' & ->).
  destruct pec_defaults as (D1 & D2 & D3 & D4 & D5). destruct (plain_commands p H) as (P1 & P2 & P3 & P4).
  destruct (C176_resaved qcos qsin qorient Ht Hd pec_settings pec_settings p out threads after th
    D1 D2 P1 P2 D3 P3 P4 E J W D4 D5) as (o & t & X & Y).
  rewrite X in E'. injection E' as <- _. exact Y.
Qed.
(** What a reader delivers is such a pattern, and saving it succeeds. *)
Theorem C176_loaded : (forall t, ~ (qcos t * qcos t + qsin t * qsin t == 0)%Q) -> forall bytes threads,
  let p := loaded qcos qsin qorient (map of_int (pec_read bytes)) threads in plain_pattern p /\ exists data, saves p data.
Proof.
  intros Ht bytes threads p. destruct (C153_pec bytes) as (body & e & B & He & Hb).
  assert (K : forall a : stitch Q, In a (p_stitches N p) -> In (scmd a) [STITCH; JUMP; TRIM; COLOR_CHANGE; END]).
  { intros a Ia. unfold p in Ia. cbn [p_stitches loaded] in Ia. rewrite B in Ia. apply in_app_iff in Ia. destruct Ia as [Ia|[<-|[]]]; [|rewrite He; cbn; tauto].
    rewrite Forall_forall in Hb. destruct (Hb a Ia) as [Ha _]. cbn [In] in *. tauto. }
  split.
  - unfold plain_pattern. rewrite Forall_forall. intros a Ia. specialize (K a Ia). change (F N) with Q in *. unfold has_command, is_cmd. cbn [In] in K.
    destruct K as [K|[K|[K|[K|[K|[]]]]]]; rewrite <- K; reflexivity.
  - destruct (C115_encode_total qcos qsin qorient Ht pec_settings p) as (out & ths & E).
    + cbn. reflexivity.
    + cbn. reflexivity.
    + exact I.
    + discriminate.
    + rewrite Forall_forall. intros a Ia. apply until_end_in in Ia. specialize (K a Ia).
      assert (X : has_command [OPTION_MAX_JUMP_LENGTH; OPTION_MAX_STITCH_LENGTH] a = false /\ has_command [MATRIX_SCALE; MATRIX_SCALE_ORIGIN] a = false).
      { unfold has_command, is_cmd. cbn [In existsb] in *. destruct K as [K|[K|[K|[K|[K|[]]]]]]; cbn in K |- *; rewrite <- K; split; reflexivity. }
      destruct X as [X1 X2]. split; intros Y; congruence.
    + exists (pec_encode qz_q out), out, ths. auto.
Qed.
End Defaults.

(** ** C177 *)
Definition pec_saved (l : list (stitch Q)) : list Z :=
  match transcode ExNum (pec_settings ex_cos ex_sin ex_orient) (loaded ex_cos ex_sin ex_orient l []) with
  | Ok (out, _) => pec_encode qz_q out
  | Err _ => []
  end.
Definition pec_resaved (data : list Z) : list Z := pec_saved (map of_int (pec_read (data ++ [0]))).
Definition jumps_of (l : list (stitch Z)) : list (Z * Z) := map (fun a => (sx a, sy a)) (filter (fun a => cmd_of (scmd a) =? JUMP) l).
(** Sewing, a jump without a trim, and sewing on along one axis. *)
Definition c177_src : list (stitch Q) :=
  [st_at 0 0 STITCH; st_at 10 5 STITCH; st_at 50 50 JUMP; st_at 60 50 STITCH; st_at 70 60 STITCH; st_at 70 60 END].
Theorem C177_pec_resaved_refuted : exists src : list (stitch Q), Forall (fun a => In (scmd a) [STITCH; JUMP; END]) src /\
  let data := pec_saved src in
  pec_resaved data <> data /\
  jumps_of (pec_read (data ++ [0])) = [(50, 50)] /\ jumps_of (pec_read (pec_resaved data ++ [0])) = [(50, 50); (60, 50)] /\
  pec_resaved (pec_resaved data) = pec_resaved data.
Proof.
  exists c177_src. split; [repeat (constructor; [cbn; tauto|]); constructor|].
  split; [vm_compute; discriminate|]. split; [vm_compute; reflexivity|]. split; vm_compute; reflexivity.
Qed.

(** Cut jumps, a colour change, a stop and fractional coordinates: the conditions of C176 are met. *)
Definition c176_src : list (stitch Q) :=
  [mkS (21 # 2) (7 # 3) STITCH; st_at 300 20 STITCH; st_at 300 20 TRIM; st_at 350 40 JUMP; st_at 360 41 STITCH;
   st_at 20 0 COLOR_BREAK; mkS (61 # 3) (5 # 2) STITCH; st_at 20 300 STITCH; st_at 20 300 STOP; st_at 400 400 TRIM;
   st_at 500 500 STITCH; st_at 0 0 COLOR_CHANGE; st_at 9 9 STITCH; st_at 0 0 END].
Fixpoint jumps_cutb {C} (cut : bool) (l : list (stitch C)) : bool :=
  match l with
  | [] => true
  | a :: r => (negb (cmd_of (scmd a) =? JUMP) || cut) && jumps_cutb (cut_by cut (scmd a)) r
  end.
Lemma jumps_cutb_spec : forall C (l : list (stitch C)) cut, jumps_cutb cut l = true -> jumps_cut cut l.
Proof.
  induction l as [|a r IH]; intros cut H; [exact I|]. cbn [jumps_cutb jumps_cut] in *. apply andb_true_iff in H. destruct H as [H1 H2].
  split; [|auto]. intros E. rewrite E in H1. exact H1.
Qed.
Example C176_case : exists out threads,
  transcode ExNum (pec_settings ex_cos ex_sin ex_orient) (loaded ex_cos ex_sin ex_orient c176_src []) = Ok (out, threads) /\
  plain_pattern ex_cos ex_sin ex_orient (loaded ex_cos ex_sin ex_orient c176_src []) /\
  jumps_cut true out /\ starts_well out /\ List.length (pec_encode qz_q out) = 47%nat /\
  pec_resaved (pec_encode qz_q out) = pec_encode qz_q out.
Proof.
  eexists. eexists. split; [vm_compute; reflexivity|].
  split; [repeat (constructor; [reflexivity|]); constructor|].
  split; [apply jumps_cutb_spec; vm_compute; reflexivity|]. split; [split; discriminate|]. split; vm_compute; reflexivity.
Qed.
Print Assumptions C176_pec_stable.
Print Assumptions C176_pec_same.
Print Assumptions C176_loaded.
Print Assumptions C176_encoded.
Print Assumptions C177_pec_resaved_refuted.
