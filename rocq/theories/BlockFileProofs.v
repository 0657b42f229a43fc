(** Colours through rounding and the views of the formats. *)
From Coq Require Import ZArith QArith Qabs List Bool Lia Lqa.
From Verif Require Import PyBase EmbConst PatternModel StreamModel StreamSpec StreamProofs FunctionsModel ThreadModel NumModel NumQ
  MatrixModel EncoderModel EncoderProofs EncoderSpec EncoderColorSpec MetricSpec EncoderMetricProofs QuantModel QuantProofs
  DstModel DstSpec DstFileModel DstFileSpec DstFileProofs JefSpec PecSpec PecFileSpec PecFileProofs PatternSpec PropertiesEncoder EncoderColorProofs
  TrimProofs TrimKeepProofs FidelitySpec FidelityProofs BlockFileSpec PropertiesColor.
Import ListNotations.
Open Scope Z_scope.

Definition no_stops {C} (l : list (stitch C)) : Prop := Forall (fun a => cmd_of (scmd a) <> STOP) l.

Lemma coloured_cons : forall C n (a : stitch C) l, coloured n (a :: l) =
  if cmd_of (scmd a) =? COLOR_CHANGE then coloured (S n) l
  else if cmd_of (scmd a) =? STITCH then (n, (sx a, sy a)) :: coloured n l else coloured n l.
Proof. reflexivity. Qed.
Lemma coloured_from : forall C (l : list (stitch C)) n k, In k (map fst (coloured n l)) -> (n <= k)%nat.
Proof.
  intros C. induction l as [|a l IH]; intros n k H; [contradiction|]. cbn [coloured] in H.
  destruct (is_cmd COLOR_CHANGE a); [apply IH in H; lia|]. destruct (is_cmd STITCH a); [|exact (IH n k H)].
  destruct H as [H|H]; [cbn [fst] in H; lia|exact (IH n k H)].
Qed.
Lemma coloured_closed : forall l n, coloured n (closed l) = coloured n l.
Proof.
  intros l n. unfold closed. destruct (needle_after 0 0 l) as [x y]. rewrite coloured_app. rewrite (coloured_none _ [_]) by reflexivity.
  apply app_nil_r.
Qed.
Lemma coloured_before_end : forall A (l : list (stitch A)) n, (exists a, l = before_end l ++ [a]) ->
  Exists (fun s => cmd_of (scmd s) = END) l -> coloured n (before_end l) = coloured n l.
Proof.
  intros A l n (a & E) X.
  assert (Ca : cmd_of (scmd a) = END).
  { apply Exists_exists in X. destruct X as (s & I & Cs). rewrite E in I. apply in_app_or in I as [I|[->|[]]]; [|exact Cs].
    exfalso. clear E a. induction l as [|b l IH]; [exact I|]. cbn [before_end] in I.
    destruct (cmd_of (scmd b) =? END) eqn:Eb; [exact I|]. destruct I as [->|I]; [rewrite Cs in Eb; discriminate|exact (IH I)]. }
  rewrite E at 2. rewrite coloured_app, (coloured_none _ [a]); [symmetry; apply app_nil_r|].
  rewrite points_cons, Ca. reflexivity.
Qed.
Lemma cmd_twice : forall c, cmd_of (cmd_of c) = cmd_of c.
Proof. intros c. unfold cmd_of. rewrite <- Z.land_assoc, Z.land_diag. reflexivity. Qed.
Lemma coloured_dst_view : forall ex l n, no_stops l -> coloured n (dst_view ex l) = coloured n l.
Proof.
  intros ex l n H. revert n. induction H as [|s l Hs _ IH]; intros n; [reflexivity|]. cbn [dst_view]. rewrite coloured_app, coloured_cons.
  destruct (Z.eqb_spec (cmd_of (scmd s)) TRIM) as [E|E].
  - rewrite E. cbn [Z.eqb]. change (TRIM =? COLOR_CHANGE) with false. change (TRIM =? STITCH) with false. cbn iota.
    assert (X : filter (is_cmd COLOR_CHANGE) (map (fun d => mkS (sx s + d) (sy s + d) JUMP) ex) = [] /\
                needle_points (map (fun d => mkS (sx s + d) (sy s + d) JUMP) ex) = []).
    { clear. induction ex as [|d ex [IH1 IH2]]; [split; reflexivity|]. cbn [map filter]. rewrite points_cons, IH1, IH2. split; reflexivity. }
    destruct X as [X1 X2]. rewrite coloured_none by exact X2. rewrite X1. cbn [List.length app]. rewrite Nat.add_0_r. apply IH.
  - unfold dst_name. apply Z.eqb_neq in Hs. rewrite Hs. cbn [filter].
    rewrite coloured_cons. cbn [scmd sx sy]. unfold is_cmd. cbn [scmd].
    change (Z.land (cmd_of (scmd s)) 255) with (cmd_of (cmd_of (scmd s))). rewrite cmd_twice.
    destruct (cmd_of (scmd s) =? COLOR_CHANGE); [cbn [coloured app List.length]; rewrite IH; f_equal; lia|].
    destruct (cmd_of (scmd s) =? STITCH); cbn [coloured app List.length]; rewrite Nat.add_0_r, IH; reflexivity.
Qed.
Lemma coloured_renamed : forall (l : list (stitch Z)) n, no_stops l -> coloured n (renamed (as_color_change [END]) l) = coloured n l.
Proof.
  intros l n H. revert n. induction H as [|s l Hs _ IH]; intros n; [reflexivity|]. cbn [renamed]. unfold as_color_change at 1. cbn [existsb].
  rewrite (coloured_cons _ n s l). apply Z.eqb_neq in Hs. destruct (Z.eqb_spec (cmd_of (scmd s)) END) as [E|E].
  - cbn [orb]. rewrite E. apply IH.
  - cbn [orb]. rewrite Hs, coloured_cons. cbn [scmd sx sy]. rewrite cmd_twice, !IH. reflexivity.
Qed.
Lemma coloured_jef_view : forall k l odd n, no_stops l -> coloured n (jef_view k odd l) = coloured n l.
Proof.
  intros k l odd n H. revert odd n. induction H as [|s l Hs _ IH]; intros odd n; [reflexivity|]. cbn [jef_view].
  rewrite (coloured_cons _ n s l). apply Z.eqb_neq in Hs. rewrite Hs.
  destruct (Z.eqb_spec (cmd_of (scmd s)) COLOR_CHANGE) as [E1|E1].
  { rewrite coloured_cons, IH, E1. reflexivity. }
  destruct (Z.eqb_spec (cmd_of (scmd s)) TRIM) as [E2|E2].
  { rewrite coloured_app, E2. change (TRIM =? STITCH) with false. cbn iota.
    assert (X : filter (is_cmd COLOR_CHANGE) (repeat (mkS (sx s) (sy s) JUMP) k) = [] /\ needle_points (repeat (mkS (sx s) (sy s) JUMP) k) = []).
    { clear. induction k as [|k [I1 I2]]; [split; reflexivity|]. cbn [repeat filter]. rewrite points_cons, I1, I2. split; reflexivity. }
    destruct X as [X1 X2]. rewrite coloured_none by exact X2. rewrite X1. cbn [List.length app]. rewrite Nat.add_0_r. apply IH. }
  rewrite coloured_cons. cbn [scmd sx sy]. rewrite cmd_twice, !IH. apply Z.eqb_neq in E1. rewrite E1. reflexivity.
Qed.
Lemma coloured_pec_view : forall l jumped first px py n, no_stops l ->
  EncoderSpec.subseq (coloured n l) (coloured n (pec_file_view jumped first px py l)).
Proof.
  intros l jumped first px py n H. revert jumped first px py n. induction H as [|s l Hs _ IH]; intros jumped first px py n; [constructor|].
  cbn [pec_file_view]. rewrite coloured_cons. apply Z.eqb_neq in Hs. rewrite Hs, orb_false_r.
  destruct (Z.eqb_spec (cmd_of (scmd s)) STITCH) as [E|E].
  { rewrite E. change (STITCH =? COLOR_CHANGE) with false. cbn iota.
    destruct (jumped && _); cbn [app]; rewrite !coloured_cons; cbn [scmd sx sy];
      change (cmd_of STITCH) with STITCH; change (STITCH =? COLOR_CHANGE) with false; change (STITCH =? STITCH) with true; cbn iota;
      [apply sub_skip|]; apply sub_take; apply IH. }
  destruct (Z.eqb_spec (cmd_of (scmd s)) JUMP) as [E1|E1].
  { rewrite E1. change (JUMP =? COLOR_CHANGE) with false. cbn iota. destruct first; cbn [app]; rewrite !coloured_cons; cbn [scmd sx sy];
      change (cmd_of JUMP =? COLOR_CHANGE) with false; change (cmd_of JUMP =? STITCH) with false;
      change (cmd_of TRIM =? COLOR_CHANGE) with false; change (cmd_of TRIM =? STITCH) with false; cbn iota; apply IH. }
  destruct (Z.eqb_spec (cmd_of (scmd s)) COLOR_CHANGE) as [E2|E2].
  { destruct jumped; cbn [app]; rewrite !coloured_cons; cbn [scmd sx sy]; rewrite ?cmd_twice, E2;
      change (cmd_of STITCH) with STITCH; change (STITCH =? COLOR_CHANGE) with false; change (STITCH =? STITCH) with true;
      change (COLOR_CHANGE =? COLOR_CHANGE) with true; cbn iota; [apply sub_skip|]; apply IH. }
  apply IH.
Qed.
Lemma coloured_keeper : forall C (l : list (stitch C)) n, coloured n (filter keeper l) = coloured n l.
Proof.
  intros C. induction l as [|s l IH]; intros n; [reflexivity|]. cbn [filter]. destruct (keeper s) eqn:Ek.
  - rewrite !coloured_cons, !IH. reflexivity.
  - rewrite coloured_cons, IH. unfold keeper in Ek. cbn [existsb] in Ek. repeat rewrite orb_false_iff in Ek.
    destruct Ek as (E1 & _ & E2 & _). rewrite E1, E2. reflexivity.
Qed.
Definition exact_colour (iz : nat * (Z * Z)) : nat * (Q * Q) := (fst iz, (inject_Z (fst (snd iz)), inject_Z (snd (snd iz)))).
Lemma coloured_of_int : forall l n, coloured n (map of_int l) = map exact_colour (coloured n l).
Proof.
  induction l as [|s l IH]; intros n; [reflexivity|]. cbn [map]. rewrite !coloured_cons. cbn [of_int scmd sx sy].
  destruct (_ =? COLOR_CHANGE); [apply IH|]. destruct (_ =? STITCH); cbn [map]; rewrite IH; reflexivity.
Qed.

(** ** Rounding *)
Definition near_colour (p : nat * (Q * Q)) (z : nat * (Z * Z)) : Prop := fst p = fst z /\ near_point (snd p) (snd z).
Lemma coloured_quantised : forall l xx yy n,
  Forall2 near_colour (coloured n l) (coloured n (apply_rel xx yy (quantise qz_q xx yy l))).
Proof.
  induction l as [|s l IH]; intros xx yy n; [constructor|]. cbn [quantise apply_rel sx sy scmd]. rewrite !coloured_cons. cbn [scmd sx sy].
  destruct (_ =? COLOR_CHANGE); [apply IH|]. destruct (_ =? STITCH); [|apply IH]. constructor; [|apply IH].
  split; [reflexivity|]. split; cbn [fst snd]; apply near_next.
Qed.
Lemma coloured_written : forall l n, Forall2 near_colour (coloured n l) (coloured n (written l)).
Proof. intros l n. apply coloured_quantised. Qed.
Lemma stops_written : forall l, no_stops l -> no_stops (written l).
Proof.
  intros l H. unfold written. generalize 0 at 2 4. generalize 0. induction H as [|s l Hs _ IH]; intros x y; [constructor|].
  cbn [quantise apply_rel sx sy scmd]. constructor; [exact Hs|]. apply IH.
Qed.
Lemma stops_before_end : forall C (l : list (stitch C)), no_stops l -> no_stops (before_end l).
Proof.
  intros C l H. induction H as [|s l Hs _ IH]; [constructor|]. cbn [before_end]. destruct (_ =? _); [constructor|]. constructor; assumption.
Qed.

Lemma subseq_near_colour : forall qs ps, EncoderSpec.subseq qs ps -> forall zs, Forall2 near_colour ps zs ->
  exists ws, EncoderSpec.subseq ws zs /\ Forall2 near_colour qs ws.
Proof.
  induction 1 as [|p q l _ IH|p q l _ IH]; intros zs F.
  - inversion F; subst. exists []. split; constructor.
  - inversion F as [|? z ? zs' Hz Fz]; subst. destruct (IH _ Fz) as (ws & A & B). exists ws. split; [constructor; exact A|exact B].
  - inversion F as [|? z ? zs' Hz Fz]; subst. destruct (IH _ Fz) as (ws & A & B).
    exists (z :: ws). split; [constructor; exact A|]. constructor; [exact Hz|exact B].
Qed.

(** ** Sections *)
Lemma sections_coloured : forall C (l : list (stitch C)) b n, no_stops l -> Forall (fun a => ~ In (cmd_of (scmd a)) [SEW_TO; NEEDLE_AT; COLOR_BREAK; NEEDLE_SET]) l ->
  (b = false -> exists q, In (n, q) (coloured n l)) ->
  (forall k, (0 < k <= List.length (filter (is_cmd COLOR_CHANGE) l))%nat -> exists q, In ((n + k)%nat, q) (coloured n l)) ->
  sections_sewn b l.
Proof.
  intros C l b n H. revert b n. induction H as [|s l Hs _ IH]; intros b n Hc Hb Hk.
  - destruct b; [constructor|]. destruct (Hb eq_refl) as [q []].
  - apply Forall_cons_iff in Hc. destruct Hc as [Hc Hc']. rewrite coloured_cons in Hb, Hk. cbn [filter] in Hk.
    change (is_cmd COLOR_CHANGE s) with (cmd_of (scmd s) =? COLOR_CHANGE) in Hk.
    assert (Low : forall m (r : list (stitch C)) k q, In (k, q) (coloured m r) -> (m <= k)%nat).
    { intros m r. revert m. induction r as [|a r IHr]; intros m k q; [intros []|]. rewrite coloured_cons.
      destruct (cmd_of (scmd a) =? COLOR_CHANGE); [intros I; apply IHr in I; lia|]. destruct (cmd_of (scmd a) =? STITCH); [|apply IHr].
      intros [E|I]; [injection E as <- _; lia|apply IHr in I; exact I]. }
    destruct (Z.eqb_spec (cmd_of (scmd s)) COLOR_CHANGE) as [E|E].
    + destruct b; [|destruct (Hb eq_refl) as [q I]; apply Low in I; lia].
      apply sections_edge; [left; unfold is_change; rewrite E; cbn; tauto|]. cbn [List.length] in Hk. apply (IH false (S n) Hc').
      * intros _. destruct (Hk 1%nat ltac:(lia)) as [q I]. replace (n + 1)%nat with (S n) in I by lia. eauto.
      * intros k K. destruct (Hk (S k) ltac:(lia)) as [q I]. replace (n + S k)%nat with (S n + k)%nat in I by lia. eauto.
    + destruct (Z.eqb_spec (cmd_of (scmd s)) STITCH) as [E1|E1].
      * apply sections_sew; [unfold PatternSpec.is_sewing; rewrite E1; cbn; tauto|]. apply (IH true n Hc'); [discriminate|].
        intros k K. destruct (Hk k K) as [q [I|I]]; [injection I as I _; lia|eauto].
      * apply sections_other.
        -- unfold PatternSpec.is_sewing. cbn [In] in *. intuition.
        -- unfold is_change. cbn [In] in *. intuition.
        -- exact Hs.
        -- apply (IH b n Hc' Hb Hk).
Qed.
