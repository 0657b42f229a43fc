(** The frame-eject interpolation works gap by gap. *)
From Coq Require Import ZArith QArith Qabs List Bool Lia.
From Verif Require Import PyBase EmbConst NumQ MetricSpec PatternModel PatternSpec TrimProofs.
Import ListNotations.
Open Scope Z_scope.

Lemma sews_spec {C} (s : stitch C) : sews (scmd s) = true <-> is_sewing s.
Proof. unfold sews, is_sewing. cbn [In]. rewrite !orb_true_iff, !Z.eqb_eq. intuition congruence. Qed.
Lemma changes_spec {C} (s : stitch C) : changes (scmd s) = true <-> is_change s.
Proof. unfold changes, is_change. cbn [In]. rewrite !orb_true_iff, !Z.eqb_eq. intuition congruence. Qed.

Section Eject.
Context {C : Type}.
Implicit Types (s j st : stitch C) (a b c g l r : list (stitch C)).
Notation calm := (fun s => ~ is_sewing s /\ ~ is_change s).
Notation nojump := (fun s => ~ is_jump s).
Notation nostop := (fun s => ~ is_stop s).

(** Where the scan of a gap stands. *)
Inductive scan (done g : list (stitch C)) : eject_state C -> Prop :=
| scan0 ss o1 o2 p ie : Forall nojump g -> scan done g (mkE ss 0 o1 o2 p ie)
| scan1 ss o1 a j b p ie :
    g = a ++ j :: b -> Forall nojump a -> is_jump j -> Forall nostop b ->
    scan done g (mkE ss 1 o1 (Some (zlen (done ++ a))) p ie)
| scan2 ss a j b st c p ie :
    g = a ++ j :: b ++ st :: c -> Forall nojump a -> is_jump j -> Forall nostop b -> is_stop st ->
    Forall nojump c ->
    scan done g (mkE ss 2 (Some (sx st, sy st)) (Some (zlen (done ++ a))) p ie)
| scan3 ss a j b st c p ie :
    g = a ++ j :: b ++ st :: c -> Forall nojump a -> is_jump j -> Forall nostop b -> is_stop st ->
    Exists is_jump c ->
    scan done g (mkE ss 3 (Some (sx st, sy st)) (Some (zlen (done ++ a))) p ie).

Definition at_point (done g r : list (stitch C)) (e : eject_state C) : Prop :=
  e_ss e = done ++ g ++ r /\ e_position e = zlen done + zlen g
  /\ e_ie e = zlen done + zlen g + zlen r /\ scan done g e.

(** Two ways to cut a list at its first jump agree. *)
Lemma first_cut (P : stitch C -> Prop) a j b : forall a' j' b',
  a ++ j :: b = a' ++ j' :: b' -> Forall (fun s => ~ P s) a -> Forall (fun s => ~ P s) a' -> P j -> P j' ->
  a = a' /\ j = j' /\ b = b'.
Proof.
  induction a as [|u a IH]; intros [|u' a'] j' b' E F F' Hj Hj'; cbn [app] in E; injection E as E1 E2.
  - auto.
  - subst. inversion F'; subst. contradiction.
  - subst. inversion F; subst. contradiction.
  - subst. inversion F; inversion F'; subst. destruct (IH _ _ _ E2) as (-> & -> & ->); auto.
Qed.

Lemma gap_none at_end g : Forall nojump g -> gap_ejected at_end g g.
Proof.
  intros F. apply gap_same. intros a j b st c -> (Hj & _). rewrite Forall_app in F. destruct F as [_ F].
  inversion F; subst. contradiction.
Qed.
Lemma gap_nostop at_end a j b : Forall nojump a -> is_jump j -> Forall nostop b ->
  gap_ejected at_end (a ++ j :: b) (a ++ j :: b).
Proof.
  intros Fa Hj Fb. apply gap_same. intros a' j' b' st c E (Hj' & Hs & _ & Fa' & _).
  apply (first_cut is_jump) in E; auto. destruct E as (_ & _ & ->). rewrite Forall_app in Fb.
  destruct Fb as [_ Fb]. inversion Fb; subst. contradiction.
Qed.
Lemma gap_nojump a j b st c : Forall nojump a -> is_jump j -> Forall nostop b -> is_stop st ->
  Forall nojump c -> gap_ejected false (a ++ j :: b ++ st :: c) (a ++ j :: b ++ st :: c).
Proof.
  intros Fa Hj Fb Hs Fc. apply gap_same. intros a' j' b' st' c' E (Hj' & Hs' & [D|Hc'] & Fa' & Fb'); [discriminate|].
  apply (first_cut is_jump) in E; auto. destruct E as (_ & _ & E).
  apply (first_cut is_stop) in E; auto. destruct E as (_ & _ & ->).
  rewrite Exists_exists in Hc'. destruct Hc' as (u & Hu & Ju). rewrite Forall_forall in Fc. firstorder.
Qed.

Lemma replace_spec (done a c r : list (stitch C)) j b st ss p m ie x y :
  ss = done ++ (a ++ j :: b ++ st :: c) ++ r -> p = zlen done + zlen (a ++ j :: b ++ st :: c) ->
  eject_replace (mkE ss m (Some (x, y)) (Some (zlen (done ++ a))) p ie)
  = Ok ((done ++ a ++ [mkS x y FRAME_EJECT]) ++ r, zlen (done ++ a)).
Proof.
  intros -> ->. unfold eject_replace. cbn [e_start e_stop e_position e_ss]. do 2 f_equal.
  replace (done ++ (a ++ j :: b ++ st :: c) ++ r) with ((done ++ a) ++ (j :: b ++ st :: c) ++ r)
    by (rewrite <- !app_assoc; reflexivity).
  rewrite py_del_app by (rewrite ?zlen_app; lia).
  rewrite py_insert_app by reflexivity. rewrite <- !app_assoc. reflexivity.
Qed.

(** The rest of the function from a state on. *)
Definition eject_finish (e : eject_state C) : res (list (stitch C)) :=
  if 2 <=? e_mode e then do ' (ss, position) <- eject_replace e; Ok ss else Ok (e_ss e).

Lemma loop_finish_end done g e : at_point done g [] e -> Forall calm g ->
  exists out, eject_finish e = Ok (done ++ out) /\ ejected g out.
Proof.
  intros (Hss & Hp & Hie & Sc) Fc. destruct Sc; cbn [e_ss e_position e_ie] in *; unfold eject_finish; cbn [e_mode Z.leb].
  - exists g. cbn. rewrite Hss, app_nil_r. split; [reflexivity|]. apply ejected_last; auto. apply gap_none; auto.
  - exists g. cbn. rewrite Hss, app_nil_r. split; [reflexivity|]. apply ejected_last; auto. subst g. apply gap_nostop; auto.
  - change (2 <=? 2) with true. cbn [e_mode]. subst g. erewrite replace_spec by eassumption. cbn [bindr].
    exists (a ++ [mkS (sx st) (sy st) FRAME_EJECT]). rewrite app_nil_r. split; [reflexivity|].
    apply ejected_last; auto. apply gap_eject. unfold asks_eject. auto 10.
  - change (2 <=? 3) with true. cbn [e_mode]. subst g. erewrite replace_spec by eassumption. cbn [bindr].
    exists (a ++ [mkS (sx st) (sy st) FRAME_EJECT]). rewrite app_nil_r. split; [reflexivity|].
    apply ejected_last; auto. apply gap_eject. unfold asks_eject. auto 10.
Qed.

(** One round on a command inside a gap. *)
Lemma step_gap done g s r e : at_point done g (s :: r) e -> ~ is_sewing s -> ~ is_change s ->
  exists e', eject_step e = Ok e' /\ at_point done (g ++ [s]) r e'.
Proof.
  intros (Hss & Hp & Hie & Sc) N1 N2. unfold eject_step.
  rewrite zlen_cons in Hie.
  assert (Hidx : py_index (e_position e) (e_ss e) = Ok s).
  { rewrite Hss, app_assoc. apply py_index_app. rewrite zlen_app. lia. }
  rewrite Hidx. cbn [bindr].
  rewrite <- sews_spec in N1. rewrite <- changes_spec in N2.
  destruct (sews (scmd s)); [congruence|]. destruct (changes (scmd s)); [congruence|]. cbn [orb].
  assert (Fin : forall e', e_ss e' = e_ss e -> e_position e' = e_position e + 1 -> e_ie e' = e_ie e ->
    scan done (g ++ [s]) e' -> at_point done (g ++ [s]) r e').
  { intros e' E1 E2 E3 S. unfold at_point. rewrite E1, E2, E3, zlen_app, zlen_cons, zlen_nil.
    repeat split; auto; try lia. rewrite Hss, <- !app_assoc. reflexivity. }
  assert (Snoc : forall P c, Forall P c -> P s -> Forall P (c ++ [s])).
  { intros. apply Forall_app. split; [assumption|]. constructor; [assumption | constructor]. }
  destruct (Z.eqb_spec (cmd_of (scmd s)) JUMP) as [J|J].
  - assert (NS : ~ is_stop s) by (unfold is_stop; rewrite J; discriminate).
    destruct Sc; cbn [e_mode e_ss e_position e_ie e_stop e_start] in *.
    + change (0 =? 2) with false. cbn [Z.eqb]. eexists. split; [reflexivity|]. apply Fin; try reflexivity.
      replace p with (zlen (done ++ g)) by (rewrite zlen_app; lia).
      apply scan1 with (j := s) (b := []); auto.
    + change (1 =? 2) with false. change (1 =? 0) with false. cbn [Z.eqb]. eexists. split; [reflexivity|]. apply Fin; try reflexivity.
      subst g. apply scan1 with (j := j) (b := b ++ [s]); auto. rewrite <- app_assoc. reflexivity.
    + change (2 =? 2) with true. change (3 =? 0) with false. eexists. split; [reflexivity|]. apply Fin; try reflexivity.
      subst g. apply scan3 with (j := j) (b := b) (c := c ++ [s]); auto.
      * rewrite <- !app_assoc. cbn [app]. rewrite <- !app_assoc. reflexivity.
      * apply Exists_app. right. constructor. exact J.
    + change (3 =? 2) with false. change (3 =? 0) with false. eexists. split; [reflexivity|]. apply Fin; try reflexivity.
      subst g. apply scan3 with (j := j) (b := b) (c := c ++ [s]); auto.
      * rewrite <- !app_assoc. cbn [app]. rewrite <- !app_assoc. reflexivity.
      * apply Exists_app. left. assumption.
  - destruct (Z.eqb_spec (cmd_of (scmd s)) STOP) as [S|S].
    + destruct Sc; cbn [e_mode e_ss e_position e_ie e_stop e_start] in *.
      * change (0 =? 1) with false. eexists. split; [reflexivity|]. apply Fin; try reflexivity. apply scan0. auto.
      * change (1 =? 1) with true. eexists. split; [reflexivity|]. apply Fin; try reflexivity.
        subst g. apply scan2 with (st := s) (j := j) (b := b) (c := []); auto.
        rewrite <- app_assoc. reflexivity.
      * change (2 =? 1) with false. eexists. split; [reflexivity|]. apply Fin; try reflexivity.
        subst g. apply scan2 with (j := j) (b := b) (c := c ++ [s]); auto.
        rewrite <- !app_assoc. cbn [app]. rewrite <- !app_assoc. reflexivity.
      * change (3 =? 1) with false. eexists. split; [reflexivity|]. apply Fin; try reflexivity.
        subst g. apply scan3 with (j := j) (b := b) (c := c ++ [s]); auto.
        -- rewrite <- !app_assoc. cbn [app]. rewrite <- !app_assoc. reflexivity.
        -- apply Exists_app. left. assumption.
    + eexists. split; [reflexivity|]. apply Fin; try reflexivity.
      destruct Sc; cbn [e_mode e_ss e_position e_ie e_stop e_start] in *.
      * apply scan0. auto.
      * subst g. apply scan1 with (j := j) (b := b ++ [s]); auto. rewrite <- app_assoc. reflexivity.
      * subst g. apply scan2 with (j := j) (b := b) (c := c ++ [s]); auto.
        rewrite <- !app_assoc. cbn [app]. rewrite <- !app_assoc. reflexivity.
      * subst g. apply scan3 with (j := j) (b := b) (c := c ++ [s]); auto.
        -- rewrite <- !app_assoc. cbn [app]. rewrite <- !app_assoc. reflexivity.
        -- apply Exists_app. left. assumption.
Qed.

(** One round on a sewing command or a thread change: the gap is settled, and the command is
    either passed or, after a replacement, looked at again. *)
Lemma step_edge done g s r e : at_point done g (s :: r) e -> is_sewing s \/ is_change s ->
  exists e' out, eject_step e = Ok e' /\ gap_ejected false g out
    /\ (at_point (done ++ out ++ [s]) [] r e' \/ at_point (done ++ out) [] (s :: r) e' /\ e_mode e' = 0).
Proof.
  intros (Hss & Hp & Hie & Sc) N. unfold eject_step.
  assert (Hidx : py_index (e_position e) (e_ss e) = Ok s).
  { rewrite Hss, app_assoc. apply py_index_app. rewrite zlen_app. lia. }
  rewrite Hidx. cbn [bindr].
  rewrite <- sews_spec, <- changes_spec in N. rewrite <- orb_true_iff in N. rewrite N.
  assert (Pass : forall o1 o2, at_point (done ++ g ++ [s]) [] r (mkE (e_ss e) 0 o1 o2 (e_position e + 1) (e_ie e))).
  { intros. unfold at_point. cbn [e_ss e_position e_ie]. rewrite !zlen_app, zlen_cons, !zlen_nil in *.
    repeat split; try lia.
    - rewrite Hss, <- !app_assoc. reflexivity.
    - constructor. constructor. }
  destruct Sc; cbn [e_mode e_ss e_position e_ie e_stop e_start] in *.
  - change (0 =? 3) with false. eexists; exists g. split; [reflexivity|]. split; [apply gap_none; auto|].
    left. apply Pass.
  - change (1 =? 3) with false. eexists; exists g. split; [reflexivity|].
    split; [subst g; apply gap_nostop; auto|]. left. apply Pass.
  - change (2 =? 3) with false. eexists; exists g. split; [reflexivity|].
    split; [subst g; apply gap_nojump; auto|]. left. apply Pass.
  - change (3 =? 3) with true. subst g. erewrite replace_spec by eassumption. cbn [bindr].
    eexists; exists (a ++ [mkS (sx st) (sy st) FRAME_EJECT]). split; [reflexivity|].
    split; [apply gap_eject; unfold asks_eject; auto 10|].
    right. split; [|reflexivity]. unfold at_point. cbn [e_ss e_position e_ie].
    rewrite !zlen_app, !zlen_cons, !zlen_nil. cbn [app]. repeat split; try lia.
    constructor. constructor.
Qed.

Lemma step_again done s r e : at_point done [] (s :: r) e -> e_mode e = 0 -> is_sewing s \/ is_change s ->
  exists e', eject_step e = Ok e' /\ at_point (done ++ [s]) [] r e'.
Proof.
  intros (Hss & Hp & Hie & Sc) M N. unfold eject_step.
  assert (Hidx : py_index (e_position e) (e_ss e) = Ok s).
  { rewrite Hss. cbn [app]. apply py_index_app. rewrite zlen_nil in Hp. lia. }
  rewrite Hidx. cbn [bindr].
  rewrite <- sews_spec, <- changes_spec in N. rewrite <- orb_true_iff in N. rewrite N, M.
  change (0 =? 3) with false. eexists. split; [reflexivity|].
  unfold at_point. cbn [e_ss e_position e_ie]. rewrite !zlen_app, !zlen_cons, !zlen_nil in *.
  repeat split; try lia.
  - rewrite Hss, <- !app_assoc. reflexivity.
  - constructor. constructor.
Qed.

Lemma in_range done g s r e : at_point done g (s :: r) e -> (e_position e <? e_ie e) = true.
Proof. intros (_ & -> & -> & _). apply Z.ltb_lt. rewrite zlen_cons. pose proof (zlen_nonneg r). lia. Qed.

Lemma eject_loop_spec r : forall done g e fuel, at_point done g r e -> Forall calm g ->
  (2 * length r <= fuel)%nat ->
  exists e' out, eject_loop fuel e = Ok e' /\ eject_finish e' = Ok (done ++ out) /\ ejected (g ++ r) out.
Proof.
  induction r as [|s r IH]; intros done g e fuel A Fc Hf.
  - destruct (loop_finish_end _ _ _ A Fc) as (out & E & S). exists e, out.
    destruct A as (_ & Hp & Hie & _). rewrite zlen_nil in Hie.
    assert (R : (e_position e <? e_ie e) = false) by (apply Z.ltb_ge; lia).
    split; [destruct fuel; cbn [eject_loop]; rewrite R; reflexivity|].
    rewrite app_nil_r. auto.
  - cbn [length] in Hf. destruct fuel as [|[|fuel]]; [lia | lia |].
    pose proof (in_range _ _ _ _ _ A) as R. cbn [eject_loop]. rewrite R.
    assert (D : (is_sewing s \/ is_change s) \/ (~ is_sewing s /\ ~ is_change s)).
    { rewrite <- sews_spec, <- changes_spec. destruct (sews (scmd s)), (changes (scmd s)); intuition congruence. }
    destruct D as [D|[D1 D2]].
    + destruct (step_edge _ _ _ _ _ A D) as (e' & out & -> & G & [A'|[A' M]]); cbn [bindr].
      * destruct (IH _ _ _ (S fuel) A' ltac:(constructor) ltac:(lia)) as (e2 & out2 & E1 & E2 & E3).
        exists e2, (out ++ s :: out2).
        split; [exact E1|]. split.
        -- rewrite E2, <- !app_assoc. reflexivity.
        -- apply ejected_more; auto.
      * pose proof (in_range _ _ _ _ _ A') as R'. cbn [eject_loop]. rewrite R'.
        destruct (step_again _ _ _ _ A' M D) as (e3 & -> & A3). cbn [bindr].
        destruct (IH _ _ _ fuel A3 ltac:(constructor) ltac:(lia)) as (e2 & out2 & E1 & E2 & E3).
        exists e2, (out ++ s :: out2). split; [exact E1|]. split.
        -- rewrite E2, <- !app_assoc. reflexivity.
        -- apply ejected_more; auto.
    + destruct (step_gap _ _ _ _ _ A D1 D2) as (e' & -> & A'). cbn [bindr].
      destruct (IH _ _ _ (S fuel) A') as (e2 & out2 & E1 & E2 & E3).
      * apply Forall_app. split; [assumption|]. constructor; [auto | constructor].
      * lia.
      * exists e2, out2. split; [exact E1|]. split; [exact E2|]. rewrite <- app_assoc in E3. exact E3.
Qed.

Lemma interpolate_frame_eject_spec l fuel : (2 * length l <= fuel)%nat ->
  exists l', interpolate_frame_eject fuel l = Ok l' /\ ejected l l'.
Proof.
  intros Hf. destruct (eject_loop_spec l [] [] (mkE l 0 None None 0 (zlen l)) fuel) as (e & out & E1 & E2 & E3); auto.
  - unfold at_point. cbn [e_ss e_position e_ie app]. change (zlen (@nil (stitch C))) with 0. repeat split; try lia. constructor. constructor.
  - exists out. split; [|exact E3]. unfold interpolate_frame_eject. rewrite E1. cbn [bindr]. exact E2.
Qed.

(** What stays: the sewing and the thread changes. *)
Lemma gap_calm (at_end : bool) g g' : gap_ejected at_end g g' -> Forall calm g -> Forall calm g'.
Proof.
  intros [a j b st c _|]; [|auto]. rewrite !Forall_app. intros [H _]. split; [assumption|].
  constructor; [|constructor]. split; unfold is_sewing, is_change; cbn; intuition discriminate.
Qed.
End Eject.
