(** Property C204: the trims of a loaded JEF file. *)
From Coq Require Import ZArith QArith Qabs List Bool Lia Lqa.
From Verif Require Import PyBase EmbConst StreamModel HelperModel StreamSpec StreamProofs NumQ QuantModel PatternModel ThreadModel
  DstFileModel JefModel JefFileModel JefThreads JefProofs ResaveSpec JefAgainSpec JefAgainProofs PropertiesJefAgain.
Import ListNotations.
Open Scope Z_scope.

Lemma far_spec : forall dist x y a, far (tenths dist) (sx a - x) (sy a - y) = true <-> far_away dist x y a.
Proof.
  intros dist x y a. unfold far, far_away, tenths. destruct dist as [d|]; [|split; [discriminate|intros (d & E & _); discriminate]].
  rewrite orb_true_iff, !negb_true_iff. split.
  - intros H. exists d. split; [reflexivity|]. destruct H as [H|H]; [right|left]; apply Qnot_le_lt; intros X; apply Qle_bool_iff in X; congruence.
  - intros (d' & E & H). injection E as <-. destruct H as [H|H]; [right|left]; apply not_true_iff_false; intros X; apply Qle_bool_iff in X; exact (Qlt_not_le _ _ H X).
Qed.
(** A run of jumps, with what the reader remembers of it. *)
Lemma passed_run : forall dist J s r tr x0 y0 m seen K px py, Forall (fun a => scmd a = JUMP) J -> scmd s <> JUMP -> In (scmd s) [STITCH; COLOR_CHANGE; END] ->
  m = negb tr && existsb (fun a => far dist (sx a - x0) (sy a - y0)) seen -> since_back x0 y0 seen K ->
  exists K', since_back x0 y0 (seen ++ J) K' /\
  passed dist tr (Some (x0, y0, m, K)) px py (J ++ s :: r) =
  (if negb tr && existsb (fun a => far dist (sx a - x0) (sy a - y0)) (seen ++ J) then [mkS x0 y0 TRIM] else []) ++ K' ++ s :: passed dist (cut_by tr (scmd s)) None (sx s) (sy s) r.
Proof.
  intros dist J s r. induction J as [|a J IH]; intros tr x0 y0 m seen K px py HJ Hs Hi Hm HK.
  - exists K. rewrite app_nil_r. split; [exact HK|]. cbn [app passed]. replace (cmd_of (scmd s) =? JUMP) with false.
    + cbn [held]. rewrite <- Hm, <- app_assoc. destruct m; reflexivity.
    + cbn [In] in Hi. destruct Hi as [Hi|[Hi|[Hi|[]]]]; rewrite <- Hi; reflexivity.
  - apply Forall_cons_iff in HJ. destruct HJ as [Ha HJ]. cbn [app passed]. rewrite Ha. change (cmd_of JUMP =? JUMP) with true. cbv iota.
    destruct (IH tr x0 y0 (m || negb tr && far dist (sx a - x0) (sy a - y0)) (seen ++ [a]) (if (sx a =? x0) && (sy a =? y0) then [] else K ++ [a]) (sx a) (sy a) HJ Hs Hi) as (K' & B1 & B2).
    + rewrite Hm, existsb_app. cbn [existsb]. rewrite orb_false_r, andb_orb_distrib_r. reflexivity.
    + destruct HK as (before & E & F & Bf). destruct ((sx a =? x0) && (sy a =? y0)) eqn:Eb.
      * apply andb_true_iff in Eb. destruct Eb as [Ex Ey]. apply Z.eqb_eq in Ex, Ey. exists (seen ++ [a]). split; [rewrite app_nil_r; reflexivity|]. split; [constructor|]. right. exists seen, a. auto.
      * exists before. split; [rewrite E, app_assoc; reflexivity|]. split; [|exact Bf]. apply Forall_app. split; [exact F|]. constructor; [|constructor].
        intros [X Y]. rewrite X, Y, !Z.eqb_refl in Eb. discriminate.
    + exists K'. rewrite <- app_assoc in B1. split; [exact B1|]. rewrite B2, <- app_assoc. reflexivity.
Qed.
Lemma split_run : forall l : list (stitch Z), (exists J s r, l = J ++ s :: r /\ Forall (fun a => scmd a = JUMP) J /\ scmd s <> JUMP) \/ Forall (fun a => scmd a = JUMP) l.
Proof.
  induction l as [|a l [(J & s & r & -> & H1 & H2)|H]]; [right; constructor| |].
  - left. destruct (Z.eq_dec (scmd a) JUMP) as [E|E]; [exists (a :: J), s, r; auto|exists [], a, (J ++ s :: r); auto].
  - destruct (Z.eq_dec (scmd a) JUMP) as [E|E]; [right; constructor; assumption|left; exists [], a, l; auto].
Qed.
Lemma exists_far : forall dist x y J, existsb (fun a => far (tenths dist) (sx a - x) (sy a - y)) J = true <-> Exists (far_away dist x y) J.
Proof.
  intros dist x y J. rewrite existsb_exists, Exists_exists. split; intros (a & I & H); exists a; (split; [exact I|]); apply (far_spec dist x y a); exact H.
Qed.
Lemma passed_loads : forall dist n l cut x y, (List.length l <= n)%nat -> Forall (fun a => In (scmd a) [STITCH; JUMP; COLOR_CHANGE; END]) l ->
  (l = [] \/ exists b e, l = b ++ [e] /\ scmd e = END) -> jef_loads dist cut x y l (passed (tenths dist) cut None x y l).
Proof.
  intros dist. induction n as [|n IH]; intros l cut x y L H Hl.
  { destruct l; [constructor|cbn in L; lia]. }
  destruct (split_run l) as [(J & s & r & -> & HJ & Hs)|A].
  - apply Forall_app in H. destruct H as [_ H]. apply Forall_cons_iff in H. destruct H as [Hk H].
    assert (Hk' : In (scmd s) [STITCH; COLOR_CHANGE; END]) by (cbn [In] in *; intuition congruence).
    assert (R : jef_loads dist (cut_by cut (scmd s)) (sx s) (sy s) r (passed (tenths dist) (cut_by cut (scmd s)) None (sx s) (sy s) r)).
    { apply IH; [rewrite app_length in L; cbn [List.length] in L; lia|exact H|]. destruct Hl as [Hl|(b & e & Hl & He)]; [destruct J; discriminate|].
      destruct r as [|r0 r1]; [left; reflexivity|right]. 
      destruct (@exists_last _ (r0 :: r1) ltac:(discriminate)) as (b' & e' & E). rewrite E in *. exists b', e'. split; [reflexivity|].
      assert (X : (J ++ s :: b') ++ [e'] = b ++ [e]) by (rewrite <- app_assoc; exact Hl). apply app_inj_tail in X. destruct X as [_ ->]. exact He. }
    assert (E0 : passed (tenths dist) cut None x y (J ++ s :: r) = passed (tenths dist) cut (Some (x, y, false, [])) x y (J ++ s :: r)).
    { destruct J as [|a J]; [|reflexivity]. cbn [app passed]. replace (cmd_of (scmd s) =? JUMP) with false; [reflexivity|]. cbn [In] in Hk'. destruct Hk' as [K|[K|[K|[]]]]; rewrite <- K; reflexivity. }
    rewrite E0. destruct (passed_run (tenths dist) J s r cut x y false [] [] x y HJ Hs Hk') as (K & B1 & B2).
    + rewrite andb_false_r. reflexivity.
    + exists []. split; [reflexivity|]. split; [constructor|left; reflexivity].
    + rewrite B2. cbn [app] in *. eapply jl_run; [exact HJ|exact Hs| |exact B1|exact R].
      destruct (negb cut && existsb (fun a => far (tenths dist) (sx a - x) (sy a - y)) J) eqn:Em.
      * left. apply andb_true_iff in Em. destruct Em as [E1 E2]. apply negb_true_iff in E1. split; [exact E1|]. split; [apply exists_far; exact E2|reflexivity].
      * right. split; [|reflexivity]. destruct cut; [left; reflexivity|right]. cbn [negb andb] in Em. intros X. apply exists_far in X. congruence.
  - destruct Hl as [-> |(b & e & -> & He)]; [constructor|]. exfalso. apply Forall_app in A. destruct A as [_ A]. apply Forall_inv in A. rewrite He in A. discriminate.
Qed.
Lemma moved_kinds : forall l : list rel, Forall (fun a => In (scmd a) [STITCH; JUMP; COLOR_CHANGE; STOP]) l -> forall x y, Forall (fun a => scmd a <> STOP) (apply_rel x y l) ->
  Forall (fun a => In (scmd a) [STITCH; JUMP; COLOR_CHANGE]) (apply_rel x y l).
Proof.
  intros l Sc. induction Sc as [|a l Ha _ IH]; intros x y H; [constructor|].
  cbn [apply_rel] in *. apply Forall_cons_iff in H. destruct H as [H1 H2]. constructor; [cbn [scmd In] in *; intuition congruence|exact (IH _ _ H2)].
Qed.
Lemma stored_kinds : forall missing file raw th, jef_read (jef_thread_of missing) file = Ok (raw, th) -> exists b e, raw = b ++ [e] /\ scmd e = END /\
  (Forall (fun a => scmd a <> STOP) raw -> Forall (fun a => In (scmd a) [STITCH; JUMP; COLOR_CHANGE]) b).
Proof.
  intros missing file raw th E. unfold jef_read in E.
  destruct (read_int_32le file) as [[o|] r1]; [|destruct (read_int_32le (skipn 24 file)) as [[]]; discriminate].
  destruct (read_int_32le (skipn 24 file)) as [[c|] r2]; [|discriminate].
  destruct (jef_read_colors _ _ _) as [th1|]; [|discriminate]. cbn [bindr] in E. unfold jef_read_stitches in E.
  destruct (jef_read_loop th1 1 _) as [[l th']|] eqn:El; [|discriminate]. cbn [bindr] in E. rewrite apply_rel_end in E. injection E as <- _.
  pose proof (still_changes _ _ _ _ _ _ _ (Nat.le_refl _) El) as Sc. exists (apply_rel 0 0 l), (last_of (apply_rel 0 0 l)). split; [apply closed_last|]. split; [apply last_end|].
  rewrite closed_last. intros H. apply Forall_app in H. destruct H as [H _]. refine (moved_kinds l _ 0 0 H). eapply Forall_impl; [|exact Sc]. cbv beta. intros a [_ Ha]. exact Ha.
Qed.

(** A JEF file without stops: what is loaded is what is stored, with a trim before each run of jumps that goes
    further than the distance from where it begins, while the thread is not cut (it is cut at the beginning and
    after a colour change), and without the jumps that lead back to where the run began. *)
Theorem C204_jef_trims : forall missing dist file raw th l threads, jef_read (jef_thread_of missing) file = Ok (raw, th) -> Forall (fun a => scmd a <> STOP) raw ->
  opened missing dist file l threads -> exists l', l = map of_int l' /\ jef_loads dist true 0 0 raw l'.
Proof.
  intros missing dist file raw th l threads E Hs (fuel & Ho). destruct (stored_kinds missing file raw th E) as (b & e & -> & He & Hb). specialize (Hb Hs).
  unfold jef_read_file in Ho. rewrite E in Ho. cbn [bindr] in Ho. fold (tenths dist) in Ho.
  destruct (interpolate_trims _ _ _ _ _) as [l0|] eqn:Ei; [|discriminate]. cbn [bindr] in Ho. injection Ho as <- _.
  exists (passed (tenths dist) true None 0 0 (b ++ [e])). split; [exact (interpolated_passed (tenths dist) b e fuel l0 He Hb Ei)|].
  apply (passed_loads dist _ _ _ _ _ (Nat.le_refl _)).
  - apply Forall_app. split; [eapply Forall_impl; [|exact Hb]; cbv beta; intros a Ha; cbn [In] in *; tauto|]. constructor; [rewrite He; cbn; auto|constructor].
  - right. exists b, e. auto.
Qed.
(** That says it all: only one list is loaded so. *)
Lemma run_unique : forall (J J' : list (stitch Z)) s s' r r', J ++ s :: r = J' ++ s' :: r' -> Forall (fun a => scmd a = JUMP) J -> Forall (fun a => scmd a = JUMP) J' ->
  scmd s <> JUMP -> scmd s' <> JUMP -> J = J' /\ s = s' /\ r = r'.
Proof.
  induction J as [|a J IH]; intros [|a' J'] s s' r r' E H H' Hs Hs'; cbn [app] in E; injection E as E1 E2.
  - auto.
  - subst. apply Forall_inv in H'. contradiction.
  - subst. apply Forall_inv in H. contradiction.
  - apply Forall_inv_tail in H, H'. destruct (IH J' s s' r r' E2 H H' Hs Hs') as (-> & -> & ->). subst. auto.
Qed.
Lemma back_unique : forall x y J K K', since_back x y J K -> since_back x y J K' -> K = K'.
Proof.
  assert (G : forall x y (b b' K K' : list (stitch Z)), b ++ K = b' ++ K' -> (List.length b <= List.length b')%nat -> Forall (fun a => ~ (sx a = x /\ sy a = y)) K ->
    (b' = [] \/ exists c a, b' = c ++ [a] /\ sx a = x /\ sy a = y) -> K = K').
  { intros x y b b' K K' E L F B'.
    destruct (Nat.eq_dec (List.length b) (List.length b')) as [e|e].
    - destruct (app_eq_app _ _ _ _ E) as (t & [[-> ->]|[-> ->]]); rewrite app_length in e; destruct t; cbn in e; try lia; reflexivity.
    - exfalso. destruct B' as [-> |(c & a & -> & X & Y)]; [cbn in L, e; lia|].
      destruct (app_eq_app _ _ _ _ E) as (t & [[Eb Ek]|[Eb Ek]]); [subst b; rewrite !app_length in L, e; lia|].
      destruct (@exists_last _ t) as (t' & z & ->); [intros ->; rewrite app_nil_r in Eb; subst b; lia|].
      rewrite app_assoc in Eb. apply app_inj_tail in Eb. destruct Eb as [_ <-]. rewrite Ek in F. rewrite <- app_assoc in F. apply Forall_app in F. destruct F as [_ F]. apply Forall_inv in F. apply F. auto. }
  intros x y J K K' (b & E & F & B) (b' & E' & F' & B'). rewrite E in E'.
  destruct (le_ge_dec (List.length b) (List.length b')) as [L|L]; [exact (G x y b b' K K' E' L F B')|symmetry; exact (G x y b' b K' K (eq_sym E') L F' B)].
Qed.
Lemma loads_inv : forall dist cut x y q l, jef_loads dist cut x y q l ->
  (q = [] /\ l = []) \/ exists J mark K s r r', q = J ++ s :: r /\ l = mark ++ K ++ s :: r' /\
    Forall (fun a => scmd a = JUMP) J /\ scmd s <> JUMP /\ trim_for dist cut x y J mark /\ since_back x y J K /\ jef_loads dist (cut_by cut (scmd s)) (sx s) (sy s) r r'.
Proof. intros dist cut x y q l []; [left; auto|right]. do 6 eexists. eauto 10. Qed.
Theorem C204_one_list : forall dist raw cut x y l, jef_loads dist cut x y raw l -> forall l', jef_loads dist cut x y raw l' -> l' = l.
Proof.
  intros dist raw cut x y l H. induction H as [cut x y|cut x y J mark K s r r' HJ Hs Ht Hb _ IH]; intros l' H'.
  - destruct (loads_inv _ _ _ _ _ _ H') as [[_ ->]|(J & mark & K & s & r & r' & E & _)]; [reflexivity|destruct J; discriminate].
  - destruct (loads_inv _ _ _ _ _ _ H') as [[E _]|(J1 & mark1 & K1 & s1 & r1 & r1' & F & -> & A & B & C & D & E)]; [destruct J; discriminate|].
    destruct (run_unique _ _ _ _ _ _ F HJ A Hs B) as (<- & <- & <-). rewrite (back_unique _ _ _ _ _ D Hb), (IH _ E).
    replace mark1 with mark; [reflexivity|]. destruct Ht as [(T1 & T2 & ->)|(T1 & ->)], C as [(C1 & C2 & ->)|(C1 & ->)]; try reflexivity; exfalso.
    + destruct C1 as [C1|C1]; [congruence|exact (C1 T2)].
    + destruct T1 as [T1|T1]; [congruence|exact (T1 C2)].
Qed.
Print Assumptions C204_jef_trims.
Print Assumptions C204_one_list.
(** The file of C203: it holds a jump of 4 millimetres, which is long enough for a trim if the distance is less. *)
Definition c204_raw : list (stitch Z) := match jef_read (jef_thread_of no_thread) c203_landed with Ok (raw, _) => raw | Err _ => [] end.
Definition c204_loaded (dist : option Q) : list (stitch Z) := passed (tenths dist) true None 0 0 c204_raw.
Example C204_case : (exists th, jef_read (jef_thread_of no_thread) c203_landed = Ok (c204_raw, th)) /\ Forall (fun a => scmd a <> STOP) c204_raw /\
  (exists l th, opened no_thread (Some 3%Q) c203_landed l th) /\
  map (fun d => count_occ Z.eq_dec (map (fun a => scmd a) (c204_loaded d)) TRIM) [Some 3%Q; Some (399 # 100)%Q; Some 4%Q; None] = [1; 1; 0; 0]%nat /\
  List.length c204_raw = 10%nat.
Proof.
  split; [eexists; vm_compute; reflexivity|]. split; [vm_compute; repeat (constructor; [discriminate|]); constructor|].
  split; [eexists _, _; exists 200%nat; vm_compute; reflexivity|]. split; vm_compute; reflexivity.
Qed.
