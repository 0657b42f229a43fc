(** C174, C175: matrices as objects: any history of calls, the operators, comparison and printing. *)
From Coq Require Import ZArith Reals Lra Psatz List Bool Lia.
From Verif Require Import PyBase NumModel NumR NumRProofs MatrixModel MatrixOpsModel PropertiesReal.
Import ListNotations.
Open Scope R_scope.

Notation rcall := (call RNum).
Notation robj := (mobj RNum).
(** One after the other, the last matrix of the list first. *)
Fixpoint through (l : list rmat) (p : R * R) : R * R := match l with [] => p | m :: r => moved m (through r p) end.
(** What a call makes of a map [f]. *)
Definition after (c : rcall) (f g : R * R -> R * R) : Prop :=
  match c with
  | Post_scale _ kx ky x y => forall p, g p = f (about (x, y) (scaled kx ky) p)
  | Post_translate _ tx ty => forall p, g p = f (translated tx ty p)
  | Post_rotate _ d x y => forall p, g p = f (about (x, y) (rotated d) p)
  | Post_cat _ l => forall p, g p = f (through l p)
  | Pre_scale _ kx ky => forall p, g p = scaled kx ky (f p)
  | Pre_translate _ tx ty => forall p, g p = translated tx ty (f p)
  | Pre_rotate _ d => forall p, g p = rotated d (f p)
  | Pre_cat _ l => forall p, g p = through (rev l) (f p)
  | Inverse _ => forall p, g (f p) = p /\ f (g p) = p
  | Reset _ => forall p, g p = p
  | Imatmul _ other => forall p, g p = f (moved (entries other) p)
  end.
(** The map of a matrix that was made new and then changed by calls. *)
Inductive acts : list rcall -> (R * R -> R * R) -> Prop :=
| acts_new f : (forall p, f p = p) -> acts [] f
| acts_call l c f g : acts l f -> after c f g -> acts (l ++ [c]) g.
(** The matrices given to the calls are affine. *)
Definition given_affine (c : rcall) : Prop :=
  match c with Post_cat _ l | Pre_cat _ l => Forall affine l | Imatmul _ o => affine (entries o) | _ => True end.

Lemma identity_moves p : moved (get_identity RN) p = p.
Proof. destruct p as [x y]. mring. f_equal; ring. Qed.
Lemma rotate_affine d : affine (get_rotate RN d).
Proof. unfold affine. mring. auto. Qed.
Lemma identity_affine : affine (get_identity RN).
Proof. unfold affine. mring. auto. Qed.
Lemma post_cat_moves : forall l m p, Forall affine l -> moved (post_cat RN m l) p = moved m (through l p).
Proof.
  induction l as [|a l IH]; intros m p H; [reflexivity|]. inversion_clear H as [|? ? H1 H2]. unfold post_cat in *. cbn [fold_left through].
  rewrite (IH _ p H2). apply C39_product_is_composition, H1.
Qed.
Lemma post_cat_affine : forall l m, affine m -> Forall affine l -> affine (post_cat RN m l).
Proof.
  induction l as [|a l IH]; intros m A H; [exact A|]. inversion_clear H as [|? ? H1 H2]. apply (IH (matrix_multiply RN m a)); [|exact H2].
  apply C39_product_affine; assumption.
Qed.
Lemma through_app : forall a b p, through (a ++ b) p = through a (through b p).
Proof. induction a as [|m a IH]; intros b p; [reflexivity|]. cbn [app through]. rewrite IH. reflexivity. Qed.
Lemma pre_cat_moves : forall l m p, affine m -> Forall affine l ->
  moved (pre_cat RN m l) p = through (rev l) (moved m p) /\ affine (pre_cat RN m l).
Proof.
  induction l as [|a l IH]; intros m p A H; [split; [reflexivity|exact A]|]. inversion_clear H as [|? ? H1 H2].
  destruct (IH (matrix_multiply RN a m) p (C39_product_affine _ _ H1 A) H2) as [I1 I2]. split; [|exact I2].
  change (pre_cat RN m (a :: l)) with (pre_cat RN (matrix_multiply RN a m) l). rewrite I1. cbn [rev]. rewrite through_app. cbn [through].
  rewrite C39_product_is_composition by exact A. reflexivity.
Qed.
Lemma post_affine m : affine m -> (forall x y, affine (post_translate RN m x y)) /\ (forall kx ky x y, affine (post_scale RN m kx ky x y)) /\
  (forall d x y, affine (post_rotate RN m d x y)).
Proof.
  intros A. assert (T : forall m x y, affine m -> affine (post_translate RN m x y)) by (intros; apply C39_product_affine; [assumption|apply translate_affine]).
  split; [intros; apply T, A|]. split.
  - intros kx ky x y. unfold post_scale. destruct (_ && _)%bool; [apply C39_product_affine; [exact A|apply scale_affine]|].
    apply T, C39_product_affine; [apply T, A|apply scale_affine].
  - intros d x y. unfold post_rotate. destruct (_ && _)%bool; [apply C39_product_affine; [exact A|apply rotate_affine]|].
    apply T, C39_product_affine; [apply T, A|apply rotate_affine].
Qed.
Lemma call_means m c m' : affine (entries m) -> given_affine c -> run_call RN m c = Ok m' ->
  after c (moved (entries m)) (moved (entries m')) /\ affine (entries m').
Proof.
  intros A G W. destruct (post_affine _ A) as (A1 & A2 & A3).
  destruct c as [kx ky x y|tx ty|d x y|l|kx ky|tx ty|d|l| | |o]; cbn [run_call] in W; cbn [after]; cbn [given_affine] in G.
  - injection W as <-. cbn [entries]. split; [|apply A2]. intros p. exact (proj1 (proj2 (C39_post_operations (entries m) p 0 0 kx ky 0 x y))).
  - injection W as <-. cbn [entries]. split; [|apply A1]. intros p. exact (proj1 (C39_post_operations (entries m) p tx ty 0 0 0 0 0)).
  - injection W as <-. cbn [entries]. split; [|apply A3]. intros p. exact (proj2 (proj2 (C39_post_operations (entries m) p 0 0 0 0 d x y))).
  - injection W as <-. cbn [entries]. split; [|apply post_cat_affine; assumption]. intros p. apply post_cat_moves, G.
  - injection W as <-. cbn [entries]. split; [|apply C39_product_affine; [apply scale_affine|exact A]]. intros p. exact (proj1 (proj2 (C39_pre_operations (entries m) p 0 0 kx ky 0 A))).
  - injection W as <-. cbn [entries]. split; [|apply C39_product_affine; [apply translate_affine|exact A]]. intros p. exact (proj1 (C39_pre_operations (entries m) p tx ty 0 0 0 A)).
  - injection W as <-. cbn [entries]. split; [|apply C39_product_affine; [apply rotate_affine|exact A]]. intros p. exact (proj2 (proj2 (C39_pre_operations (entries m) p 0 0 0 0 d A))).
  - injection W as <-. cbn [entries]. split; [intros p; exact (proj1 (pre_cat_moves l (entries m) p A G))|exact (proj2 (pre_cat_moves l (entries m) (0, 0) A G))].
  - destruct (Req_EM_T (det (entries m)) 0) as [D|D]; [rewrite (proj2 (C39_inverse (entries m)) D) in W; discriminate|].
    destruct (proj1 (C39_inverse (entries m)) D) as (i & Ei & _ & _ & Ia & Im). rewrite Ei in W. cbn [bindr] in W. injection W as <-. cbn [entries].
    split; [|apply Ia, A]. intros p. exact (Im p A).
  - injection W as <-. cbn [entries new_matrix]. split; [apply identity_moves|apply identity_affine].
  - injection W as <-. cbn [entries]. split; [|apply C39_product_affine; assumption]. intros p. apply C39_product_is_composition, G.
Qed.
Lemma acts_runs : forall l done m m', acts done (moved (entries m)) -> affine (entries m) -> Forall given_affine l -> run_calls RN m l = Ok m' ->
  acts (done ++ l) (moved (entries m')) /\ affine (entries m').
Proof.
  induction l as [|c l IH]; intros done m m' B A G W; cbn [run_calls] in W.
  - injection W as <-. rewrite app_nil_r. split; assumption.
  - destruct (run_call RN m c) as [n|] eqn:E; cbn [bindr] in W; [|discriminate]. inversion_clear G as [|? ? G1 G2].
    destruct (call_means m c n A G1 E) as [C1 C2]. destruct (IH (done ++ [c]) n m' (acts_call _ _ _ _ B C1) C2 G2 W) as [I1 I2].
    rewrite <- app_assoc in I1. split; assumption.
Qed.
(** After any calls a new matrix moves the points as the calls say. *)
Theorem C174_history : forall l m, Forall given_affine l -> run_calls RN (new_matrix RN) l = Ok m -> acts l (moved (entries m)).
Proof.
  intros l m G W. apply (acts_runs l [] (new_matrix RN) m); [|apply identity_affine|exact G|exact W].
  apply acts_new, identity_moves.
Qed.
(** The calls succeed, unless one inverts a matrix that moves two different points to one place. *)
Lemma singular m : affine m -> (det m = 0 <-> exists p q, p <> q /\ moved m p = moved m q).
Proof.
  destruct m as [a b c d e f g h i]. intros (H2 & H5 & H8). unfold det. cbn [m0 m1 m2 m3 m4 m5 m6 m7 m8] in *. change (F RNum) with R in *. subst c f i.
  split.
  - intros D. assert (D' : a * e - b * d = 0) by lra.
    destruct (Req_EM_T d 0) as [D0|D0]; [destruct (Req_EM_T a 0) as [A0|A0]; [destruct (Req_EM_T e 0) as [E0|E0]; [destruct (Req_EM_T b 0) as [B0|B0]|]|]|].
    + exists (0, 0), (1, 0). split; [intros E; injection E as E; lra|]. mring. subst. f_equal; ring.
    + exists (0, 0), (e, - b). split; [intros E; injection E as _ E; lra|]. mring. f_equal; nra.
    + exists (0, 0), (e, - b). split; [intros E; injection E as E _; lra|]. mring. f_equal; nra.
    + exists (0, 0), (d, - a). split; [intros E; injection E as _ E; lra|]. mring. f_equal; nra.
    + exists (0, 0), (d, - a). split; [intros E; injection E as E _; lra|]. mring. f_equal; nra.
  - intros ([x y] & [u v] & N & E). mring. injection E as E1 E2. apply Rminus_diag_eq in E1, E2.
    destruct (Req_EM_T (a * e - b * d) 0) as [Z|Z]; [lra|]. exfalso. apply N.
    assert (X : (a * e - b * d) * (x - u) = 0)
      by (transitivity (e * (x * a + y * d + 1 * g - (u * a + v * d + 1 * g)) - d * (x * b + y * e + 1 * h - (u * b + v * e + 1 * h))); [ring|rewrite E1, E2; ring]).
    assert (Y : (a * e - b * d) * (y - v) = 0)
      by (transitivity (a * (x * b + y * e + 1 * h - (u * b + v * e + 1 * h)) - b * (x * a + y * d + 1 * g - (u * a + v * d + 1 * g))); [ring|rewrite E1, E2; ring]).
    apply Rmult_integral in X, Y. f_equal; lra.
Qed.
Lemma run_app : forall l r m, run_calls RN m (l ++ r) = match run_calls RN m l with Ok n => run_calls RN n r | Err e => Err e end.
Proof.
  induction l as [|c l IH]; intros r m; [reflexivity|]. cbn [app run_calls]. destruct (run_call RN m c) as [n|e]; cbn [bindr]; [apply IH|reflexivity].
Qed.
Theorem C174_fails : forall l, Forall given_affine l ->
  (forall e, run_calls RN (new_matrix RN) l = Err e -> e = ZeroDivisionError) /\
  ((exists e, run_calls RN (new_matrix RN) l = Err e) <->
   exists a b m p q, l = a ++ Inverse RN :: b /\ run_calls RN (new_matrix RN) a = Ok m /\ p <> q /\ moved (entries m) p = moved (entries m) q).
Proof.
  intros l G.
  assert (K : forall a m c, affine (entries m) -> run_call RN m c = Err a -> a = ZeroDivisionError /\ c = Inverse RN /\ det (entries m) = 0).
  { intros a m c A H. destruct c; try discriminate H. cbn [run_call] in H. destruct (Req_EM_T (det (entries m)) 0) as [D|D].
    - rewrite (proj2 (C39_inverse (entries m)) D) in H. cbn [bindr] in H. injection H as <-. auto.
    - destruct (proj1 (C39_inverse (entries m)) D) as (i & Ei & _). rewrite Ei in H. discriminate. }
  assert (Q1 : forall l m e, affine (entries m) -> Forall given_affine l -> run_calls RN m l = Err e ->
     e = ZeroDivisionError /\ exists a b n, l = a ++ Inverse RN :: b /\ run_calls RN m a = Ok n /\ affine (entries n) /\ det (entries n) = 0).
  { clear l G. induction l as [|c l IH]; intros m e A G W; cbn [run_calls] in W; [discriminate|]. inversion_clear G as [|? ? G1 G2].
    destruct (run_call RN m c) as [n|e'] eqn:E; cbn [bindr] in W.
    - destruct (call_means m c n A G1 E) as [_ An]. destruct (IH n e An G2 W) as (E1 & a & b & n' & -> & R1 & R2). split; [exact E1|].
      exists (c :: a), b, n'. split; [reflexivity|]. cbn [run_calls]. rewrite E. cbn [bindr]. auto.
    - injection W as <-. destruct (K e' m c A E) as (-> & -> & D). split; [reflexivity|]. exists [], l, m. auto. }
  split; [intros e W; apply (Q1 l (new_matrix RN) e identity_affine G W)|]. split.
  - intros [e W]. destruct (Q1 l (new_matrix RN) e identity_affine G W) as (_ & a & b & n & E & R1 & R2 & R3).
    apply (singular _ R2) in R3. destruct R3 as (p & q & N & M). exists a, b, n, p, q. auto.
  - intros (a & b & m & p & q & -> & Wa & N & M). apply Forall_app in G. destruct G as [Ga _].
    destruct (acts_runs a [] (new_matrix RN) m (acts_new _ identity_moves) identity_affine Ga Wa) as [_ Am].
    exists ZeroDivisionError. rewrite run_app, Wa. cbn [run_calls run_call]. rewrite (proj2 (C39_inverse (entries m))); [reflexivity|].
    apply (singular _ Am). exists p, q. auto.
Qed.
(** a @ b: b first, then a; neither is changed. *)
Theorem C174_product : forall a b p, affine (entries b) -> moved (entries (matmul RN a b)) p = moved (entries a) (moved (entries b) p).
Proof. intros a b p H. apply C39_product_is_composition, H. Qed.

(** Comparison: equal means the same numbers in the same kind of sequence. *)
Lemma same_entries_iff a b : same_entries RN a b = true <-> a = b.
Proof.
  assert (E : forall x y, feqb RNum x y = true <-> x = y).
  { intros x y. change (feqb RNum x y) with (r_eq x y). pose proof (r_eq_spec x y) as H. destruct (r_eq x y); split; intros K; try assumption; try reflexivity; [discriminate|contradiction]. }
  unfold same_entries. rewrite !andb_true_iff, !E. destruct a as [a0 a1 a2 a3 a4 a5 a6 a7 a8], b as [b0 b1 b2 b3 b4 b5 b6 b7 b8]. cbn [m0 m1 m2 m3 m4 m5 m6 m7 m8]. split.
  - intros H. decompose [and] H. subst. reflexivity.
  - intros H. injection H as -> -> -> -> -> -> -> -> ->. tauto.
Qed.
(** Which of the two kinds a matrix is held in: as made, until something is multiplied into it. *)
Definition multiplies (c : rcall) : bool := match c with Reset _ => false | Post_cat _ [] | Pre_cat _ [] => false | _ => true end.
Definition resets (c : rcall) : bool := match c with Reset _ => true | _ => false end.
Fixpoint untouched (fresh : bool) (l : list rcall) : bool :=
  match l with [] => fresh | c :: r => untouched (if resets c then true else fresh && negb (multiplies c)) r end.
Lemma held_runs : forall l m m', run_calls RN m l = Ok m' ->
  held m' = if untouched (match held m with Tuple => true | List => false end) l then Tuple else List.
Proof.
  induction l as [|c l IH]; intros m m' W; cbn [run_calls untouched] in *.
  - injection W as <-. destruct (held m); reflexivity.
  - destruct (run_call RN m c) as [n|] eqn:E; cbn [bindr] in W; [|discriminate]. rewrite (IH n m' W). f_equal. f_equal.
    destruct c; cbn [run_call resets multiplies] in *; try (injection E as <-; cbn [held]; destruct (held m); reflexivity).
    + injection E as <-. cbn [held]. destruct l0; destruct (held m); reflexivity.
    + injection E as <-. cbn [held]. destruct l0; destruct (held m); reflexivity.
    + destruct (inverse RN (entries m)); [|discriminate]. cbn [bindr] in E. injection E as <-. destruct (held m); reflexivity.
Qed.
(** Two new matrices changed by calls are equal exactly when they hold the same numbers and both or neither were
    multiplied since they were made or reset. *)
Theorem C175_equal : forall l l' m m', run_calls RN (new_matrix RN) l = Ok m -> run_calls RN (new_matrix RN) l' = Ok m' ->
  (matrix_eq RN m m' = true <-> entries m = entries m' /\ untouched true l = untouched true l').
Proof.
  intros l l' m m' W W'. unfold matrix_eq. rewrite andb_true_iff, same_entries_iff, (held_runs _ _ _ W), (held_runs _ _ _ W'). cbn [held new_matrix].
  destruct (untouched true l), (untouched true l'); cbn [holder_eqb]; intuition congruence.
Qed.
(** A matrix can be printed exactly when nothing was multiplied into it since it was made or reset. *)
Theorem C175_print : forall l m, run_calls RN (new_matrix RN) l = Ok m ->
  (untouched true l = true -> exists t, matrix_str RN m = Ok t) /\ (untouched true l = false -> matrix_str RN m = Err TypeError).
Proof.
  intros l m W. pose proof (held_runs _ _ _ W) as H. cbn [held new_matrix] in H. unfold matrix_str. split; intros U; rewrite U in H; rewrite H; eauto.
Qed.
Theorem C175_equal_refuted : exists l l' m m', run_calls RN (new_matrix RN) l = Ok m /\ run_calls RN (new_matrix RN) l' = Ok m' /\
  entries m = entries m' /\ matrix_eq RN m m' = false.
Proof.
  exists [], [Post_translate RN 0 0], (new_matrix RN). eexists. split; [reflexivity|]. split; [reflexivity|]. split; [|reflexivity].
  cbn [entries new_matrix]. mring. f_equal; ring.
Qed.
Theorem C175_print_refuted : exists l m, run_calls RN (new_matrix RN) l = Ok m /\ matrix_str RN m = Err TypeError.
Proof. exists [Post_translate RN 10 0]. eexists. split; reflexivity. Qed.
(** m @= n changes the matrix as m @ n says, but the name m no longer means a matrix. *)
Theorem C175_in_place_refuted : forall a b, fst (imatmul RN a b) = matmul RN a b /\ snd (imatmul RN a b) = None.
Proof. intros a b. split; reflexivity. Qed.
(** Cases. *)
Example C174_case : exists m, run_calls RN (new_matrix RN) [Post_translate RN 10 0; Inverse RN; Pre_scale RN 2 3] = Ok m /\ moved (entries m) (11, 1) = (2, 3).
Proof.
  cbn [run_calls run_call bindr]. destruct (proj1 (C39_inverse (entries (mkO List (post_translate RN (entries (new_matrix RN)) 10 0))))) as (i & Ei & _ & _ & Ia & Im).
  - unfold det. cbn [entries new_matrix]. mring. lra.
  - rewrite Ei. cbn [bindr]. eexists. split; [reflexivity|]. cbn [entries].
    assert (A : affine (post_translate RN (get_identity RN) 10 0)) by (unfold affine; mring; lra).
    destruct (C39_pre_operations i (11, 1) 0 0 2 3 0 (Ia A)) as (_ & -> & _). destruct (Im (1, 1) A) as [E _].
    cbn [entries new_matrix] in E. replace (moved (post_translate RN (get_identity RN) 10 0) (1, 1)) with (11, 1) in E by (mring; f_equal; ring).
    rewrite E. unfold scaled. cbn [fst snd]. f_equal; ring.
Qed.
Example C174_fails_case : exists e, run_calls RN (new_matrix RN) [Post_scale RN 0 1 0 0; Inverse RN] = Err e.
Proof.
  assert (G : Forall given_affine [Post_scale RN 0 1 0 0; Inverse RN]) by (repeat (apply Forall_cons; [exact I|]); apply Forall_nil).
  apply (proj2 (proj2 (C174_fails _ G))). exists [Post_scale RN 0 1 0 0], [], (mkO List (post_scale RN (get_identity RN) 0 1 0 0)), (0, 0), (1, 0). split; [reflexivity|]. split; [reflexivity|].
  split; [intros E; injection E as E; lra|]. cbn [entries]. rewrite !(proj1 (proj2 (C39_post_operations (get_identity RN) _ 0 0 0 1 0 0 0))).
  unfold about, scaled. cbn [fst snd]. f_equal. f_equal; ring.
Qed.
Print Assumptions C174_history.
Print Assumptions C174_fails.
Print Assumptions C174_product.
Print Assumptions C175_equal.
Print Assumptions C175_print.
Print Assumptions C175_equal_refuted.
Print Assumptions C175_print_refuted.
Print Assumptions C175_in_place_refuted.

