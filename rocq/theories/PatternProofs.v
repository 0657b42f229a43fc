(** Bounds, blocks, colour counts, insertion, and the stop/colour conversions. *)
From Coq Require Import ZArith QArith Qabs Qround List Bool Lia Lqa.
From Verif Require Import PyBase EmbConst NumQ MetricSpec PatternModel PatternSpec TrimProofs EjectProofs.
Import ListNotations.
Open Scope Z_scope.

Lemma cmd_of_nonneg c : 0 <= cmd_of c.
Proof. unfold cmd_of, COMMAND_MASK. rewrite Z.land_nonneg. right. lia. Qed.

Lemma skipn_zlen {A} (a r : list A) i : i = zlen a -> skipn (Z.to_nat i) (a ++ r) = r.
Proof. intros ->. rewrite to_nat_zlen, skipn_app, skipn_all, Nat.sub_diag. reflexivity. Qed.
Lemma py_slice_app {A} (a b r : list A) i j :
  i = zlen a -> j = zlen a + zlen b -> py_slice i j (a ++ b ++ r) = b.
Proof.
  intros -> ->. unfold py_slice. rewrite skipn_zlen by reflexivity.
  replace (Z.to_nat (zlen a + zlen b - zlen a)) with (length b) by (unfold zlen; lia).
  rewrite firstn_app, firstn_all, Nat.sub_diag. apply app_nil_r.
Qed.

(** ** Command blocks *)
Lemma command_blocks_run {C} (l : list (stitch C)) r : forall done b c,
  l = done ++ b ++ r -> b <> [] -> Forall (fun s => cmd_of (scmd s) = c) b -> 0 <= c ->
  command_cut (b ++ r) (command_blocks l (zlen done) c (zlen done + zlen b) r).
Proof.
  induction r as [|s r IH]; intros done b c El Hb Fb Hc; cbn [command_blocks].
  - rewrite El, skipn_zlen, !app_nil_r by reflexivity. apply command_last with c; auto.
  - destruct (Z.eqb_spec (cmd_of (scmd s)) c) as [E|E]; cbn [orb].
    + replace (zlen done + zlen b + 1) with (zlen done + zlen (b ++ [s]))
        by (rewrite zlen_app, zlen_cons, zlen_nil; lia).
      rewrite E.
      replace (b ++ s :: r) with ((b ++ [s]) ++ r) by (rewrite <- app_assoc; reflexivity).
      apply IH; auto.
      * rewrite El, <- app_assoc. reflexivity.
      * destruct b; discriminate.
      * apply Forall_app. auto.
    + destruct (Z.eqb_spec c NO_COMMAND) as [N|_]; [unfold NO_COMMAND in N; lia|].
      rewrite El at 1. rewrite py_slice_app by reflexivity.
      apply command_next with c; auto.
      replace (zlen done + zlen b) with (zlen (done ++ b)) by apply zlen_app.
      change (s :: r) with ([s] ++ r).
      replace (zlen (done ++ b) + 1) with (zlen (done ++ b) + zlen [s]) by reflexivity.
      apply IH; auto.
      * rewrite El, <- app_assoc. reflexivity.
      * discriminate.
      * apply cmd_of_nonneg.
Qed.
Lemma command_blocks_spec {C} (l : list (stitch C)) : command_cut l (get_as_command_blocks l).
Proof.
  unfold get_as_command_blocks. destruct l as [|s r].
  - cbn. apply command_nil.
  - cbn [command_blocks]. rewrite orb_true_r.
    change (s :: r) with ([s] ++ r) at 1.
    apply (command_blocks_run (s :: r) r [] [s]); auto; [discriminate | apply cmd_of_nonneg].
Qed.
Lemma command_cut_concat {C} (l : list (stitch C)) bs : command_cut l bs -> concat bs = l.
Proof. induction 1; cbn [concat]; rewrite ?app_nil_r; congruence. Qed.

(** ** Colour blocks *)
Lemma plain_color_snoc {C} (b : list (stitch C)) s : plain_color b -> in_color s -> plain_color (b ++ [s]).
Proof.
  destruct b as [|u b]; cbn [app plain_color]; [auto|]. intros [H F] Hs. split; [assumption|].
  apply Forall_app. auto.
Qed.
Lemma zlen_eqb {A} (b : list A) : b <> [] -> zlen b <> 0.
Proof. intros H E. apply H, zlen_inv, E. Qed.

Lemma colorblocks_spec {T C} (get : Z -> T) (l : list (stitch C)) r : forall done b n,
  l = done ++ b ++ r -> plain_color b ->
  exists bs, color_cut (b ++ r) bs
    /\ map fst (colorblocks get l n (zlen done) (zlen done + zlen b) r) = bs
    /\ map snd (colorblocks get l n (zlen done) (zlen done + zlen b) r)
       = map get (map (fun i => n + Z.of_nat i) (seq 0 (length bs))).
Proof.
  assert (Shift : forall n k, map get (map (fun i => n + Z.of_nat i) (seq 1 k))
                         = map get (map (fun i => n + 1 + Z.of_nat i) (seq 0 k))).
  { intros n k. rewrite <- seq_shift, !map_map. apply map_ext. intros i. f_equal. lia. }
  induction r as [|s r IH]; intros done b n El Pb; cbn [colorblocks].
  - destruct (Z.eqb_spec (zlen done) (zlen l)) as [E|E]; cbn [negb].
    + rewrite El, !zlen_app, zlen_nil in E. assert (b = []) as -> by (apply zlen_inv; lia).
      exists []. repeat split. constructor.
    + exists [b]. rewrite El, skipn_zlen, !app_nil_r by reflexivity. split.
      * apply color_last; auto. intros ->. apply E. rewrite El. cbn [app]. rewrite app_nil_r. reflexivity.
      * cbn. split; [reflexivity|]. repeat f_equal. lia.
  - assert (El2 : l = (done ++ b ++ [s]) ++ [] ++ r) by (rewrite El, <- !app_assoc; reflexivity).
    assert (Z2 : zlen (done ++ b ++ [s]) = zlen done + zlen b + 1)
      by (rewrite !zlen_app, zlen_cons, zlen_nil; lia).
    assert (Z2' : zlen (done ++ b ++ [s]) + zlen (@nil (stitch C)) = zlen done + zlen b + 1)
      by (rewrite Z2, zlen_nil; lia).
    destruct (Z.eqb_spec (cmd_of (scmd s)) COLOR_BREAK) as [EB|EB].
    + destruct (Z.eqb_spec (zlen done) (zlen done + zlen b)) as [E|E]; cbn [negb].
      * assert (b = []) as -> by (apply zlen_inv; lia).
        destruct (IH (done ++ [] ++ [s]) [] n El2 I) as (bs & H1 & H2 & H3).
        rewrite Z2', Z2 in *. exists bs. split; [|auto]. cbn [app] in *. apply color_break_empty; auto.
      * destruct (IH (done ++ b ++ [s]) [] (n + 1) El2 I) as (bs & H1 & H2 & H3).
        rewrite Z2', Z2 in *. exists (b :: bs). split.
        -- apply color_break; auto. intros ->. apply E. rewrite zlen_nil. lia.
        -- cbn [map fst snd length seq]. rewrite H2, H3, Shift. rewrite El at 1.
           rewrite py_slice_app by reflexivity. split; [reflexivity|]. f_equal. f_equal. lia.
    + destruct (Z.eqb_spec (cmd_of (scmd s)) COLOR_CHANGE) as [EC|EC].
      * destruct (IH (done ++ b ++ [s]) [] (n + 1) El2 I) as (bs & H1 & H2 & H3).
        rewrite Z2', Z2 in *. exists ((b ++ [s]) :: bs). split.
        -- apply color_change; auto.
        -- cbn [map fst snd length seq]. rewrite H2, H3, Shift. split.
           ++ f_equal. rewrite El. replace (b ++ s :: r) with ((b ++ [s]) ++ r) by (rewrite <- app_assoc; reflexivity).
              apply py_slice_app; [reflexivity|]. rewrite zlen_app, zlen_cons, zlen_nil. lia.
           ++ f_equal. f_equal. lia.
      * assert (Step : in_color s \/ b = [] /\ cmd_of (scmd s) = NEEDLE_SET ->
          exists bs, color_cut (b ++ s :: r) bs
            /\ map fst (colorblocks get l n (zlen done) (zlen done + zlen b + 1) r) = bs
            /\ map snd (colorblocks get l n (zlen done) (zlen done + zlen b + 1) r)
               = map get (map (fun i => n + Z.of_nat i) (seq 0 (length bs)))).
        { intros Hs. destruct (IH done (b ++ [s]) n) as (bs & H1 & H2 & H3).
          - rewrite El, <- app_assoc. reflexivity.
          - destruct Hs as [Hs|[-> Hs]]; [apply plain_color_snoc; auto|]. cbn. auto.
          - rewrite zlen_app, zlen_cons, zlen_nil in *.
            replace (zlen done + zlen b + 1) with (zlen done + (zlen b + (1 + 0))) by lia.
            exists bs. rewrite <- app_assoc in H1. auto. }
        destruct (Z.eqb_spec (cmd_of (scmd s)) NEEDLE_SET) as [EN|EN]; cbn [andb].
        -- destruct (Z.eqb_spec (zlen done) (zlen done + zlen b)) as [E|E]; cbn [negb].
           ++ apply Step. right. split; [apply zlen_inv; lia | assumption].
           ++ destruct (IH (done ++ b) [s] (n + 1)) as (bs & H1 & H2 & H3).
              ** rewrite El, <- app_assoc. reflexivity.
              ** cbn. auto.
              ** rewrite zlen_app, zlen_cons, zlen_nil in *. change (1 + 0) with 1 in *.
                 exists (b :: bs). split.
                 --- apply color_needle; auto. intros ->. apply E. rewrite zlen_nil. lia.
                 --- cbn [map fst snd length seq]. rewrite H2, H3, Shift. rewrite El at 1.
                     rewrite py_slice_app by reflexivity. split; [reflexivity|]. f_equal. f_equal. lia.
        -- apply Step. left. unfold in_color. cbn [In]. intuition congruence.
Qed.

Lemma color_cut_concat {C} (l : list (stitch C)) bs : color_cut l bs ->
  concat bs = filter (fun s => negb (cmd_of (scmd s) =? COLOR_BREAK)) l.
Proof.
  assert (P : forall b : list (stitch C), plain_color b ->
    filter (fun s => negb (cmd_of (scmd s) =? COLOR_BREAK)) b = b).
  { assert (Q : forall b : list (stitch C), Forall in_color b ->
      filter (fun s => negb (cmd_of (scmd s) =? COLOR_BREAK)) b = b).
    { induction 1 as [|s b Hs _ IH]; cbn [filter]; [reflexivity|].
      destruct (Z.eqb_spec (cmd_of (scmd s)) COLOR_BREAK) as [E|]; cbn [negb]; [|congruence].
      exfalso. apply Hs. rewrite E. cbn. auto. }
    intros [|s b]; [reflexivity|]. intros [Hs Fb]. cbn [filter].
    destruct (Z.eqb_spec (cmd_of (scmd s)) COLOR_BREAK) as [E|]; cbn [negb].
    - exfalso. destruct Hs as [Hs|Hs]; [apply Hs; rewrite E; cbn; auto | rewrite Hs in E; discriminate].
    - f_equal. apply Q. assumption. }
  induction 1 as [|b Hb Pb|s l bs E _ IH|b s l bs Hb Pb E _ IH|b s l bs Pb E _ IH|b s l bs Hb Pb E _ IH];
    cbn [concat filter].
  - reflexivity.
  - rewrite app_nil_r, P; auto.
  - rewrite E. exact IH.
  - rewrite filter_app, P by auto. cbn [filter]. rewrite E. cbn. congruence.
  - rewrite filter_app, P by auto. cbn [filter]. rewrite E. cbn. rewrite <- app_assoc. cbn. congruence.
  - rewrite filter_app, P by auto. congruence.
Qed.

(** ** Stitch blocks *)
Lemma stitchblocks_spec {T C} (get : Z -> T) (l : list (stitch C)) : forall b n,
  Forall is_stitch b ->
  exists bs, stitch_cut n (b ++ l) bs
    /\ stitchblocks get b (get n) (n + 1) l = map (fun p => (fst p, get (snd p))) bs.
Proof.
  induction l as [|s l IH]; intros b n Fb; cbn [stitchblocks].
  - destruct b as [|u b].
    + exists []. split; [constructor | reflexivity].
    + rewrite zlen_cons. pose proof (zlen_nonneg b). destruct (Z.ltb_spec 0 (1 + zlen b)); [|lia].
      exists [(u :: b, n)]. rewrite app_nil_r. split; [|reflexivity]. apply stitch_last; auto. discriminate.
  - destruct (Z.eqb_spec (cmd_of (scmd s)) STITCH) as [E|E].
    + destruct (IH (b ++ [s]) n) as (bs & H1 & H2); [apply Forall_app; auto|].
      rewrite <- app_assoc in H1. eauto.
    + assert (Rest : exists bs, stitch_cut n (s :: l) bs /\
        (if cmd_of (scmd s) =? COLOR_CHANGE
         then stitchblocks get [] (get (n + 1)) (n + 1 + 1) l
         else stitchblocks get [] (get n) (n + 1) l) = map (fun p => (fst p, get (snd p))) bs).
      { destruct (Z.eqb_spec (cmd_of (scmd s)) COLOR_CHANGE) as [EC|EC].
        - destruct (IH [] (n + 1)) as (bs & H1 & H2); [constructor|]. exists bs. split; [|assumption].
          apply stitch_change; auto.
        - destruct (IH [] n) as (bs & H1 & H2); [constructor|]. exists bs. split; [|assumption].
          apply stitch_other; auto. }
      destruct Rest as (bs & H1 & H2). rewrite H2.
      destruct b as [|u b].
      * exists bs. auto.
      * rewrite zlen_cons. pose proof (zlen_nonneg b). destruct (Z.ltb_spec 0 (1 + zlen b)); [|lia].
        exists ((u :: b, n) :: bs). split; [|reflexivity]. apply stitch_run; auto. discriminate.
Qed.
Lemma stitch_cut_concat {C} n (l : list (stitch C)) bs : stitch_cut n l bs ->
  concat (map fst bs) = filter (fun s => cmd_of (scmd s) =? STITCH) l.
Proof.
  assert (P : forall b : list (stitch C), Forall is_stitch b -> filter (fun s => cmd_of (scmd s) =? STITCH) b = b).
  { induction 1 as [|s b Hs _ IH]; cbn [filter]; [reflexivity|]. rewrite (proj2 (Z.eqb_eq _ _) Hs). congruence. }
  induction 1 as [|n b Hb Fb|n b s l bs Hb Fb Hs _ IH|n s l bs E _ IH|n s l bs Hs E _ IH]; cbn [map concat fst].
  - reflexivity.
  - rewrite app_nil_r, P; auto.
  - rewrite filter_app, P by auto. congruence.
  - cbn [filter]. rewrite E. exact IH.
  - cbn [filter]. rewrite (proj2 (Z.eqb_neq _ _) Hs). exact IH.
Qed.

(** ** Colour count *)
Lemma count_sections_spec {C} (l : list (stitch C)) : forall done o n,
  sewn_sections done o n ->
  exists o' n', sewn_sections (done ++ l) o' n' /\ count_sections (Z.of_nat n) (negb o) l = Z.of_nat n'.
Proof.
  induction l as [|s l IH]; intros done o n H; cbn [count_sections].
  - rewrite app_nil_r. eauto.
  - replace (done ++ s :: l) with ((done ++ [s]) ++ l) by (rewrite <- app_assoc; reflexivity).
    destruct (sews (scmd s)) eqn:E1.
    + apply sews_spec in E1. destruct o; cbn [negb].
      * apply (IH _ true n). apply sewn_more; auto.
      * replace (Z.of_nat n + 1) with (Z.of_nat (S n)) by lia. apply (IH _ true (S n)). apply sewn_first; auto.
    + assert (N1 : ~ is_sewing s) by (rewrite <- sews_spec; congruence).
      destruct (changes (scmd s)) eqn:E2.
      * apply changes_spec in E2. apply (IH _ false n). eapply sewn_change; eauto.
      * assert (N2 : ~ is_change s) by (rewrite <- changes_spec; congruence).
        apply (IH _ o n). apply sewn_other; auto.
Qed.
Lemma sewn_sections_fun {C} (l : list (stitch C)) o n : sewn_sections l o n ->
  forall o' n', sewn_sections l o' n' -> o = o' /\ n = n'.
Proof.
  assert (D : forall s : stitch C, is_sewing s -> is_change s -> False).
  { intros s. unfold is_sewing, is_change. cbn [In]. intuition (unfold STITCH, SEW_TO, NEEDLE_AT, COLOR_CHANGE, COLOR_BREAK, NEEDLE_SET in *; lia). }
  induction 1; intros o' n' H'; inversion H'; subst;
    try (match goal with E : _ ++ [_] = [] |- _ => apply app_eq_nil in E; destruct E; discriminate
         | E : [] = _ ++ [_] |- _ => symmetry in E; apply app_eq_nil in E; destruct E; discriminate end);
    repeat match goal with E : _ ++ [_] = _ ++ [_] |- _ => apply app_inj_tail in E; destruct E; subst end;
    try (exfalso; eauto; fail); try contradiction;
    repeat match goal with
    | IH : forall o' n', sewn_sections ?l o' n' -> _, H : sewn_sections ?l ?a ?b |- _ =>
        destruct (IH _ _ H); clear H end; split; congruence.
Qed.

Lemma add_fillers_spec {T} (filler : Z -> T) n : forall threads,
  add_fillers filler n threads
  = threads ++ map (fun i => filler (zlen threads + Z.of_nat i)) (seq 0 n).
Proof.
  induction n as [|n IH]; intros threads; cbn [add_fillers seq map]; [symmetry; apply app_nil_r|].
  rewrite IH, <- app_assoc. f_equal. cbn [app]. f_equal.
  - unfold get_thread_or_filler. rewrite to_nat_zlen.
    rewrite (proj2 (nth_error_None threads (length threads)) (Nat.le_refl _)). f_equal. lia.
  - rewrite <- seq_shift, map_map. apply map_ext. intros i. rewrite zlen_app, zlen_cons, zlen_nil. f_equal. lia.
Qed.

(** ** Bounds *)
Definition covers (l : list (stitch Q)) (b : sides) : Prop :=
  match b with
  | (Some x0, Some y0, Some x1, Some y1) =>
      Forall (fun s => (x0 <= sx s <= x1)%Q /\ (y0 <= sy s <= y1)%Q) l
      /\ (exists s, In s l /\ sx s = x0) /\ (exists s, In s l /\ sy s = y0)
      /\ (exists s, In s l /\ sx s = x1) /\ (exists s, In s l /\ sy s = y1)
  | (None, None, None, None) => l = []
  | _ => False
  end.
Lemma q_gt_true a b : q_gt a b = true -> (b < a)%Q.
Proof. unfold q_gt. rewrite negb_true_iff. intros H. apply Qnot_le_lt. intros L. apply Qle_bool_iff in L. congruence. Qed.
Lemma q_gt_false a b : q_gt a b = false -> (a <= b)%Q.
Proof. unfold q_gt. rewrite negb_false_iff. apply Qle_bool_iff. Qed.

Lemma bounds_step_covers l b s : covers l b -> covers (l ++ [s]) (bounds_step b s).
Proof.
  assert (Last : forall v (f : stitch Q -> Q), f s = v -> exists u, In u (l ++ [s]) /\ f u = v)
    by (intros; exists s; split; [apply in_or_app; right; left; reflexivity | assumption]).
  assert (Keep : forall v (f : stitch Q -> Q), (exists u, In u l /\ f u = v) ->
    exists u, In u (l ++ [s]) /\ f u = v)
    by (intros v f (u & H & E); exists u; split; [apply in_or_app; left; assumption | assumption]).
  destruct b as [[[x0 y0] x1] y1]. unfold bounds_step, covers.
  destruct x0 as [x0|], y0 as [y0|], x1 as [x1|], y1 as [y1|]; try contradiction.
  - intros (F & Wx0 & Wy0 & Wx1 & Wy1). unfold above, below.
    assert (Hx : (x0 <= x1)%Q).
    { destruct Wx0 as (u & Hu & <-). rewrite Forall_forall in F. apply (F u Hu). }
    assert (Hy : (y0 <= y1)%Q).
    { destruct Wy0 as (u & Hu & <-). rewrite Forall_forall in F. apply (F u Hu). }
    destruct (q_gt (sx s) x1) eqn:E1, (q_gt x0 (sx s)) eqn:E2,
      (q_gt (sy s) y1) eqn:E3, (q_gt y0 (sy s)) eqn:E4;
      repeat match goal with
      | H : q_gt _ _ = true |- _ => apply q_gt_true in H
      | H : q_gt _ _ = false |- _ => apply q_gt_false in H end;
      (split; [ apply Forall_app; split;
        [ eapply Forall_impl; [|exact F]; intros u [[? ?] [? ?]]; split; split; Lqa.lra
        | constructor; [split; split; Lqa.lra | constructor] ] | ]);
      auto 10.
  - intros ->. cbn [above below app]. split; [constructor; [split; split; Lqa.lra | constructor]|].
    repeat split; exists s; split; auto; left; reflexivity.
Qed.
Lemma bounds_covers l : covers l (bounds l).
Proof.
  unfold bounds.
  assert (G : forall l done b, covers done b -> covers (done ++ l) (fold_left bounds_step l b)).
  { clear l. induction l as [|s l IH]; intros done b H; cbn [fold_left].
    - rewrite app_nil_r. exact H.
    - replace (done ++ s :: l) with ((done ++ [s]) ++ l) by (rewrite <- app_assoc; reflexivity).
      apply IH, bounds_step_covers, H. }
  apply (G l [] (None, None, None, None)). reflexivity.
Qed.

(** ** Stops as repeated colours and back *)
Lemma sections_cons {C} b (s : stitch C) l : sections_sewn b (s :: l) ->
  (is_sewing s /\ sections_sewn true l)
  \/ (b = true /\ (is_change s \/ is_stop s) /\ sections_sewn false l)
  \/ (~ is_sewing s /\ ~ is_change s /\ ~ is_stop s /\ sections_sewn b l).
Proof. intros H. inversion H; subst; auto 10. Qed.

Section Convert.
Context {T C : Type} (teq : T -> T -> bool) (change_command : Z).
Implicit Types (s : stitch C) (l r pre : list (stitch C)) (ts : list T).

Definition conv s : stitch C :=
  if cmd_of (scmd s) =? STOP then mkS (sx s) (sy s) change_command else s.

(** The thread list with a repetition for every stop. *)
Fixpoint expand ts r {struct r} : list T :=
  match r with
  | [] => ts
  | s :: r =>
      if changes (scmd s) then match ts with t :: ts => t :: expand ts r | [] => [] end
      else if cmd_of (scmd s) =? STOP then match ts with t :: _ => t :: expand ts r | [] => [] end
      else expand ts r
  end.

Lemma set_command_app k c pre s r : k = zlen pre ->
  set_command k c (pre ++ s :: r) = pre ++ mkS (sx s) (sy s) c :: r.
Proof.
  intros ->. unfold set_command. rewrite to_nat_zlen, nth_error_app2, Nat.sub_diag by lia. cbn [nth_error].
  rewrite firstn_app, firstn_all, Nat.sub_diag. cbn [firstn]. rewrite app_nil_r. f_equal. f_equal.
  replace (S (length pre)) with (length (pre ++ [s])) by (rewrite app_length; cbn; lia).
  replace (pre ++ s :: r) with ((pre ++ [s]) ++ r) by (rewrite <- app_assoc; reflexivity).
  rewrite skipn_app, skipn_all, Nat.sub_diag. reflexivity.
Qed.

Lemma changes_not_stop c : changes c = true -> (cmd_of c =? STOP) = false.
Proof. unfold changes. intros H. apply Z.eqb_neq. intros E. rewrite E in H. discriminate. Qed.
Lemma sews_not_stop c : sews c = true -> (cmd_of c =? STOP) = false.
Proof. unfold sews. intros H. apply Z.eqb_neq. intros E. rewrite E in H. discriminate. Qed.
Lemma sews_not_changes c : sews c = true -> changes c = false.
Proof.
  unfold sews, changes. rewrite !orb_true_iff, !Z.eqb_eq. intros [[E|E]|E]; rewrite E; reflexivity.
Qed.
Lemma stop_not_sews c : cmd_of c = STOP -> sews c = false.
Proof. unfold sews. intros ->. reflexivity. Qed.
Lemma stop_not_changes c : cmd_of c = STOP -> changes c = false.
Proof. unfold changes. intros ->. reflexivity. Qed.

Lemma thread_changes_cons s r :
  thread_changes (s :: r) = ((if changes (scmd s) then 1 else 0) + thread_changes r)%nat.
Proof.
  unfold thread_changes. cbn [filter existsb]. rewrite orb_false_r.
  replace ((cmd_of (scmd s) =? COLOR_CHANGE) || ((cmd_of (scmd s) =? COLOR_BREAK) || (cmd_of (scmd s) =? NEEDLE_SET)))
    with (changes (scmd s)) by (unfold changes; rewrite <- orb_assoc; reflexivity).
  destruct (changes (scmd s)); reflexivity.
Qed.

Lemma stop_as_duplicate_spec r : forall pre done ts,
  (thread_changes r < length ts)%nat ->
  stop_as_duplicate change_command (pre ++ r) (done ++ ts) (zlen done) (zlen pre) r
  = (pre ++ map conv r, done ++ expand ts r).
Proof.
  induction r as [|s r IH]; intros pre done ts Hn; cbn [stop_as_duplicate map expand].
  - rewrite !app_nil_r. reflexivity.
  - rewrite thread_changes_cons in Hn. unfold conv at 1.
    assert (Next : forall s' done ts, (thread_changes r < length ts)%nat ->
      stop_as_duplicate change_command (pre ++ s' :: r) (done ++ ts) (zlen done) (zlen pre + 1) r
      = (pre ++ s' :: map conv r, done ++ expand ts r)).
    { intros s' d t Hl. specialize (IH (pre ++ [s']) d t Hl).
      rewrite <- !app_assoc, zlen_app, zlen_cons, zlen_nil in IH. exact IH. }
    destruct (sews (scmd s)) eqn:E1.
    + rewrite (sews_not_changes _ E1), (sews_not_stop _ E1) in *. apply Next. exact Hn.
    + destruct (changes (scmd s)) eqn:E2.
      * rewrite (changes_not_stop _ E2). destruct ts as [|t ts]; [cbn in Hn; lia|].
        specialize (Next s (done ++ [t]) ts). rewrite <- !app_assoc, zlen_app, zlen_cons, zlen_nil in Next.
        apply Next. cbn [length] in Hn. lia.
      * destruct (Z.eqb_spec (cmd_of (scmd s)) STOP) as [E3|E3].
        -- destruct ts as [|t ts]; [cbn in Hn; lia|].
           rewrite py_index_app by reflexivity.
           rewrite set_command_app by reflexivity. rewrite py_insert_app by reflexivity.
           specialize (Next (mkS (sx s) (sy s) change_command) (done ++ [t]) (t :: ts)).
           rewrite <- !app_assoc, zlen_app, zlen_cons, zlen_nil in Next. apply Next. exact Hn.
        -- apply Next. exact Hn.
Qed.

Hypothesis teq_refl : forall t, teq t t = true.
Hypothesis change_ok : changes change_command = true.

(** What follows the current thread in the expanded list. *)
Definition after t ts r : list T := tl (expand (t :: ts) r).
Lemma expand_head t ts r : expand (t :: ts) r = t :: after t ts r.
Proof.
  unfold after. revert t ts. induction r as [|s r IH]; intros; cbn [expand]; [reflexivity|].
  destruct (changes (scmd s)); [reflexivity|]. destruct (cmd_of (scmd s) =? STOP); [reflexivity|]. apply IH.
Qed.

Lemma conv_plain s : (cmd_of (scmd s) =? STOP) = false -> conv s = s.
Proof. unfold conv. intros ->. reflexivity. Qed.

Definition plain_stops l : Prop := Forall (fun s => is_stop s -> scmd s = STOP) l.

Lemma not_sewing s : ~ is_sewing s -> sews (scmd s) = false.
Proof. rewrite <- sews_spec. destruct (sews (scmd s)); congruence. Qed.
Lemma not_change s : ~ is_change s -> changes (scmd s) = false.
Proof. rewrite <- changes_spec. destruct (changes (scmd s)); congruence. Qed.

(** Inside a section, and after an edge before its first stitch. *)
Lemma duplicate_as_stop_spec r :
  (forall pre done t ts k, sections_sewn true r -> plain_stops r ->
     (thread_changes r <= length ts)%nat -> neighbours_differ teq (t :: ts) ->
     duplicate_as_stop teq (pre ++ map conv r) (done ++ t :: after t ts r) (zlen done + 1) false k
       (zlen pre) (map conv r)
     = (pre ++ r, done ++ t :: ts))
  /\ (forall pre x pre2 done t ts, sections_sewn false r -> plain_stops (x :: r) ->
     is_change x \/ is_stop x ->
     (thread_changes (x :: r) <= length ts)%nat -> neighbours_differ teq (t :: ts) ->
     duplicate_as_stop teq (pre ++ conv x :: pre2 ++ map conv r) (done ++ t :: after t ts (x :: r))
       (zlen done + 1) true (Some (zlen pre)) (zlen pre + 1 + zlen pre2) (map conv r)
     = (pre ++ x :: pre2 ++ r, done ++ t :: ts)).
Proof.
  induction r as [|s r [IH1 IH2]].
  - split.
    + intros. cbn [map duplicate_as_stop after expand tl]. reflexivity.
    + intros pre x pre2 done t ts H. inversion H.
  - split.
    + intros pre done t ts k H P Hn Nd. inversion P as [|? ? Ps Pr]; subst. cbn [map duplicate_as_stop].
      rewrite thread_changes_cons in Hn.
      assert (Next : forall k', sections_sewn true r -> changes (scmd s) = false ->
        (cmd_of (scmd s) =? STOP) = false ->
        duplicate_as_stop teq (pre ++ s :: map conv r) (done ++ t :: after t ts (s :: r)) (zlen done + 1) false k'
          (zlen pre + 1) (map conv r) = (pre ++ s :: r, done ++ t :: ts)).
      { intros k' Hr E1 E2. rewrite E1 in Hn. specialize (IH1 (pre ++ [s]) done t ts k' Hr Pr Hn Nd).
        rewrite <- !app_assoc, zlen_app, zlen_cons, zlen_nil in IH1.
        replace (after t ts (s :: r)) with (after t ts r) by (unfold after; cbn [expand]; rewrite E1, E2; reflexivity).
        exact IH1. }
      destruct (sections_cons _ _ _ H) as [[Hs Hr]|[(Hb & He & Hr)|(N1 & N2 & N3 & Hr)]]; [| try discriminate Hb |].
      * apply sews_spec in Hs. rewrite (conv_plain _ (sews_not_stop _ Hs)), Hs.
        apply Next; auto using sews_not_changes, sews_not_stop.
      * assert (Hc : sews (scmd (conv s)) = false /\ changes (scmd (conv s)) = true).
        { unfold conv. destruct (Z.eqb_spec (cmd_of (scmd s)) STOP) as [E|E]; cbn [scmd].
          - split; [|exact change_ok]. destruct (sews change_command) eqn:Es; [|reflexivity].
            apply sews_not_changes in Es. congruence.
          - destruct He as [He|He]; [|contradiction]. apply changes_spec in He. split; [|exact He].
            destruct (sews (scmd s)) eqn:Es; [|reflexivity]. apply sews_not_changes in Es. congruence. }
        destruct Hc as [-> ->].
        specialize (IH2 pre s [] done t ts Hr P He). rewrite thread_changes_cons in IH2. specialize (IH2 Hn Nd).
        cbn [app] in IH2. rewrite zlen_nil, Z.add_0_r in IH2. exact IH2.
      * assert (NS : (cmd_of (scmd s) =? STOP) = false) by (apply Z.eqb_neq; exact N3).
        rewrite (conv_plain _ NS), (not_sewing _ N1), (not_change _ N2). apply Next; auto using not_change.
    + intros pre x pre2 done t ts H P Hx Hn Nd. inversion P as [|? ? Px P2]; subst.
      inversion P2 as [|? ? Ps Pr]; subst. cbn [map duplicate_as_stop].
      destruct (sections_cons _ _ _ H) as [[Hs Hr]|[(Hb & He & Hr)|(N1 & N2 & N3 & Hr)]]; [| try discriminate Hb |].
      * apply sews_spec in Hs. rewrite (conv_plain _ (sews_not_stop _ Hs)), Hs.
        pose proof (zlen_nonneg done).
        destruct (Z.eqb_spec (zlen done + 1) 0); [lia|].
        rewrite (py_index_app _ done) by lia.
        rewrite !thread_changes_cons, (sews_not_changes _ Hs) in Hn. cbn [Nat.add] in Hn.
        unfold after. cbn [expand]. rewrite (sews_not_changes _ Hs), (sews_not_stop _ Hs).
        assert (Ex : changes (scmd x) = true \/ changes (scmd x) = false /\ (cmd_of (scmd x) =? STOP) = true).
        { destruct Hx as [Hx|Hx]; [left; apply changes_spec; exact Hx|]. right.
          split; [apply stop_not_changes; exact Hx | apply Z.eqb_eq; exact Hx]. }
        destruct Ex as [Ex|[Ex1 Ex2]].
        -- rewrite Ex in *. destruct ts as [|t2 ts]; [cbn in Hn; lia|].
           cbn [tl]. rewrite expand_head.
           replace (done ++ t :: t2 :: after t2 ts r) with ((done ++ [t]) ++ t2 :: after t2 ts r)
             by (rewrite <- app_assoc; reflexivity).
           rewrite (py_index_app _ (done ++ [t])) by (rewrite zlen_app, zlen_cons, zlen_nil; lia).
           rewrite (Nd [] t t2 ts eq_refl). rewrite (conv_plain _ (changes_not_stop _ Ex)).
           replace (pre ++ x :: pre2 ++ s :: map conv r) with ((pre ++ x :: pre2 ++ [s]) ++ map conv r)
             by (rewrite <- !app_assoc; cbn; rewrite <- !app_assoc; reflexivity).
           replace (zlen done + 1 + 1) with (zlen (done ++ [t]) + 1) by (rewrite zlen_app, zlen_cons, zlen_nil; lia).
           replace (zlen pre + 1 + zlen pre2 + 1) with (zlen (pre ++ x :: pre2 ++ [s]))
             by (rewrite !zlen_app, zlen_cons, zlen_app, zlen_cons, zlen_nil; lia).
           rewrite IH1; auto.
           ++ rewrite <- !app_assoc. cbn. rewrite <- !app_assoc. reflexivity.
           ++ cbn in Hn. lia.
           ++ intros a u v b E. apply (Nd (t :: a) u v b). cbn. congruence.
        -- rewrite Ex1, Ex2 in *. cbn [tl]. rewrite expand_head.
           replace (done ++ t :: t :: after t ts r) with ((done ++ [t]) ++ t :: after t ts r)
             by (rewrite <- app_assoc; reflexivity).
           rewrite (py_index_app _ (done ++ [t])) by (rewrite zlen_app, zlen_cons, zlen_nil; lia).
           rewrite teq_refl, set_command_app by reflexivity.
           change (t :: after t ts r) with ([t] ++ after t ts r) at 1.
           rewrite py_del_app by (rewrite zlen_app, zlen_cons, zlen_nil; try rewrite zlen_cons, zlen_nil; lia).
           unfold conv at 1 2. rewrite Ex2. cbn [sx sy].
           assert (Exs : mkS (sx x) (sy x) STOP = x).
           { apply Z.eqb_eq in Ex2. rewrite <- (Px Ex2). destruct x; reflexivity. }
           rewrite Exs.
           replace (pre ++ x :: pre2 ++ s :: map conv r) with ((pre ++ x :: pre2 ++ [s]) ++ map conv r)
             by (rewrite <- !app_assoc; cbn; rewrite <- !app_assoc; reflexivity).
           replace (zlen pre + 1 + zlen pre2 + 1) with (zlen (pre ++ x :: pre2 ++ [s]))
             by (rewrite !zlen_app, zlen_cons, zlen_app, zlen_cons, zlen_nil; lia).
           replace ((done ++ [t]) ++ after t ts r) with (done ++ t :: after t ts r)
             by (rewrite <- app_assoc; reflexivity).
           rewrite IH1; auto.
           rewrite <- !app_assoc. cbn. rewrite <- !app_assoc. reflexivity.
      * assert (NS : (cmd_of (scmd s) =? STOP) = false) by (apply Z.eqb_neq; exact N3).
        rewrite (conv_plain _ NS), (not_sewing _ N1), (not_change _ N2).
        specialize (IH2 pre x (pre2 ++ [s]) done t ts Hr).
        rewrite <- !app_assoc, zlen_app, zlen_cons, zlen_nil in IH2.
        replace (zlen pre + 1 + zlen pre2 + 1) with (zlen pre + 1 + (zlen pre2 + (1 + 0))) by lia.
        replace (after t ts (x :: s :: r)) with (after t ts (x :: r))
          by (unfold after; cbn [expand]; rewrite (not_change _ N2), NS; reflexivity).
        apply IH2; auto.
        -- constructor; assumption.
        -- rewrite !thread_changes_cons in *. rewrite (not_change _ N2) in Hn. exact Hn.
Qed.

(** Before the first stitch. *)
Lemma duplicate_as_stop_start r : forall pre t ts, sections_sewn false r -> plain_stops r ->
  (thread_changes r <= length ts)%nat -> neighbours_differ teq (t :: ts) ->
  duplicate_as_stop teq (pre ++ map conv r) (t :: after t ts r) 0 true None (zlen pre) (map conv r)
  = (pre ++ r, t :: ts).
Proof.
  induction r as [|s r IH]; intros pre t ts H P Hn Nd; [inversion H|].
  inversion P as [|? ? Ps Pr]; subst. rewrite thread_changes_cons in Hn. cbn [map duplicate_as_stop].
  destruct (sections_cons _ _ _ H) as [[Hs Hr]|[(Hb & He & Hr)|(N1 & N2 & N3 & Hr)]]; [| try discriminate Hb |].
  - apply sews_spec in Hs. rewrite (conv_plain _ (sews_not_stop _ Hs)), Hs. rewrite (sews_not_changes _ Hs) in Hn.
    replace (after t ts (s :: r)) with (after t ts r)
      by (unfold after; cbn [expand]; rewrite (sews_not_changes _ Hs), (sews_not_stop _ Hs); reflexivity).
    destruct (duplicate_as_stop_spec r) as [D _].
    specialize (D (pre ++ [s]) [] t ts None Hr Pr Hn Nd).
    rewrite <- !app_assoc, zlen_app, zlen_cons, !zlen_nil in D. exact D.
  - assert (NS : (cmd_of (scmd s) =? STOP) = false) by (apply Z.eqb_neq; exact N3).
    rewrite (conv_plain _ NS), (not_sewing _ N1), (not_change _ N2). rewrite (not_change _ N2) in Hn.
    replace (after t ts (s :: r)) with (after t ts r)
      by (unfold after; cbn [expand]; rewrite (not_change _ N2), NS; reflexivity).
    specialize (IH (pre ++ [s]) t ts Hr Pr Hn Nd).
    replace (pre ++ s :: map conv r) with ((pre ++ [s]) ++ map conv r) by (rewrite <- app_assoc; reflexivity).
    replace (pre ++ s :: r) with ((pre ++ [s]) ++ r) by (rewrite <- app_assoc; reflexivity).
    replace (zlen pre + 1) with (zlen (pre ++ [s])) by (rewrite zlen_app; reflexivity).
    exact IH.
Qed.
End Convert.

Lemma sections_false_any {C} (l : list (stitch C)) : sections_sewn false l -> sections_sewn true l.
Proof.
  remember false as b. induction 1; subst; try discriminate.
  - apply sections_sew; auto.
  - apply sections_other; auto.
Qed.
