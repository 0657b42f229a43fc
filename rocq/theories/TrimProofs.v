(** The trim interpolation edits the list as [edited] says. *)
From Coq Require Import ZArith QArith Qabs List Bool Lia Lqa.
From Verif Require Import PyBase EmbConst NumQ MetricSpec PatternModel PatternSpec.
Import ListNotations.
Open Scope Z_scope.

(** ** Python list operations at the seams of concatenations *)
Lemma zlen_app {A} (a b : list A) : zlen (a ++ b) = zlen a + zlen b.
Proof. unfold zlen. rewrite app_length. lia. Qed.
Lemma zlen_cons {A} (a : A) b : zlen (a :: b) = 1 + zlen b.
Proof. unfold zlen. cbn [length]. lia. Qed.
Lemma zlen_nil {A} : zlen (@nil A) = 0.
Proof. reflexivity. Qed.
Lemma zlen_nonneg {A} (a : list A) : 0 <= zlen a.
Proof. unfold zlen. lia. Qed.
Lemma to_nat_zlen {A} (a : list A) : Z.to_nat (zlen a) = length a.
Proof. unfold zlen. lia. Qed.
Lemma zlen_inv {A} (a : list A) : zlen a = 0 -> a = [].
Proof. destruct a; [reflexivity|]. rewrite zlen_cons. pose proof (zlen_nonneg a0). lia. Qed.

Lemma py_index_app {A} (i : Z) (a : list A) s r : i = zlen a -> py_index i (a ++ s :: r) = Ok s.
Proof.
  intros ->. unfold py_index. pose proof (zlen_nonneg a).
  destruct (Z.ltb_spec (zlen a) 0); [lia|]. rewrite to_nat_zlen, nth_error_app2, Nat.sub_diag by lia.
  reflexivity.
Qed.
Lemma py_insert_app {A} (i : Z) v (a r : list A) : i = zlen a -> py_insert i v (a ++ r) = a ++ v :: r.
Proof.
  intros ->. unfold py_insert. rewrite to_nat_zlen, firstn_app, skipn_app, Nat.sub_diag, firstn_all, skipn_all.
  cbn. rewrite app_nil_r. reflexivity.
Qed.
Lemma py_del_app {A} (i j : Z) (a m r : list A) :
  i = zlen a -> j = zlen a + zlen m -> py_del i j (a ++ m ++ r) = a ++ r.
Proof.
  intros -> ->. unfold py_del. pose proof (zlen_nonneg m).
  rewrite to_nat_zlen, firstn_app, Nat.sub_diag, firstn_all. cbn [firstn]. rewrite app_nil_r.
  f_equal. rewrite app_assoc, skipn_app.
  replace (Z.to_nat (Z.max (zlen a) (zlen a + zlen m))) with (length (a ++ m)).
  - rewrite skipn_all, Nat.sub_diag. reflexivity.
  - rewrite <- zlen_app in *. rewrite app_length. unfold zlen in *. rewrite app_length in *. lia.
Qed.

(** ** The relation *)
Lemma end_pos_app {C} (x y : C) a b :
  end_pos x y (a ++ b) = end_pos (fst (end_pos x y a)) (snd (end_pos x y a)) b.
Proof. revert x y. induction a as [|s a IH]; intros; cbn [app end_pos]; [reflexivity | apply IH]. Qed.
Lemma end_pos_snoc {C} (x y : C) a s : end_pos x y (a ++ [s]) = (sx s, sy s).
Proof. rewrite end_pos_app. reflexivity. Qed.
Lemma end_pos_last {C} (x y x' y' : C) a s : end_pos x y (s :: a) = end_pos x' y' (s :: a).
Proof. reflexivity. Qed.

Lemma edited_refl d x y l : edited d x y l l.
Proof. revert x y. induction l; intros; constructor; auto. Qed.
Lemma edited_app d x y l1 l1' l2 l2' :
  edited d x y l1 l1' ->
  edited d (fst (end_pos x y l1')) (snd (end_pos x y l1')) l2 l2' ->
  edited d x y (l1 ++ l2) (l1' ++ l2').
Proof.
  induction 1; cbn [app end_pos fst snd]; intros.
  - assumption.
  - constructor. auto.
  - apply edited_trim; auto.
  - rewrite <- app_assoc. apply edited_drop; auto.
Qed.
Lemma edited_snoc d x y l l' s : edited d x y l l' -> edited d x y (l ++ [s]) (l' ++ [s]).
Proof. intros. apply edited_app; [assumption|]. apply edited_refl. Qed.

(** ** The loop *)
Definition other {C} (s : stitch C) : Prop := ~ is_jump s /\ ~ ends_jumps s.

Definition px (l : list (stitch Q)) : Q := fst (end_pos 0%Q 0%Q l).
Definition py (l : list (stitch Q)) : Q := snd (end_pos 0%Q 0%Q l).
Lemma px_snoc l s : px (l ++ [s]) = sx s.
Proof. unfold px. rewrite end_pos_snoc. reflexivity. Qed.
Lemma py_snoc l s : py (l ++ [s]) = sy s.
Proof. unfold py. rewrite end_pos_snoc. reflexivity. Qed.

(** The number of jumps since the last sewing, if nothing has ended them. *)
Definition scan_jumps {C} (st : option Z) (s : stitch C) : option Z :=
  let c := cmd_of (scmd s) in
  if (c =? STITCH) || (c =? SEQUIN_EJECT) then Some 0
  else if (c =? COLOR_CHANGE) || (c =? NEEDLE_SET) || (c =? TRIM) then None
  else if c =? JUMP then match st with Some k => Some (k + 1) | None => None end
  else st.
Definition scanned {C} (l : list (stitch C)) : option Z := fold_left scan_jumps l None.
Definition less (n : Z) (st : option Z) : Prop := match st with Some k => k < n | None => True end.
Definition few {C} (n : Z) (l : list (stitch C)) : Prop :=
  forall a b, l = a ++ b -> less n (scanned a).
Lemma scanned_snoc {C} (l : list (stitch C)) s : scanned (l ++ [s]) = scan_jumps (scanned l) s.
Proof. unfold scanned. rewrite fold_left_app. reflexivity. Qed.
Lemma few_snoc {C} n (l : list (stitch C)) s : few n l -> less n (scanned (l ++ [s])) -> few n (l ++ [s]).
Proof.
  intros H1 H2 a b E. destruct b as [|u b] using rev_ind.
  - rewrite app_nil_r in E. subst a. exact H2.
  - clear IHb. rewrite app_assoc in E. apply app_inj_tail in E. destruct E as [E _]. eauto.
Qed.
Lemma few_prefix {C} n (a b : list (stitch C)) : few n (a ++ b) -> few n a.
Proof. intros H c d ->. apply (H c (d ++ b)). rewrite app_assoc. reflexivity. Qed.
Lemma few_nil {C} n : few n (@nil (stitch C)).
Proof. intros a b E. symmetry in E. apply app_eq_nil in E. destruct E as [-> _]. exact I. Qed.
(** A stretch without sewing and without ends cannot reopen or close. *)
Lemma scan_run {C} (run : list (stitch C)) : forall st, Forall (fun s => ~ ends_jumps s) run ->
  match st with
  | None => fold_left scan_jumps run st = None
  | Some k => exists k', fold_left scan_jumps run st = Some k' /\ k <= k'
  end.
Proof.
  induction run as [|s run IH]; intros st F; cbn [fold_left].
  - destruct st as [k|]; [exists k; split; [reflexivity | lia] | reflexivity].
  - inversion F as [|? ? Hs Fr]; subst.
    assert (E1 : ((cmd_of (scmd s) =? STITCH) || (cmd_of (scmd s) =? SEQUIN_EJECT)) = false).
    { apply not_true_iff_false. intros E. apply Hs. unfold ends_jumps. rewrite orb_true_iff, !Z.eqb_eq in E. cbn. intuition. }
    assert (E2 : ((cmd_of (scmd s) =? COLOR_CHANGE) || (cmd_of (scmd s) =? NEEDLE_SET) || (cmd_of (scmd s) =? TRIM)) = false).
    { apply not_true_iff_false. intros E. apply Hs. unfold ends_jumps. rewrite !orb_true_iff, !Z.eqb_eq in E. cbn. intuition. }
    unfold scan_jumps at 2. unfold scan_jumps at 3. rewrite E1, E2.
    specialize (IH (if cmd_of (scmd s) =? JUMP then match st with Some k => Some (k + 1) | None => None end else st) Fr).
    destruct st as [k|], (cmd_of (scmd s) =? JUMP); auto.
    destruct IH as (k' & E & L). exists k'. split; [exact E | lia].
Qed.
Lemma few_run {C} n (b run : list (stitch C)) : few n b -> scanned b = None ->
  Forall (fun s => ~ ends_jumps s) run -> few n (b ++ run) /\ scanned (b ++ run) = None.
Proof.
  intros Hb Eb F. induction run as [|s run IH] using rev_ind.
  - rewrite app_nil_r. auto.
  - apply Forall_app in F. destruct F as [F Fs]. destruct (IH F) as [H1 H2].
    assert (E : scanned (b ++ run ++ [s]) = None).
    { rewrite app_assoc, scanned_snoc, H2. apply (scan_run [s] None). exact Fs. }
    split; [|exact E]. rewrite app_assoc in *. apply few_snoc; [assumption|]. rewrite E. exact I.
Qed.

Definition counted (jumps : option Z) (st : trim_state) (l : list (stitch Q)) : Prop :=
  forall n, jumps = Some n -> 1 <= n -> few n l /\
    match scanned l with
    | None => r_trimmed st = true
    | Some k => r_trimmed st = false
        /\ (if r_jumping st then k <= r_count st < n else k = 0)
    end.

Record inv (jumps : option Z) (clip : bool) (o rest : list (stitch Q)) (st : trim_state) (b run : list (stitch Q)) : Prop := {
  i_ss : r_ss st = b ++ run ++ rest;
  i_i : r_i st = zlen b + zlen run - 1;
  i_ie : r_ie st = zlen b + zlen run + zlen rest - 1;
  i_o : exists o1, o = o1 ++ run /\ edited clip 0%Q 0%Q o1 b;
  i_x : (r_x st == px (b ++ run))%Q;
  i_y : (r_y st == py (b ++ run))%Q;
  i_j : r_jumping st = true -> r_start st = zlen b;
  i_nj : r_jumping st = false -> run = [];
  i_run : Forall (fun s => ~ ends_jumps s) run;
  i_few : counted jumps st (b ++ run);
  i_clip : clip = true -> r_jumping st = true ->
    exists js m o' j, run = js ++ m /\ Forall is_jump js /\ Forall other m
      /\ o = o' ++ j :: m /\ is_jump j
      /\ (r_dx st == px (b ++ js) - px b)%Q /\ (r_dy st == py (b ++ js) - py b)%Q }.

Lemma trim_at_app b r s : exists t,
  trim_at (zlen b) (b ++ s :: r) = Ok (b ++ t :: s :: r)
  /\ scmd t = TRIM /\ (sx t == px b)%Q /\ (sy t == py b)%Q.
Proof.
  unfold trim_at, insert_stitch_relative. cbn [p_stitches p_threads p_x p_y].
  pose proof (zlen_nonneg b) as Hb. pose proof (zlen_nonneg r) as Hr.
  destruct (Z.ltb_spec (zlen b) 0); [lia|].
  destruct (Z.eqb_spec (zlen b) 0) as [E|E].
  - apply zlen_inv in E. subst b. eexists. split; [reflexivity|].
    split; [reflexivity|]. split; reflexivity.
  - rewrite zlen_app, zlen_cons.
    destruct (Z.eqb_spec (zlen b) (zlen b + (1 + zlen r))); [lia|].
    destruct (Z.ltb_spec 0 (zlen b)); [|lia].
    destruct (Z.ltb_spec (zlen b) (zlen b + (1 + zlen r))); [|lia].
    destruct b as [|b0 b] using rev_ind; [exfalso; apply E; reflexivity|]. clear IHb.
    rewrite <- app_assoc. cbn [app].
    rewrite (py_index_app _ b) by (rewrite zlen_app; unfold zlen; cbn; lia).
    cbn [bindr andb p_stitches].
    eexists. split.
    + f_equal. replace (b ++ b0 :: s :: r) with ((b ++ [b0]) ++ s :: r) by (rewrite <- app_assoc; reflexivity).
      rewrite py_insert_app by reflexivity. reflexivity.
    + split; [reflexivity|]. cbn [sx sy]. rewrite px_snoc, py_snoc. split; Lqa.lra.
Qed.

Lemma resets_spec {C} (s : stitch C) :
  ends_jumps s <->
  ((cmd_of (scmd s) =? STITCH) || (cmd_of (scmd s) =? SEQUIN_EJECT)
   || ((cmd_of (scmd s) =? COLOR_CHANGE) || (cmd_of (scmd s) =? NEEDLE_SET) || (cmd_of (scmd s) =? TRIM)))
  = true.
Proof.
  unfold ends_jumps. cbn [In]. rewrite !orb_true_iff, !Z.eqb_eq.
  split; intros; intuition congruence.
Qed.

Lemma inv_keep clip o b run o1 s :
  o = o1 ++ run -> edited clip 0%Q 0%Q o1 b ->
  exists o2, o ++ [s] = o2 ++ [] /\ edited clip 0%Q 0%Q o2 (b ++ run ++ [s]).
Proof.
  intros -> H. exists ((o1 ++ run) ++ [s]). rewrite app_nil_r. split; [reflexivity|].
  rewrite app_assoc. apply edited_snoc. apply edited_app; [assumption|]. apply edited_refl.
Qed.

Lemma counted_reset jumps st st' l s : counted jumps st l -> r_jumping st' = false ->
  (if (cmd_of (scmd s) =? STITCH) || (cmd_of (scmd s) =? SEQUIN_EJECT) then r_trimmed st' = false
   else (cmd_of (scmd s) =? COLOR_CHANGE) || (cmd_of (scmd s) =? NEEDLE_SET) || (cmd_of (scmd s) =? TRIM) = true
        /\ r_trimmed st' = true) ->
  counted jumps st' (l ++ [s]).
Proof.
  intros Hc Ej Ht n En Hn. destruct (Hc n En Hn) as [F _]. rewrite scanned_snoc. unfold scan_jumps. cbn zeta.
  destruct ((cmd_of (scmd s) =? STITCH) || (cmd_of (scmd s) =? SEQUIN_EJECT)) eqn:E1.
  - rewrite Ht, Ej. split; [|auto]. apply few_snoc; [assumption|]. rewrite scanned_snoc. unfold scan_jumps. cbn zeta.
    rewrite E1. cbn. lia.
  - destruct Ht as [E2 Ht]. rewrite E2, Ht. split; [|reflexivity]. apply few_snoc; [assumption|].
    rewrite scanned_snoc. unfold scan_jumps. cbn zeta. rewrite E1, E2. exact I.
Qed.
Lemma counted_other jumps st st' l s : counted jumps st l ->
  r_jumping st' = r_jumping st -> r_trimmed st' = r_trimmed st -> r_count st' = r_count st ->
  ((cmd_of (scmd s) =? STITCH) || (cmd_of (scmd s) =? SEQUIN_EJECT)) = false ->
  ((cmd_of (scmd s) =? COLOR_CHANGE) || (cmd_of (scmd s) =? NEEDLE_SET) || (cmd_of (scmd s) =? TRIM)) = false ->
  (cmd_of (scmd s) =? JUMP) = false ->
  counted jumps st' (l ++ [s]).
Proof.
  intros Hc Ej Et Ec E1 E2 E3 n En Hn. destruct (Hc n En Hn) as [F M].
  assert (Es : scanned (l ++ [s]) = scanned l).
  { rewrite scanned_snoc. unfold scan_jumps. cbn zeta. rewrite E1, E2, E3. reflexivity. }
  rewrite Es, Ej, Et, Ec. split; [|exact M]. apply few_snoc; [assumption|]. rewrite Es.
  apply (F l []). symmetry. apply app_nil_r.
Qed.
(** A jump that needs no trim: kept, or clipped with its run. *)
Lemma counted_jump jumps st b run s st' :
  counted jumps st (b ++ run) -> Forall (fun s => ~ ends_jumps s) run ->
  cmd_of (scmd s) = JUMP ->
  r_jumping st' = true -> r_trimmed st' = r_trimmed st ->
  r_count st' = (if r_jumping st then r_count st else 0) + 1 ->
  (r_trimmed st = true \/ forall n, jumps = Some n -> r_count st' <> n) ->
  counted jumps st' (b ++ run ++ [s]) /\ counted jumps st' b.
Proof.
  intros Hc Fr J Ej Et Ec Hr. split; intros n En Hn; destruct (Hc n En Hn) as [F M].
  - assert (Es : scanned (b ++ run ++ [s]) = match scanned (b ++ run) with Some k => Some (k + 1) | None => None end).
    { rewrite app_assoc, scanned_snoc. unfold scan_jumps. cbn zeta. rewrite J. reflexivity. }
    assert (L : match scanned (b ++ run) with
      | None => r_trimmed st' = true
      | Some k => r_trimmed st' = false /\ k + 1 <= r_count st' < n end).
    { destruct (scanned (b ++ run)) as [k|]; [|congruence]. destruct M as [Mt Mk].
      split; [congruence|]. destruct Hr as [Hr|Hr]; [congruence|]. specialize (Hr n En).
      destruct (r_jumping st); lia. }
    rewrite Es. split.
    + rewrite app_assoc. apply few_snoc; [assumption|]. rewrite <- app_assoc, Es.
      destruct (scanned (b ++ run)); cbn; lia.
    + destruct (scanned (b ++ run)); [|exact L]. rewrite Ej. exact L.
  - split; [eapply few_prefix; eauto|]. pose proof (scan_run run (scanned b) Fr) as S.
    assert (Ebr : fold_left scan_jumps run (scanned b) = scanned (b ++ run))
      by (unfold scanned; rewrite fold_left_app; reflexivity).
    rewrite Ebr in S. destruct (scanned b) as [k|].
    + destruct S as (k' & S & Hk). rewrite S in M. destruct M as [Mt Mk]. split; [congruence|].
      rewrite Ej. destruct Hr as [Hr|Hr]; [congruence|]. specialize (Hr n En). destruct (r_jumping st); lia.
    + rewrite S in M. congruence.
Qed.
(** A jump that gets one. *)
Lemma counted_trim jumps st b run s t st' :
  counted jumps st (b ++ run) -> Forall (fun s => ~ ends_jumps s) run ->
  cmd_of (scmd s) = JUMP -> scmd t = TRIM -> r_trimmed st' = true ->
  counted jumps st' ((b ++ [t]) ++ run ++ [s]) /\ counted jumps st' (b ++ [t]).
Proof.
  intros Hc Fr J Ht Et.
  assert (En : scanned (b ++ [t]) = None).
  { rewrite scanned_snoc. unfold scan_jumps. rewrite Ht. reflexivity. }
  assert (Fb : forall n, jumps = Some n -> 1 <= n -> few n (b ++ [t])).
  { intros n E Hn. destruct (Hc n E Hn) as [F _]. apply few_snoc; [eapply few_prefix; eauto|]. rewrite En. exact I. }
  assert (Frs : Forall (fun s => ~ ends_jumps s) (run ++ [s])).
  { apply Forall_app. split; [assumption|]. constructor; [|constructor]. unfold ends_jumps. rewrite J. cbn. intuition discriminate. }
  split; intros n E Hn.
  - destruct (few_run n (b ++ [t]) (run ++ [s]) (Fb n E Hn) En Frs) as [H1 H2]. rewrite H2. auto.
  - rewrite En. auto.
Qed.

(** One round of the loop, on a command that is not a jump. *)
Lemma step_other jumps dist clip o s rest st b run :
  inv jumps clip o (s :: rest) st b run -> ~ is_jump s ->
  exists st' b' run',
    trim_step jumps dist clip st = Ok st' /\ inv jumps clip (o ++ [s]) rest st' b' run'.
Proof.
  intros [Hss Hi Hie Ho Hx Hy Hj Hnj Hnr Hfew Hc] NJ.
  pose proof (zlen_nonneg b). pose proof (zlen_nonneg run).
  assert (Hidx : py_index (r_i st + 1) (r_ss st) = Ok s).
  { rewrite Hss, app_assoc. apply py_index_app. rewrite zlen_app. lia. }
  unfold trim_step. rewrite Hidx. cbn [bindr].
  assert (NJ' : (cmd_of (scmd s) =? JUMP) = false) by (apply Z.eqb_neq; exact NJ).
  rewrite NJ'.
  destruct Ho as [o1 [Eo He]].
  rewrite zlen_cons in Hie.
  destruct ((cmd_of (scmd s) =? STITCH) || (cmd_of (scmd s) =? SEQUIN_EJECT)) eqn:E1;
    [|destruct ((cmd_of (scmd s) =? COLOR_CHANGE) || (cmd_of (scmd s) =? NEEDLE_SET)
      || (cmd_of (scmd s) =? TRIM)) eqn:E2].
  1, 2: eexists; exists (b ++ run ++ [s]), []; split; [reflexivity|];
    constructor; cbn [r_ss r_i r_ie r_x r_y r_jumping r_start r_dx r_dy];
    [ rewrite Hss, <- !app_assoc; reflexivity
    | rewrite !zlen_app, zlen_cons, !zlen_nil; lia
    | rewrite !zlen_app, zlen_cons, !zlen_nil; lia
    | eapply inv_keep; eauto
    | rewrite app_nil_r, app_assoc, px_snoc; reflexivity
    | rewrite app_nil_r, app_assoc, py_snoc; reflexivity
    | discriminate | reflexivity | constructor
    | rewrite app_nil_r, app_assoc; eapply counted_reset; [exact Hfew | reflexivity |]; rewrite E1; auto
    | discriminate ].
  destruct (r_jumping st) eqn:Ej.
  - eexists; exists b, (run ++ [s]). split; [reflexivity|].
    constructor; cbn [r_ss r_i r_ie r_x r_y r_jumping r_start r_dx r_dy].
    + rewrite Hss, <- !app_assoc. reflexivity.
    + rewrite zlen_app, zlen_cons, zlen_nil. lia.
    + rewrite zlen_app, zlen_cons, zlen_nil. lia.
    + exists o1. split; [rewrite Eo, app_assoc; reflexivity | assumption].
    + rewrite app_assoc, px_snoc. reflexivity.
    + rewrite app_assoc, py_snoc. reflexivity.
    + auto.
    + discriminate.
    + apply Forall_app. split; [assumption|]. constructor; [|constructor]. rewrite resets_spec, E1, E2. discriminate.
    + rewrite app_assoc. apply counted_other with (st := st); auto.
    + intros Hcl _. destruct (Hc Hcl eq_refl) as (js & m & o' & j & E & F1 & F2 & E' & Jj & D1 & D2).
      exists js, (m ++ [s]), o', j. repeat split; auto.
      * rewrite E, app_assoc. reflexivity.
      * apply Forall_app. split; [assumption|]. constructor; [|constructor].
        split; [exact NJ|]. rewrite resets_spec, E1, E2. discriminate.
      * rewrite E', <- app_assoc. reflexivity.
  - specialize (Hnj eq_refl). subst run.
    eexists; exists (b ++ [] ++ [s]), []. split; [reflexivity|].
    constructor; cbn [r_ss r_i r_ie r_x r_y r_jumping r_start r_dx r_dy].
    + rewrite Hss, <- !app_assoc. reflexivity.
    + cbn [app]. rewrite zlen_app, zlen_cons, !zlen_nil in *. lia.
    + cbn [app]. rewrite zlen_app, zlen_cons, !zlen_nil in *. lia.
    + eapply inv_keep; eauto.
    + cbn [app]. rewrite app_nil_r, px_snoc. reflexivity.
    + cbn [app]. rewrite app_nil_r, py_snoc. reflexivity.
    + discriminate.
    + reflexivity.
    + constructor.
    + rewrite app_nil_r. cbn [app]. rewrite app_nil_r in Hfew. apply counted_other with (st := st); auto.
    + discriminate.
Qed.

Lemma edited_trim_at clip o1 b t :
  edited clip 0%Q 0%Q o1 b -> scmd t = TRIM -> (sx t == px b)%Q -> (sy t == py b)%Q ->
  edited clip 0%Q 0%Q o1 (b ++ [t]).
Proof.
  intros H E1 E2 E3. rewrite <- (app_nil_r o1). apply edited_app; [assumption|].
  apply edited_trim; auto. constructor.
Qed.

(** ... and on a jump. *)
Lemma step_jump jumps dist clip o s rest st b run :
  inv jumps clip o (s :: rest) st b run -> is_jump s ->
  (clip = true -> plain_jumps (o ++ s :: rest)) ->
  exists st' b' run',
    trim_step jumps dist clip st = Ok st' /\ inv jumps clip (o ++ [s]) rest st' b' run'.
Proof.
  intros [Hss Hi Hie Ho Hx Hy Hj Hnj Hnr Hfew Hc] J PJ.
  pose proof (zlen_nonneg b). pose proof (zlen_nonneg run).
  assert (Hidx : py_index (r_i st + 1) (r_ss st) = Ok s).
  { rewrite Hss, app_assoc. apply py_index_app. rewrite zlen_app. lia. }
  unfold trim_step. rewrite Hidx. cbn [bindr].
  unfold is_jump in J. rewrite J.
  change (JUMP =? STITCH) with false. change (JUMP =? SEQUIN_EJECT) with false.
  change (JUMP =? COLOR_CHANGE) with false. change (JUMP =? NEEDLE_SET) with false.
  change (JUMP =? TRIM) with false. change (JUMP =? JUMP) with true. cbn [orb].
  destruct Ho as [o1 [Eo He]].
  rewrite zlen_cons in Hie.
  (* the start of the run and the displacement so far *)
  set (jd := if r_jumping st then (r_dx st, r_dy st, r_count st, r_start st)
             else (0%Q, 0%Q, 0, r_i st + 1)).
  assert (Hjd : snd jd = zlen b).
  { unfold jd. destruct (r_jumping st) eqn:Ej; cbn [snd]; [auto|].
    rewrite Hi, (Hnj eq_refl), zlen_nil. lia. }
  assert (Hrun : clip = true ->
    Forall is_jump run /\ (fst (fst (fst jd)) == px (b ++ run) - px b)%Q
    /\ (snd (fst (fst jd)) == py (b ++ run) - py b)%Q).
  { intros Hcl. unfold jd. destruct (r_jumping st) eqn:Ej; cbn [fst snd].
    - destruct (Hc Hcl eq_refl) as (js & m & o' & j & E & F1 & F2 & E' & Jj & D1 & D2).
      assert (m = []).
      { apply (PJ Hcl o' j m s rest); auto. rewrite E', <- app_assoc. reflexivity. }
      subst m. rewrite app_nil_r in E. subst js. auto.
    - rewrite (Hnj eq_refl), app_nil_r. repeat split; [constructor | Lqa.lra | Lqa.lra]. }
  assert (Hjc : snd (fst jd) = if r_jumping st then r_count st else 0)
    by (unfold jd; destruct (r_jumping st); reflexivity).
  destruct jd as [[[jdx jdy] jc] jst]. cbn [fst snd] in *. subst jst.
  set (required := _ || _).
  (* the optional trim *)
  set (part := if negb (r_trimmed st) && required then _ else _).
  assert (Hpart : exists b1 tr, part = Ok (b1 ++ run ++ s :: rest, zlen b1, zlen b1 + zlen run,
       zlen b1 + zlen run + zlen rest, tr)
       /\ edited clip 0%Q 0%Q o1 b1 /\ (px b1 == px b)%Q /\ (py b1 == py b)%Q
       /\ (forall ss i ie x y dx dy start,
             counted jumps (mkTr ss i ie x y (jc + 1) start dx dy true tr) (b1 ++ run ++ [s])
             /\ counted jumps (mkTr ss i ie x y (jc + 1) start dx dy true tr) b1)).
  { unfold part. destruct (negb (r_trimmed st) && required) eqn:Ereq.
    - rewrite Hss.
      assert (Hts : exists r' s', run ++ s :: rest = s' :: r')
        by (destruct run as [|u v]; cbn [app]; eauto).
      destruct Hts as (r' & s' & Hts). rewrite Hts.
      destruct (trim_at_app b r' s') as (t & Et & Ec & Etx & Ety). rewrite Et. cbn [bindr].
      exists (b ++ [t]), true. split.
      + rewrite <- Hts, <- app_assoc. cbn [app]. rewrite zlen_app, zlen_cons, zlen_nil.
        replace (r_i st + 1 + 1) with (zlen b + 1 + zlen run) by lia.
        replace (r_ie st + 1) with (zlen b + 1 + zlen run + zlen rest) by lia. rewrite Z.add_0_r. reflexivity.
      + split; [apply edited_trim_at; assumption|]. rewrite px_snoc, py_snoc.
        split; [assumption|]. split; [assumption|]. intros.
        eapply counted_trim; eauto.
    - exists b, (r_trimmed st). split.
      { rewrite Hss. replace (r_i st + 1) with (zlen b + zlen run) by lia.
        replace (r_ie st) with (zlen b + zlen run + zlen rest) by lia. reflexivity. }
      split; [assumption|]. split; [reflexivity|]. split; [reflexivity|]. intros.
      eapply counted_jump; eauto; cbn [r_count r_trimmed]; [rewrite Hjc; reflexivity|].
      apply andb_false_iff in Ereq. destruct Ereq as [Ereq|Ereq].
      + left. apply negb_false_iff in Ereq. exact Ereq.
      + right. intros n En. unfold required in Ereq. apply orb_false_iff in Ereq. destruct Ereq as [Ereq _].
        rewrite En in Ereq. apply Z.eqb_neq in Ereq. exact Ereq. }
  destruct Hpart as (b1 & tr & -> & He1 & Ex & Ey & Hcnt). cbn [bindr].
  assert (Hdx : clip = true -> (jdx + (sx s - r_x st) == px (b1 ++ run ++ [s]) - px b1)%Q
                           /\ (jdy + (sy s - r_y st) == py (b1 ++ run ++ [s]) - py b1)%Q).
  { intros Hcl. destruct (Hrun Hcl) as (_ & D1 & D2). rewrite D1, D2, Hx, Hy, Ex, Ey, app_assoc, px_snoc, py_snoc.
    split; Lqa.lra. }
  destruct (clip && _ && _) eqn:Eclip.
  - (* clipped *)
    apply andb_true_iff in Eclip. destruct Eclip as [Eclip Z2].
    apply andb_true_iff in Eclip. destruct Eclip as [Hcl Z1].
    apply Qeq_bool_iff in Z1, Z2. destruct (Hdx Hcl) as [D1 D2]. destruct (Hrun Hcl) as (Jr & _ & _).
    rewrite D1 in Z1. rewrite D2 in Z2.
    assert (Hdel : py_del (zlen b1) (zlen b1 + zlen run + 1) (b1 ++ run ++ s :: rest) = b1 ++ rest).
    { replace (run ++ s :: rest) with ((run ++ [s]) ++ rest) by (rewrite <- app_assoc; reflexivity).
      apply py_del_app; [reflexivity|]. rewrite zlen_app, zlen_cons, zlen_nil. lia. }
    rewrite Hdel.
    eexists; exists b1, []. split; [reflexivity|].
    assert (Epx : (sx s == px b1)%Q).
    { rewrite app_assoc, px_snoc in Z1. Lqa.lra. }
    assert (Epy : (sy s == py b1)%Q).
    { rewrite app_assoc, py_snoc in Z2. Lqa.lra. }
    constructor; cbn [r_ss r_i r_ie r_x r_y r_jumping r_start r_dx r_dy].
    + reflexivity.
    + rewrite zlen_nil. lia.
    + rewrite zlen_app, zlen_nil. lia.
    + exists (o ++ [s]). rewrite app_nil_r. split; [reflexivity|].
      rewrite Eo, <- app_assoc. rewrite <- (app_nil_r b1). apply edited_app; [assumption|].
      rewrite <- (app_nil_r (run ++ [s])). apply edited_drop; auto.
      * apply Forall_app. split; [assumption|]. constructor; [exact J | constructor].
      * rewrite end_pos_snoc. exact Epx.
      * rewrite end_pos_snoc. exact Epy.
      * constructor.
    + rewrite app_nil_r. exact Epx.
    + rewrite app_nil_r. exact Epy.
    + reflexivity.
    + discriminate.
    + constructor.
    + rewrite app_nil_r. apply Hcnt.
    + intros _ _. exists [], [], o, s. repeat split; auto.
      * rewrite D1, Z1, app_nil_r. Lqa.lra.
      * rewrite D2, Z2, app_nil_r. Lqa.lra.
  - eexists; exists b1, (run ++ [s]). split; [reflexivity|].
    constructor; cbn [r_ss r_i r_ie r_x r_y r_jumping r_start r_dx r_dy].
    + rewrite <- !app_assoc. reflexivity.
    + rewrite zlen_app, zlen_cons, zlen_nil. lia.
    + rewrite zlen_app, zlen_cons, zlen_nil. lia.
    + exists o1. split; [rewrite Eo, app_assoc; reflexivity | assumption].
    + rewrite app_assoc, px_snoc. reflexivity.
    + rewrite app_assoc, py_snoc. reflexivity.
    + reflexivity.
    + discriminate.
    + apply Forall_app. split; [assumption|]. constructor; [|constructor].
      unfold ends_jumps. rewrite J. cbn. intuition discriminate.
    + apply Hcnt.
    + intros Hcl _. destruct (Hdx Hcl) as [D1 D2]. destruct (Hrun Hcl) as (Jr & _ & _).
      exists (run ++ [s]), [], o, s. repeat split; auto.
      * rewrite app_nil_r. reflexivity.
      * apply Forall_app. split; [assumption|]. constructor; [exact J | constructor].
Qed.

Lemma trim_loop_spec jumps dist clip rest : forall o st b run fuel,
  inv jumps clip o rest st b run ->
  (clip = true -> plain_jumps (o ++ rest)) ->
  (length rest <= fuel)%nat ->
  exists st', trim_loop jumps dist clip fuel st = Ok st' /\ edited clip 0%Q 0%Q (o ++ rest) (r_ss st')
    /\ forall n, jumps = Some n -> 1 <= n -> few n (r_ss st').
Proof.
  induction rest as [|s rest IH]; intros o st b run fuel I PJ Hf.
  - exists st. destruct I as [Hss Hi Hie Ho _ _ _ _ _ Hfew _]. rewrite zlen_nil in Hie.
    assert (E : (r_i st <? r_ie st) = false) by (apply Z.ltb_ge; lia).
    split.
    + destruct fuel; cbn [trim_loop]; rewrite E; reflexivity.
    + rewrite Hss, !app_nil_r. destruct Ho as [o1 [-> He]]. split.
      * apply edited_app; [assumption|]. apply edited_refl.
      * intros n En Hn. apply (Hfew n En Hn).
  - cbn [length] in Hf. destruct fuel as [|fuel]; [lia|]. cbn [trim_loop].
    pose proof I as [Hss Hi Hie _ _ _ _ _ _ _ _]. rewrite zlen_cons in Hie. pose proof (zlen_nonneg rest).
    destruct (Z.ltb_spec (r_i st) (r_ie st)); [|lia].
    assert (S : exists st' b' run',
      trim_step jumps dist clip st = Ok st' /\ inv jumps clip (o ++ [s]) rest st' b' run').
    { destruct (Z.eq_dec (cmd_of (scmd s)) JUMP) as [J|J].
      - eapply step_jump; eauto.
      - eapply step_other; eauto. }
    destruct S as (st' & b' & run' & -> & I'). cbn [bindr].
    replace (o ++ s :: rest) with ((o ++ [s]) ++ rest) in * by (rewrite <- app_assoc; reflexivity).
    eapply IH; eauto. lia.
Qed.

Lemma few_jumps_few {C} (l : list (stitch C)) n : 1 <= n -> few n l -> few_jumps (Z.to_nat n) l.
Proof.
  intros Hn F a s m b -> Hs Hm.
  specialize (F (a ++ s :: m) b). rewrite <- app_assoc in F. specialize (F eq_refl).
  assert (E : scanned (a ++ s :: m) = fold_left scan_jumps m (Some 0)).
  { unfold scanned. rewrite fold_left_app. cbn [fold_left]. f_equal. unfold scan_jumps. cbn [In] in Hs.
    destruct Hs as [<-|[<-|[]]]; reflexivity. }
  rewrite E in F. clear E Hs.
  assert (G : forall k, fold_left scan_jumps m (Some k)
    = Some (k + Z.of_nat (length (filter (fun u => cmd_of (scmd u) =? JUMP) m)))).
  { clear F. induction m as [|u m IH]; intros k; cbn [fold_left filter]; [f_equal; cbn; lia|].
    inversion Hm as [|? ? Hu Hm']; subst.
    assert (Eu : scan_jumps (Some k) u = if cmd_of (scmd u) =? JUMP then Some (k + 1) else Some k).
    { unfold scan_jumps. cbn zeta.
      destruct ((cmd_of (scmd u) =? STITCH) || (cmd_of (scmd u) =? SEQUIN_EJECT)) eqn:E1.
      { exfalso. apply Hu. apply resets_spec. rewrite E1. reflexivity. }
      destruct ((cmd_of (scmd u) =? COLOR_CHANGE) || (cmd_of (scmd u) =? NEEDLE_SET) || (cmd_of (scmd u) =? TRIM)) eqn:E2.
      { exfalso. apply Hu. apply resets_spec. rewrite E1, E2. reflexivity. }
      reflexivity. }
    rewrite Eu. destruct (cmd_of (scmd u) =? JUMP); rewrite IH by assumption; f_equal; cbn [length]; lia. }
  rewrite G in F. cbn in F. lia.
Qed.

Lemma interpolate_trims_spec jumps dist clip fuel l :
  (clip = true -> plain_jumps l) -> (length l <= fuel)%nat ->
  exists l', interpolate_trims jumps dist clip fuel l = Ok l' /\ edited clip 0%Q 0%Q l l'
    /\ forall n, jumps = Some n -> 1 <= n -> few_jumps (Z.to_nat n) l'.
Proof.
  intros PJ Hf. unfold interpolate_trims.
  destruct (trim_loop_spec jumps dist clip l []
    (mkTr l (-1) (zlen l - 1) 0%Q 0%Q 0 0 0%Q 0%Q false true) [] [] fuel) as (st & -> & E & F); auto.
  - constructor; cbn [r_ss r_i r_ie r_x r_y r_jumping r_start app]; try reflexivity; try discriminate.
    + exists []. split; [reflexivity|]. constructor.
    + constructor.
    + intros n _ _. split; [apply few_nil | reflexivity].
  - exists (r_ss st). split; [reflexivity|]. split; [exact E|]. intros n En Hn.
    apply few_jumps_few; auto.
Qed.
