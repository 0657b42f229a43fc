(** Colour blocks as a recursion over the commands, and patterns put together of blocks. *)
From Coq Require Import ZArith QArith List Bool Lia.
From Verif Require Import PyBase EmbConst PatternModel PatternSpec TrimProofs PatternProofs.
Import ListNotations.
Open Scope Z_scope.

Fixpoint cblocks {T C} (get : Z -> T) (n : Z) (b r : list (stitch C)) : list (list (stitch C) * T) :=
  match r with
  | [] => match b with [] => [] | _ => [(b, get n)] end
  | s :: r =>
      let command := cmd_of (scmd s) in
      if command =? COLOR_BREAK then
        match b with [] => cblocks get n [] r | _ => (b, get n) :: cblocks get (n + 1) [] r end
      else if command =? COLOR_CHANGE then (b ++ [s], get n) :: cblocks get (n + 1) [] r
      else if (command =? NEEDLE_SET) && negb (match b with [] => true | _ => false end)
        then (b, get n) :: cblocks get (n + 1) [s] r
      else cblocks get n (b ++ [s]) r
  end.
Lemma slice_mid : forall A (d b r : list A), py_slice (zlen d) (zlen d + zlen b) (d ++ b ++ r) = b.
Proof.
  intros A d b r. unfold py_slice, zlen. rewrite skipn_app, Nat2Z.id.
  replace (Z.to_nat (Z.of_nat (length d) + Z.of_nat (length b) - Z.of_nat (length d))) with (length b) by lia.
  rewrite skipn_all, Nat.sub_diag. cbn [skipn app]. rewrite firstn_app, Nat.sub_diag, firstn_all. cbn [firstn]. apply app_nil_r.
Qed.
Lemma skip_mid : forall A (d r : list A), skipn (Z.to_nat (zlen d)) (d ++ r) = r.
Proof. intros A d r. unfold zlen. rewrite Nat2Z.id, skipn_app, skipn_all, Nat.sub_diag. reflexivity. Qed.
Lemma cblocks_spec : forall T C (get : Z -> T) (l : list (stitch C)) r d b n, l = d ++ b ++ r ->
  colorblocks get l n (zlen d) (zlen d + zlen b) r = cblocks get n b r.
Proof.
  intros T C get l. induction r as [|s r IH]; intros d b n El.
  - cbn [colorblocks cblocks]. rewrite El, !app_nil_r. rewrite zlen_app. destruct b as [|a b].
    + change (zlen []) with 0. rewrite Z.add_0_r, Z.eqb_refl. reflexivity.
    + pose proof (zlen_nonneg b). rewrite zlen_cons. destruct (Z.eqb_spec (zlen d) (zlen d + (1 + zlen b))); [lia|]. cbn [negb]. rewrite skip_mid. reflexivity.
  - assert (B : (zlen d =? zlen d + zlen b) = match b with [] => true | _ => false end).
    { destruct b as [|a b]; [change (zlen []) with 0; rewrite Z.add_0_r; apply Z.eqb_refl|]. pose proof (zlen_nonneg b). rewrite zlen_cons.
      apply Z.eqb_neq. lia. }
    assert (S1 : py_slice (zlen d) (zlen d + zlen b) l = b) by (rewrite El; apply slice_mid).
    assert (S2 : py_slice (zlen d) (zlen d + zlen b + 1) l = b ++ [s]).
    { rewrite El. replace (d ++ b ++ s :: r) with (d ++ (b ++ [s]) ++ r) by (rewrite <- app_assoc; reflexivity).
      replace (zlen d + zlen b + 1) with (zlen d + zlen (b ++ [s])) by (rewrite zlen_app; change (zlen [s]) with 1; lia). apply slice_mid. }
    assert (N : forall m, colorblocks get l m (zlen d + zlen b + 1) (zlen d + zlen b + 1) r = cblocks get m [] r).
    { intros m. rewrite <- (IH (d ++ b ++ [s]) [] m) by (rewrite El, <- !app_assoc; reflexivity).
      f_equal; rewrite !zlen_app; change (zlen [s]) with 1; change (zlen (@nil (stitch C))) with 0; lia. }
    cbn [colorblocks cblocks]. rewrite B, S1, S2.
    destruct (cmd_of (scmd s) =? COLOR_BREAK).
    + destruct b; cbn [negb]; rewrite N; reflexivity.
    + destruct (cmd_of (scmd s) =? COLOR_CHANGE); [rewrite N; reflexivity|].
      destruct ((cmd_of (scmd s) =? NEEDLE_SET) && negb match b with [] => true | _ => false end).
      * f_equal. rewrite <- (IH (d ++ b) [s] (n + 1)) by (rewrite El, <- app_assoc; reflexivity).
        f_equal; rewrite ?zlen_app; change (zlen [s]) with 1; lia.
      * rewrite <- (IH d (b ++ [s]) n) by (rewrite El, <- !app_assoc; reflexivity). f_equal. rewrite zlen_app. change (zlen [s]) with 1. lia.
Qed.
Lemma colorblocks_cblocks : forall T C (get : Z -> T) (l : list (stitch C)), get_as_colorblocks get l = cblocks get 0 [] l.
Proof. intros T C get l. unfold get_as_colorblocks. apply (cblocks_spec T C get l l [] [] 0). reflexivity. Qed.

(** A block without commands that cut is taken up as it is. *)
Definition uncut {C} (s : stitch C) : Prop := ~ In (cmd_of (scmd s)) [COLOR_BREAK; COLOR_CHANGE; NEEDLE_SET].
Lemma cblocks_uncut : forall T C (get : Z -> T) n (b c r : list (stitch C)), Forall uncut c ->
  cblocks get n b (c ++ r) = cblocks get n (b ++ c) r.
Proof.
  intros T C get n b c r H. revert b. induction H as [|s c Hs _ IH]; intros b; [rewrite app_nil_r; reflexivity|].
  cbn [app cblocks]. unfold uncut in Hs. cbn [In] in Hs.
  destruct (Z.eqb_spec (cmd_of (scmd s)) COLOR_BREAK); [exfalso; apply Hs; auto|].
  destruct (Z.eqb_spec (cmd_of (scmd s)) COLOR_CHANGE); [exfalso; apply Hs; auto|].
  destruct (Z.eqb_spec (cmd_of (scmd s)) NEEDLE_SET); [exfalso; apply Hs; auto|]. cbn [andb].
  rewrite IH, <- app_assoc. reflexivity.
Qed.
(** Blocks that each end with a colour break. *)
Lemma cblocks_breaks : forall T C (get : Z -> T) (brk : list (stitch C) -> stitch C) bs n,
  (forall b, cmd_of (scmd (brk b)) = COLOR_BREAK) -> Forall (fun b => b <> [] /\ Forall uncut b) bs ->
  cblocks get n [] (flat_map (fun b => b ++ [brk b]) bs) = combine bs (map (fun i => get (n + Z.of_nat i)) (seq 0 (length bs))).
Proof.
  intros T C get brk bs n Hb H. revert n. induction H as [|b bs [N U] _ IH]; intros n; [reflexivity|].
  cbn [flat_map length seq map combine]. rewrite <- app_assoc, cblocks_uncut by exact U. cbn [app cblocks]. rewrite Hb, Z.eqb_refl.
  destruct b as [|a b]; [contradiction N; reflexivity|]. rewrite Z.add_0_r. f_equal. rewrite IH, <- seq_shift, map_map. f_equal. apply map_ext. intros i. f_equal. lia.
Qed.

(** ** Stable patterns *)
Section Stable.
Context {T : Type} (same : T -> T -> bool) (Hsame : forall a b, same a b = true <-> a = b).
Definition tagged (b : list (stitch Q) * T) : list (stitch Q * T) :=
  map (fun s => (s, snd b)) (filter (fun s => cmd_of (scmd s) =? STITCH) (fst b)).
Definition new_block (last : option T) (t : T) : bool := match last with None => true | Some u => negb (same t u) end.
(** What the fold comes to. *)
Fixpoint stable_threads (last : option T) (bs : list (list (stitch Q) * T)) : list T :=
  match bs with
  | [] => []
  | (_, t) :: bs => (if new_block last t then [t] else []) ++ stable_threads (Some t) bs
  end.
Inductive stable_out : option T -> list (list (stitch Q) * T) -> list (stitch Q) -> Prop :=
| so_nil : forall last, stable_out last [] []
| so_block : forall last b t bs brk out, scmd brk = (if new_block last t then COLOR_BREAK else SEQUENCE_BREAK) ->
    stable_out (Some t) bs out -> stable_out last ((b, t) :: bs) (brk :: b ++ out).

Lemma add_all : forall (b : list (stitch Q)) (p : pattern T Q),
  exists x y, fold_left (fun p s => add_stitch_absolute (scmd s) (sx s) (sy s) p) b p = mkP (p_stitches p ++ b) (p_threads p) x y.
Proof.
  induction b as [|s b IH]; intros p; cbn [fold_left].
  - exists (p_x p), (p_y p). destruct p. rewrite app_nil_r. reflexivity.
  - destruct (IH (add_stitch_absolute (scmd s) (sx s) (sy s) p)) as (x & y & E). exists x, y. rewrite E. unfold add_stitch_absolute.
    cbn [p_stitches p_threads]. rewrite <- app_assoc. destruct s. reflexivity.
Qed.
Lemma last_error : forall (l : list T) t, hd_error (rev (l ++ [t])) = Some t.
Proof. intros l t. rewrite rev_app_distr. reflexivity. Qed.
Lemma add_blocks : forall bs (p : pattern T Q) last, hd_error (rev (p_threads p)) = last ->
  exists out x y, fold_left (add_stitchblock same) bs p = mkP (p_stitches p ++ out) (p_threads p ++ stable_threads last bs) x y /\
    stable_out last bs out.
Proof.
  induction bs as [|[b t] bs IH]; intros p last Hl; cbn [fold_left].
  - exists [], (p_x p), (p_y p). split; [|constructor]. cbn [stable_threads]. rewrite !app_nil_r. destruct p. reflexivity.
  - assert (E0 : exists p1, add_stitchblock same p (b, t) = fold_left (fun p s => add_stitch_absolute (scmd s) (sx s) (sy s) p) b p1 /\
      exists brk x y, p1 = mkP (p_stitches p ++ [brk]) (p_threads p ++ if new_block last t then [t] else []) x y /\
       scmd brk = if new_block last t then COLOR_BREAK else SEQUENCE_BREAK).
    { unfold add_stitchblock. cbn [fst snd]. eexists. split; [reflexivity|].
      assert (En : match rev (p_threads p) with [] => true | u :: _ => negb (same t u) end = new_block last t).
      { subst last. destruct (rev (p_threads p)); reflexivity. }
      rewrite En. destruct (new_block last t); unfold add_stitch_relative, add_stitch_absolute; cbn [p_stitches p_threads];
        do 3 eexists; (split; [rewrite ?app_nil_r; reflexivity|reflexivity]). }
    destruct E0 as (p1 & E0 & brk & x1 & y1 & -> & Hb). rewrite E0. clear E0.
    destruct (add_all b (mkP (p_stitches p ++ [brk]) (p_threads p ++ (if new_block last t then [t] else [])) x1 y1)) as (x2 & y2 & E2).
    rewrite E2. cbn [p_stitches p_threads].
    destruct (IH (mkP ((p_stitches p ++ [brk]) ++ b) (p_threads p ++ (if new_block last t then [t] else [])) x2 y2) (Some t)) as (out & x & y & E & O).
    { cbn [p_threads]. destruct (new_block last t) eqn:N; [apply last_error|]. rewrite app_nil_r, Hl.
      unfold new_block in N. destruct last as [u|]; [|discriminate]. apply negb_false_iff, Hsame in N. congruence. }
    cbn [p_stitches p_threads] in E. exists (brk :: b ++ out), x, y. split.
    + rewrite E. cbn [stable_threads]. rewrite <- !app_assoc. reflexivity.
    + constructor; assumption.
Qed.

Definition plain_block (b : list (stitch Q) * T) : Prop := fst b <> [] /\ Forall is_stitch (fst b).
Lemma stitch_uncut : forall s : stitch Q, is_stitch s -> uncut s.
Proof. intros s H I. unfold is_stitch in H. rewrite H in I. cbn [In] in I. destruct I as [I|[I|[I|[]]]]; discriminate. Qed.
Lemma filter_stitch : forall b : list (stitch Q), Forall is_stitch b -> filter (fun s => cmd_of (scmd s) =? STITCH) b = b.
Proof. induction 1 as [|s b H _ IH]; [reflexivity|]. cbn [filter]. unfold is_stitch in H. rewrite H. rewrite IH. reflexivity. Qed.

Lemma stable_colors : forall get bs last out, stable_out last bs out -> Forall plain_block bs ->
  forall cur n, match last with Some t => cur <> [] /\ get n = t | None => cur = [] end ->
  (forall i, nth_error (stable_threads last bs) i = None \/
     nth_error (stable_threads last bs) i = Some (get (match last with Some _ => n + 1 | None => n end + Z.of_nat i))) ->
  flat_map tagged (cblocks get n cur out) =
    match last with Some t => tagged (cur, t) | None => [] end ++ flat_map tagged bs.
Proof.
  intros get bs last out H. induction H as [last|last b t bs brk out Hb H IH]; intros F cur n Hc Ht.
  - cbn [cblocks flat_map]. rewrite app_nil_r. destruct last as [t|].
    + destruct Hc as [Hc <-]. destruct cur; [contradiction Hc; reflexivity|]. cbn [flat_map]. rewrite app_nil_r. reflexivity.
    + subst cur. reflexivity.
  - inversion F as [|? ? [N P] F']; subst. cbn [fst] in *.
    assert (U : Forall uncut b) by (eapply Forall_impl; [|exact P]; apply stitch_uncut).
    assert (Tb : tagged (b, t) = map (fun s => (s, t)) b) by (unfold tagged; cbn [fst snd]; rewrite filter_stitch by exact P; reflexivity).
    cbn [cblocks flat_map]. destruct (new_block last t) eqn:Nb.
    + rewrite Hb. change (cmd_of COLOR_BREAK =? COLOR_BREAK) with true. cbn [stable_threads] in Ht. rewrite Nb in Ht. cbn [app] in Ht.
      assert (G : get match last with Some _ => n + 1 | None => n end = t).
      { destruct (Ht O) as [H0|H0]; cbn [nth_error] in H0; [discriminate|]. inversion H0. f_equal. change (Z.of_nat 0) with 0. lia. }
      assert (Ht' : forall i, nth_error (stable_threads (Some t) bs) i = None \/ nth_error (stable_threads (Some t) bs) i =
          Some (get (match last with Some _ => n + 1 | None => n end + 1 + Z.of_nat i))).
      { intros i. destruct (Ht (S i)) as [H0|H0]; cbn [nth_error] in H0; [auto|]. right. rewrite H0. f_equal. f_equal. lia. }
      destruct last as [u|].
      * destruct Hc as [Hc G']. destruct cur as [|a cur]; [contradiction Hc; reflexivity|]. cbn [flat_map]. rewrite G'. f_equal.
        rewrite cblocks_uncut by exact U. cbn [app]. rewrite (IH F' b (n + 1)); [reflexivity|auto|exact Ht'].
      * subst cur. cbn [app]. rewrite cblocks_uncut by exact U. cbn [app]. rewrite (IH F' b n); [reflexivity|auto|exact Ht'].
    + unfold new_block in Nb. destruct last as [u|]; [|discriminate]. assert (Eu : t = u) by (apply Hsame; destruct (same t u); [reflexivity|discriminate]).
      subst u. rewrite Hb. change (cmd_of SEQUENCE_BREAK =? COLOR_BREAK) with false. change (cmd_of SEQUENCE_BREAK =? COLOR_CHANGE) with false.
      change (cmd_of SEQUENCE_BREAK =? NEEDLE_SET) with false. cbn [andb]. rewrite cblocks_uncut by exact U.
      rewrite (IH F' ((cur ++ [brk]) ++ b) n).
      * unfold tagged at 1. cbn [fst snd]. rewrite !filter_app. cbn [filter]. rewrite Hb. change (cmd_of SEQUENCE_BREAK =? STITCH) with false.
        rewrite app_nil_r, map_app, <- app_assoc. reflexivity.
      * destruct Hc as [_ G]. split; [|exact G]. intros E. apply app_eq_nil in E as [_ E]. contradiction.
      * intros i. destruct (Ht i) as [H0|H0]; cbn [stable_threads] in H0; unfold new_block in H0; rewrite (proj2 (Hsame t t) eq_refl) in H0; cbn [negb app] in H0; auto.
Qed.
Lemma stable_kept : forall last bs out, stable_out last bs out -> Forall plain_block bs ->
  filter (fun s => cmd_of (scmd s) =? STITCH) out = concat (map fst bs) /\
  Forall (fun s => is_stitch s \/ scmd s = COLOR_BREAK \/ scmd s = SEQUENCE_BREAK) out.
Proof.
  intros last bs out H. induction H as [last|last b t bs brk out Hb H IH]; intros F; [split; [reflexivity|constructor]|].
  inversion F as [|? ? [N P] F']; subst. destruct (IH F') as [A B]. cbn [fst] in P. cbn [filter map concat fst].
  assert (K : cmd_of (scmd brk) =? STITCH = false) by (rewrite Hb; destruct (new_block last t); reflexivity). rewrite K, filter_app, filter_stitch, A by exact P.
  split; [reflexivity|]. constructor; [right; rewrite Hb; destruct (new_block last t); auto|]. apply Forall_app. split; [|exact B].
  eapply Forall_impl; [|exact P]. auto.
Qed.
Lemma stable_pattern : forall get (p : pattern T Q), exists out,
  p_stitches (get_stable_pattern same get p) = out /\
  p_threads (get_stable_pattern same get p) = stable_threads None (get_as_stitchblock get (p_stitches p)) /\
  stable_out None (get_as_stitchblock get (p_stitches p)) out.
Proof.
  intros get p. unfold get_stable_pattern.
  destruct (add_blocks (get_as_stitchblock get (p_stitches p)) (mkP [] [] 0%Q 0%Q) None eq_refl) as (out & x & y & E & O).
  rewrite E. exists out. auto.
Qed.
Lemma blocks_plain : forall get (l : list (stitch Q)), Forall plain_block (get_as_stitchblock (T := T) get l).
Proof.
  intros get l. destruct (stitchblocks_spec get l [] 0) as (cut & H1 & H2); [constructor|]. change (0 + 1) with 1 in H2.
  unfold get_as_stitchblock. rewrite H2. clear H2. cbn [app] in H1.
  induction H1; cbn [map]; try constructor; auto; try constructor; cbn [fst]; auto.
Qed.
End Stable.
