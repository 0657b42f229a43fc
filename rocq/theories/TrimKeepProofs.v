(** Trim interpolation never touches sewing and thread changes, with or without clipping. *)
From Coq Require Import ZArith QArith Qabs List Bool Lia.
From Verif Require Import PyBase EmbConst NumQ PatternModel TrimProofs DstAnyProofs.
Import ListNotations.
Open Scope Z_scope.
Ltac Zify.zify_post_hook ::= idtac.

(** The commands that end a run of jumps and are not trims. *)
Definition keeper {C} (s : stitch C) : bool :=
  existsb (Z.eqb (cmd_of (scmd s))) [STITCH; SEQUIN_EJECT; COLOR_CHANGE; NEEDLE_SET].
Notation K := (filter keeper).

Definition held (k0 : list (stitch Q)) (st : trim_state) : Prop :=
  r_ie st = zlen (r_ss st) - 1 /\ K (r_ss st) = k0 /\
  exists a m b, r_ss st = a ++ m ++ b /\ zlen a + zlen m = r_i st + 1 /\ K m = [] /\
    (r_jumping st = true -> zlen a = r_start st).

Lemma zlen_apps {A} (a b : list A) : zlen (a ++ b) = zlen a + zlen b.
Proof. unfold zlen. rewrite app_length. lia. Qed.
Lemma zlen_one {A} (a : A) l : zlen (a :: l) = zlen l + 1.
Proof. unfold zlen. cbn [length]. lia. Qed.
Lemma zlen_pos {A} (l : list A) : 0 <= zlen l.
Proof. unfold zlen. lia. Qed.

Lemma py_index_at {A} (p r : list A) s : py_index (zlen p) (p ++ s :: r) = Ok s.
Proof.
  unfold py_index. pose proof (zlen_pos p). destruct (Z.ltb_spec (zlen p) 0); [lia|].
  unfold zlen. rewrite Nat2Z.id, nth_error_app2 by lia. rewrite Nat.sub_diag. reflexivity.
Qed.
Lemma py_insert_at {A} (p r : list A) v : py_insert (zlen p) v (p ++ r) = p ++ v :: r.
Proof.
  unfold py_insert, zlen. rewrite Nat2Z.id, firstn_app, skipn_app, Nat.sub_diag, firstn_all, skipn_all.
  cbn [firstn skipn]. rewrite app_nil_r. reflexivity.
Qed.
Lemma py_del_at {A} (p m r : list A) : py_del (zlen p) (zlen p + zlen m) (p ++ m ++ r) = p ++ r.
Proof.
  unfold py_del. pose proof (zlen_pos m). rewrite Z.max_r by lia. unfold zlen.
  rewrite <- Nat2Z.inj_add, !Nat2Z.id. rewrite firstn_app, Nat.sub_diag, firstn_all. cbn [firstn]. rewrite app_nil_r.
  f_equal. rewrite app_assoc, <- app_length, skipn_app, Nat.sub_diag, skipn_all. reflexivity.
Qed.
Lemma trim_at_at p r l' : trim_at (zlen p) (p ++ r) = Ok l' -> r <> [] ->
  exists t, cmd_of (scmd t) = TRIM /\ l' = p ++ t :: r.
Proof.
  unfold trim_at, insert_stitch_relative. cbn [p_stitches]. pose proof (zlen_pos p).
  destruct (Z.ltb_spec (zlen p) 0); [lia|]. intros E Hr.
  assert (L : zlen p < zlen (p ++ r)).
  { rewrite zlen_apps. destruct r; [contradiction|]. rewrite zlen_one. pose proof (zlen_pos r). lia. }
  destruct (Z.eqb_spec (zlen p) 0) as [Z0|Z0].
  - cbn [bindr p_stitches] in E. injection E as <-. destruct p; [|rewrite zlen_one in Z0; pose proof (zlen_pos p); lia].
    eexists. split; [|reflexivity]. reflexivity.
  - destruct (Z.eqb_spec (zlen p) (zlen (p ++ r))); [lia|]. destruct (Z.ltb_spec 0 (zlen p)); [|lia].
    destruct (Z.ltb_spec (zlen p) (zlen (p ++ r))); [|lia]. cbn [andb] in E.
    destruct (py_index _ _) as [q|]; [|discriminate]. cbn [bindr p_stitches] in E. injection E as <-.
    rewrite py_insert_at. eexists. split; [|reflexivity]. reflexivity.
Qed.

Lemma trim_step_held jumps dist clip k0 st st' : held k0 st -> r_i st < r_ie st ->
  trim_step jumps dist clip st = Ok st' -> held k0 st'.
Proof.
  intros (H1 & H2 & a & m & b & Es & Hl & Hm & Hj) Hi. unfold trim_step.
  destruct b as [|s b].
  { exfalso. rewrite Es, app_nil_r, zlen_apps in H1. lia. }
  assert (Ix : py_index (r_i st + 1) (r_ss st) = Ok s).
  { rewrite Es, app_assoc. rewrite <- Hl, <- zlen_apps. apply py_index_at. }
  rewrite Ix. cbn [bindr].
  destruct (if _ || _ then (false, false) else _) as [trimmed jumping] eqn:Ej.
  assert (J : jumping = true -> r_jumping st = true /\ keeper s = false).
  { intros ->. unfold keeper. cbn [existsb]. destruct ((cmd_of (scmd s) =? STITCH) || (cmd_of (scmd s) =? SEQUIN_EJECT)) eqn:E1; [discriminate Ej|].
    destruct ((cmd_of (scmd s) =? COLOR_CHANGE) || (cmd_of (scmd s) =? NEEDLE_SET) || (cmd_of (scmd s) =? TRIM)) eqn:E2; [discriminate Ej|].
    injection Ej as _ ->. split; [reflexivity|]. apply orb_false_iff in E1 as [-> ->].
    apply orb_false_iff in E2 as [E2 _]. apply orb_false_iff in E2 as [-> ->]. reflexivity. }
  destruct (cmd_of (scmd s) =? JUMP) eqn:Ec.
  - apply Z.eqb_eq in Ec.
    assert (Ks : keeper s = false) by (unfold keeper; rewrite Ec; reflexivity).
    destruct (if jumping then _ else _) as [[[dx dy] count] start] eqn:Est.
    assert (P : exists a' m', a ++ m ++ s :: b = a' ++ m' ++ b /\ zlen a' = start /\ zlen a' + zlen m' = r_i st + 2 /\ K m' = [] /\ m' <> []).
    { destruct jumping; injection Est as <- <- <- <-.
      - exists a, (m ++ [s]). rewrite <- !app_assoc. split; [reflexivity|]. split; [apply Hj, J; reflexivity|].
        rewrite zlen_apps, zlen_one. change (zlen (@nil (stitch Q))) with 0. split; [lia|].
        rewrite filter_app, Hm. cbn [filter]. rewrite Ks. split; [reflexivity|]. intros E. destruct m; discriminate.
      - exists (a ++ m), [s]. rewrite <- !app_assoc. split; [reflexivity|]. rewrite zlen_apps. split; [lia|].
        rewrite zlen_one. change (zlen (@nil (stitch Q))) with 0. split; [lia|]. cbn [filter]. rewrite Ks. split; [reflexivity|discriminate]. }
    destruct P as (a' & m' & Eq & P1 & P2 & P3 & P4).
    cbv zeta. match goal with |- context [if negb trimmed && ?c then _ else _] => set (req := negb trimmed && c) end. clearbody req.
    match goal with |- bindr ?X _ = _ -> _ => destruct X as [[[[[ss start'] i'] ie'] tr]|] eqn:EX end; [|discriminate].
    cbn [bindr].
    assert (M : exists a'' , ss = a'' ++ m' ++ b /\ zlen a'' = start' /\ zlen a'' + zlen m' = i' + 1 /\ K ss = k0 /\ ie' = zlen ss - 1).
    { destruct req.
      - destruct (trim_at start (r_ss st)) as [l1|] eqn:Et; [|discriminate EX]. cbn [bindr] in EX. injection EX as <- <- <- <- <-.
        rewrite Es, Eq, <- P1 in Et. apply trim_at_at in Et; [|destruct m'; [contradiction|discriminate]].
        destruct Et as (t & Ct & ->). exists (a' ++ [t]). rewrite <- app_assoc. split; [reflexivity|].
        assert (Kt : keeper t = false) by (unfold keeper; rewrite Ct; reflexivity).
        rewrite zlen_apps, zlen_one. change (zlen (@nil (stitch Q))) with 0. split; [lia|]. split; [lia|]. split.
        + rewrite <- H2, Es, Eq. rewrite !filter_app. cbn [filter]. rewrite Kt. rewrite filter_app. reflexivity.
        + rewrite H1, Es, Eq. rewrite !zlen_apps, zlen_one, zlen_apps. lia.
      - injection EX as <- <- <- <- <-. exists a'. rewrite Es, Eq. split; [reflexivity|]. split; [exact P1|]. split; [lia|].
        rewrite <- Eq, <- Es. auto. }
    destruct M as (a'' & Ess & M1 & M2 & M3 & M4).
    destruct (_ && _); intros E; injection E as <-; unfold held; cbn [r_ie r_ss r_i r_jumping r_start].
    + replace (py_del start' (i' + 1) ss) with (a'' ++ b).
      2: { rewrite Ess, <- M1, <- M2. symmetry. apply py_del_at. }
      split; [reflexivity|]. split; [rewrite <- M3, Ess, !filter_app, P3; reflexivity|].
      exists a'', [], b. cbn [app]. change (zlen (@nil (stitch Q))) with 0. split; [reflexivity|]. split; [lia|]. split; [reflexivity|]. auto.
    + split; [exact M4|]. split; [exact M3|]. exists a'', m', b. split; [exact Ess|]. split; [lia|]. auto.
  - intros E. injection E as <-. unfold held. cbn [r_ie r_ss r_i r_jumping r_start].
    split; [exact H1|]. split; [exact H2|]. destruct jumping.
    + destruct (J eq_refl) as [J1 J2]. exists a, (m ++ [s]), b. rewrite Es, <- !app_assoc. split; [reflexivity|].
      rewrite zlen_apps, zlen_one. change (zlen (@nil (stitch Q))) with 0. split; [lia|]. rewrite filter_app, Hm. cbn [filter]. rewrite J2.
      split; [reflexivity|]. auto.
    + exists (a ++ m ++ [s]), [], b. rewrite Es, <- !app_assoc. split; [reflexivity|].
      rewrite !zlen_apps, zlen_one. change (zlen (@nil (stitch Q))) with 0. split; [lia|]. split; [reflexivity|]. discriminate.
Qed.

Lemma trim_loop_held jumps dist clip k0 : forall fuel st st', held k0 st ->
  trim_loop jumps dist clip fuel st = Ok st' -> held k0 st'.
Proof.
  induction fuel as [|fuel IH]; intros st st' H; cbn [trim_loop]; destruct (Z.ltb_spec (r_i st) (r_ie st)) as [L|L]; try discriminate.
  - intros E. injection E as <-. exact H.
  - destruct (trim_step jumps dist clip st) as [s1|] eqn:E1; [|discriminate]. cbn [bindr]. apply IH.
    exact (trim_step_held _ _ _ _ _ _ H L E1).
  - intros E. injection E as <-. exact H.
Qed.

Theorem interpolate_trims_keeps jumps dist clip fuel l l' : interpolate_trims jumps dist clip fuel l = Ok l' ->
  K l' = K l.
Proof.
  unfold interpolate_trims.
  destruct (trim_loop _ _ _ _ _) as [st|] eqn:E; [|discriminate]. cbn [bindr]. intros E'. injection E' as <-.
  eapply trim_loop_held in E; [exact (proj1 (proj2 E))|].
  unfold held. cbn [r_ie r_ss r_i r_jumping r_start]. split; [reflexivity|]. split; [reflexivity|].
  exists [], [], l. split; [reflexivity|]. split; [reflexivity|]. split; [reflexivity|]. discriminate.
Qed.
