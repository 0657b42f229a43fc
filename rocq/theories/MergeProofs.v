(** get_pattern_interpolate_trim and get_pattern_merge_jumps. *)
From Coq Require Import ZArith QArith Qabs List Bool Lia Lqa.
From Verif Require Import PyBase EmbConst NumQ MetricSpec PatternModel PatternSpec TrimProofs.
Import ListNotations.
Open Scope Z_scope.

Lemma skip_jumps_spec {C} (l : list (stitch C)) r js : forall done s fuel ie c,
  l = done ++ s :: js ++ r -> scmd s = JUMP -> Forall (fun s => scmd s = JUMP) js ->
  match r with [] => True | u :: _ => scmd u <> JUMP end ->
  ie = zlen l - 1 -> (length js + length r <= fuel)%nat ->
  skip_jumps fuel l (zlen done) ie c JUMP
  = Ok (match r with
        | [] => (ie, c + zlen js, JUMP)
        | u :: _ => (zlen done + zlen js + 1, c + zlen js + 1, scmd u) end).
Proof.
  induction js as [|j js IH]; intros done s fuel ie c El Es Fj Hr Eie Hf.
  - rewrite El in Eie. rewrite zlen_app, zlen_cons in Eie. cbn [app] in *.
    destruct r as [|u r].
    + rewrite zlen_nil in *. replace (zlen done) with ie by lia.
      destruct fuel; cbn [skip_jumps]; rewrite Z.ltb_irrefl, Z.add_0_r; reflexivity.
    + cbn [length] in Hf. destruct fuel as [|fuel]; [lia|]. cbn [skip_jumps].
      rewrite zlen_cons in Eie. pose proof (zlen_nonneg r).
      destruct (Z.ltb_spec (zlen done) ie); [|lia]. cbn [andb]. rewrite Z.eqb_refl.
      replace l with ((done ++ [s]) ++ u :: r) by (rewrite El, <- app_assoc; reflexivity).
      rewrite (py_index_app _ (done ++ [s])) by (rewrite zlen_app, zlen_cons, zlen_nil; lia).
      cbn [bindr].
      assert (E : forall fuel i, skip_jumps fuel ((done ++ [s]) ++ u :: r) i ie (c + 1) (scmd u) = Ok (i, c + 1, scmd u)).
      { intros f i. destruct f; cbn [skip_jumps]; rewrite (proj2 (Z.eqb_neq _ _) Hr), andb_false_r; reflexivity. }
      rewrite E, zlen_nil, !Z.add_0_r. reflexivity.
  - inversion Fj as [|? ? Ej Fj']; subst. cbn [length] in Hf. destruct fuel as [|fuel]; [lia|]. cbn [skip_jumps].
    set (l := done ++ s :: (j :: js) ++ r) in *.
    assert (El' : l = (done ++ [s]) ++ j :: js ++ r) by (unfold l; rewrite <- app_assoc; reflexivity).
    assert (Hz : zlen l = zlen done + 1 + 1 + zlen js + zlen r).
    { unfold l. rewrite zlen_app, zlen_cons. cbn [app]. rewrite zlen_cons, zlen_app. lia. }
    pose proof (zlen_nonneg js). pose proof (zlen_nonneg r).
    destruct (Z.ltb_spec (zlen done) (zlen l - 1)); [|lia]. cbn [andb]. rewrite Z.eqb_refl.
    rewrite El' at 1. rewrite (py_index_app _ (done ++ [s])) by (rewrite zlen_app, zlen_cons, zlen_nil; lia).
    cbn [bindr]. rewrite Ej. replace (zlen done + 1) with (zlen (done ++ [s])) by (rewrite zlen_app; reflexivity).
    rewrite (IH (done ++ [s]) j fuel (zlen l - 1) (c + 1)); auto; [|lia].
    rewrite zlen_app, zlen_cons, zlen_nil, zlen_cons.
    replace (c + (1 + zlen js)) with (c + 1 + zlen js) by lia.
    replace (zlen done + (1 + zlen js) + 1) with (zlen done + (1 + 0) + zlen js + 1) by lia. destruct r; reflexivity.
Qed.

(** Cut a run of plain jumps. *)
Lemma cut_jumps {C} (l : list (stitch C)) : exists js r, l = js ++ r /\ Forall (fun s => scmd s = JUMP) js
  /\ match r with [] => True | u :: _ => scmd u <> JUMP end.
Proof.
  induction l as [|s l (js & r & -> & F & H)].
  - exists [], []. auto.
  - destruct (Z.eq_dec (scmd s) JUMP) as [E|E].
    + exists (s :: js), r. auto.
    + exists [], (s :: js ++ r). auto.
Qed.

Lemma opens_spec {C} o (s : stitch C) :
  opens o s (negb (if (cmd_of (scmd s) =? STITCH) || (cmd_of (scmd s) =? SEQUIN_EJECT) then false
     else if (cmd_of (scmd s) =? COLOR_CHANGE) || (cmd_of (scmd s) =? NEEDLE_SET) || (cmd_of (scmd s) =? TRIM)
     then true else negb o)).
Proof.
  unfold opens. rewrite resets_spec.
  destruct ((cmd_of (scmd s) =? STITCH) || (cmd_of (scmd s) =? SEQUIN_EJECT)) eqn:E1.
  - left. rewrite orb_true_iff, !Z.eqb_eq in E1. cbn [In]. intuition.
  - destruct ((cmd_of (scmd s) =? COLOR_CHANGE) || (cmd_of (scmd s) =? NEEDLE_SET) || (cmd_of (scmd s) =? TRIM)) eqn:E2.
    + right. left. rewrite !orb_true_iff, !Z.eqb_eq in E2. cbn [In]. intuition.
    + right. right. rewrite negb_involutive. split; [discriminate | reflexivity].
Qed.

Lemma interpolate_trim_loop_spec {T} n : forall fuel done rest o (out : pattern T Q),
  (length rest <= fuel)%nat ->
  exists out' add, interpolate_trim_loop fuel n (done ++ rest) (zlen done - 1) (zlen (done ++ rest) - 1) (negb o) out
      = Ok out'
    /\ p_stitches out' = p_stitches out ++ add /\ p_threads out' = p_threads out
    /\ jumps_merged n o (p_x out) (p_y out) rest add.
Proof.
  induction fuel as [|fuel IH]; intros done rest o out Hf.
  - assert (rest = []) as -> by (destruct rest; [reflexivity | cbn in Hf; lia]).
    exists out, []. rewrite !app_nil_r. cbn [interpolate_trim_loop]. rewrite Z.ltb_irrefl.
    repeat split; auto. constructor.
  - destruct rest as [|s rest].
    + exists out, []. rewrite !app_nil_r. cbn [interpolate_trim_loop]. rewrite Z.ltb_irrefl.
      repeat split; auto. constructor.
    + cbn [length] in Hf. cbn [interpolate_trim_loop].
      pose proof (zlen_nonneg rest) as Zr.
      assert (Ez : zlen (done ++ s :: rest) = zlen done + 1 + zlen rest) by (rewrite zlen_app, zlen_cons; lia).
      destruct (Z.ltb_spec (zlen done - 1) (zlen (done ++ s :: rest) - 1)); [|lia].
      replace (zlen done - 1 + 1) with (zlen done) by lia.
      rewrite py_index_app by reflexivity. cbn [bindr].
      pose proof (opens_spec o s) as Op.
      set (tr := if (cmd_of (scmd s) =? STITCH) || (cmd_of (scmd s) =? SEQUIN_EJECT) then false
         else if (cmd_of (scmd s) =? COLOR_CHANGE) || (cmd_of (scmd s) =? NEEDLE_SET) || (cmd_of (scmd s) =? TRIM)
         then true else negb o) in *.
      destruct (tr || negb (scmd s =? JUMP)) eqn:Ek.
      * specialize (IH (done ++ [s]) rest (negb tr) (add_stitch_absolute (scmd s) (sx s) (sy s) out) ltac:(lia)).
        destruct IH as (out' & add & E & Es & Et & M).
        rewrite negb_involutive, <- app_assoc in E. cbn [app] in E.
        replace (zlen (done ++ [s]) - 1) with (zlen done) in E by (rewrite zlen_app, zlen_cons, zlen_nil; lia).
        rewrite E. exists out', (s :: add). split; [reflexivity|].
        cbn [add_stitch_absolute p_stitches p_threads p_x p_y] in *.
        split; [rewrite Es, <- app_assoc; destruct s; reflexivity|]. split; [assumption|].
        apply merged_keep with (negb tr); auto.
        apply orb_true_iff in Ek. destruct Ek as [Ek|Ek]; [left; rewrite Ek; reflexivity|].
        right. apply negb_true_iff, Z.eqb_neq in Ek. exact Ek.
      * apply orb_false_iff in Ek. destruct Ek as [Et Ej]. apply negb_false_iff, Z.eqb_eq in Ej.
        assert (Ec : cmd_of (scmd s) = JUMP) by (rewrite Ej; reflexivity).
        assert (Eo : o = true).
        { unfold tr in Et. rewrite Ec in Et. cbn in Et. destruct o; [reflexivity | discriminate]. }
        subst o. rewrite Et, Ec.
        destruct (cut_jumps rest) as (js & r & -> & Fj & Hr).
        rewrite app_length in Hf.
        rewrite (skip_jumps_spec (done ++ s :: js ++ r) r js done s fuel _ 0 eq_refl Ej Fj Hr eq_refl) by lia.
        cbn [bindr].
        (* the last jump of the run *)
        assert (Lst : exists js' k, s :: js = js' ++ [k] /\ length js' = length js).
        { destruct (exists_last (l := s :: js)) as (js' & k & E); [discriminate|]. exists js', k.
          split; [exact E|]. assert (L : length (s :: js) = length (js' ++ [k])) by congruence.
          rewrite app_length in L. cbn in L. lia. }
        destruct Lst as (js' & k & Ejk & Ljs).
        assert (El : done ++ s :: js ++ r = (done ++ js') ++ k :: r).
        { change (s :: js ++ r) with ((s :: js) ++ r). rewrite Ejk, <- !app_assoc. reflexivity. }
        assert (Fk : Forall (fun s => scmd s = JUMP) (js' ++ [k])) by (rewrite <- Ejk; constructor; assumption).
        assert (Ek : scmd k = JUMP).
        { rewrite Forall_app in Fk. destruct Fk as [_ Fk]. inversion Fk; assumption. }
        set (found := match r with [] => _ | _ => _ end).
        assert (Ef : exists count command, found = ((if negb (command =? JUMP) then zlen done + zlen js + 1 else zlen done + zlen js), count, command)
           /\ (match r with [] => command = JUMP /\ count = zlen js | u :: _ => command = scmd u /\ count = zlen js + 1 end)).
        { unfold found. destruct r as [|u r].
          - exists (zlen js), JUMP. rewrite Z.eqb_refl. cbn [negb]. split; [|auto].
            rewrite app_nil_r, zlen_app, zlen_cons.
            replace (zlen done + (1 + zlen js) - 1) with (zlen done + zlen js) by lia. reflexivity.
          - exists (zlen js + 1), (scmd u). rewrite (proj2 (Z.eqb_neq _ _) Hr). cbn [negb]. split; [|auto].
            reflexivity. }
        destruct Ef as (count & command & -> & Hc). cbn [bindr].
        replace (if negb (command =? JUMP)
                 then (if negb (command =? JUMP) then zlen done + zlen js + 1 else zlen done + zlen js) - 1
                 else if negb (command =? JUMP) then zlen done + zlen js + 1 else zlen done + zlen js)
          with (zlen (done ++ js')) by (rewrite zlen_app; unfold zlen; rewrite Ljs; destruct (negb (command =? JUMP)); lia).
        rewrite El. rewrite py_index_app by reflexivity. cbn [bindr].
        set (out1 := if n <=? count then _ else _).
        specialize (IH ((done ++ js') ++ [k]) r true (add_stitch_absolute (scmd k) (sx k) (sy k) out1) ltac:(lia)).
        destruct IH as (out' & add & E & Es & Eth & M).
        rewrite <- (app_assoc (done ++ js') [k] r) in E. cbn [app negb] in E.
        replace (zlen ((done ++ js') ++ [k]) - 1) with (zlen (done ++ js')) in E
          by (rewrite (zlen_app _ [k]), zlen_cons, zlen_nil; lia).
        rewrite E.
        change (s :: js ++ r) with ((s :: js) ++ r). rewrite Ejk, <- app_assoc. cbn [app].
        cbn [add_stitch_absolute p_stitches p_threads p_x p_y] in *.
        assert (Ekk : mkS (sx k) (sy k) (scmd k) = k) by (destruct k; reflexivity).
        assert (Lz : zlen js = Z.of_nat (length js')) by (unfold zlen; rewrite Ljs; reflexivity).
        unfold out1 in *. destruct (Z.leb_spec n count) as [Hn|Hn].
        -- exists out', (mkS (p_x out + 0)%Q (p_y out + 0)%Q TRIM :: k :: add). split; [reflexivity|].
           cbn [add_stitch_relative add_stitch_absolute p_stitches p_threads] in *.
           split; [rewrite Es, <- !app_assoc, Ekk; reflexivity|]. split; [assumption|].
           apply merged_trim; auto.
           ++ destruct r; destruct Hc; [lia | split; [auto | lia]].
           ++ cbn. Lqa.lra.
           ++ cbn. Lqa.lra.
        -- exists out', (k :: add). split; [reflexivity|].
           split; [rewrite Es, <- !app_assoc, Ekk; reflexivity|]. split; [assumption|].
           apply merged_run; auto.
           destruct r; destruct Hc; [lia | split; [auto | lia]].
Qed.

Lemma get_pattern_interpolate_trim_spec {T} n fuel (p : pattern T Q) :
  (length (p_stitches p) <= fuel)%nat ->
  exists p', get_pattern_interpolate_trim fuel n p = Ok p' /\ p_threads p' = p_threads p
    /\ jumps_merged n false 0%Q 0%Q (p_stitches p) (p_stitches p').
Proof.
  intros Hf. destruct (interpolate_trim_loop_spec n fuel [] (p_stitches p) false (mkP (T := T) [] [] 0%Q 0%Q) Hf)
    as (out & add & E & Es & Et & M).
  unfold get_pattern_interpolate_trim. cbn [app negb] in E. rewrite zlen_nil in E. cbn [Z.sub Z.add Z.opp] in E.
  change (0 - 1) with (-1) in E. rewrite E. cbn [bindr]. eexists. split; [reflexivity|].
  cbn [p_threads p_stitches app] in *. rewrite Et, Es. auto.
Qed.

(** The commands that are neither jumps nor trims survive. *)
Definition is_other_cmd {C} (s : stitch C) : bool :=
  negb (cmd_of (scmd s) =? JUMP) && negb (cmd_of (scmd s) =? TRIM).
Lemma jumps_merged_keeps n o x y l l' : jumps_merged n o x y l l' ->
  filter is_other_cmd l' = filter is_other_cmd l.
Proof.
  assert (D : forall js : list (stitch Q), Forall (fun s => scmd s = JUMP) js -> filter is_other_cmd js = []).
  { induction 1 as [|s js E _ IH]; cbn [filter]; [reflexivity|].
    assert (is_other_cmd s = false) as -> by (unfold is_other_cmd; rewrite E; reflexivity). exact IH. }
  induction 1 as [|o x y s o' l l' _ _ _ IH|x y js k l l' F _ _ IH|x y js k t l l' F _ Et _ _ _ IH].
  - reflexivity.
  - cbn [filter]. rewrite IH. reflexivity.
  - rewrite Forall_app in F. destruct F as [F1 F2]. inversion F2 as [|? ? Ek _]; subst.
    rewrite filter_app, (D js F1). cbn [filter app].
    assert (is_other_cmd k = false) as -> by (unfold is_other_cmd; rewrite Ek; reflexivity). exact IH.
  - rewrite Forall_app in F. destruct F as [F1 F2]. inversion F2 as [|? ? Ek _]; subst.
    rewrite filter_app, (D js F1). cbn [filter app].
    assert (is_other_cmd k = false) as -> by (unfold is_other_cmd; rewrite Ek; reflexivity).
    assert (is_other_cmd t = false) as -> by (unfold is_other_cmd; rewrite Et; reflexivity). exact IH.
Qed.

Lemma merge_jumps_true {T} l : forall out : pattern T Q,
  p_stitches (merge_jumps true l out)
  = p_stitches out ++ filter (fun s => negb (cmd_of (scmd s) =? JUMP)) l
  /\ p_threads (merge_jumps true l out) = p_threads out.
Proof.
  induction l as [|s l IH]; intros out; cbn [merge_jumps filter]; [rewrite app_nil_r; auto|].
  destruct (cmd_of (scmd s) =? JUMP); cbn [negb]; [apply IH|].
  destruct (IH (add_stitch_absolute (scmd s) (sx s) (sy s) out)) as [H1 H2]. rewrite H1, H2.
  cbn [add_stitch_absolute p_stitches p_threads]. rewrite <- app_assoc. destruct s; auto.
Qed.
