(** DST trims through the reader's trim interpolation. *)
From Coq Require Import ZArith QArith Qabs List Bool Lia.
From Verif Require Import PyBase EmbConst StreamModel StreamSpec StreamProofs PatternModel PatternSpec TrimProofs
  DstModel DstSpec DstProofs DstFileProofs DstFileModel DstFileSpec BitLemmas.
Import ListNotations.
Open Scope Z_scope.

Notation inj := of_int.

Lemma trim_at_int b s r : exists x y, needle_after 0 0 b = (x, y) /\
  trim_at (zlen b) (map inj (b ++ s :: r)) = Ok (map inj (b ++ mkS x y TRIM :: s :: r)).
Proof.
  unfold trim_at, insert_stitch_relative. cbn [p_stitches p_threads p_x p_y].
  pose proof (zlen_nonneg b) as Hb. pose proof (zlen_nonneg r) as Hr.
  destruct (Z.ltb_spec (zlen b) 0); [lia|].
  destruct (Z.eqb_spec (zlen b) 0) as [E|E].
  - apply zlen_inv in E. subst b. exists 0, 0. split; [reflexivity|]. reflexivity.
  - assert (L : zlen (map inj (b ++ s :: r)) = zlen b + (1 + zlen r)).
    { unfold zlen. rewrite map_length, app_length. cbn [length]. lia. }
    rewrite L.
    destruct (Z.eqb_spec (zlen b) (zlen b + (1 + zlen r))); [lia|].
    destruct (Z.ltb_spec 0 (zlen b)); [|lia].
    destruct (Z.ltb_spec (zlen b) (zlen b + (1 + zlen r))); [|lia].
    destruct b as [|b0 b] using rev_ind; [exfalso; apply E; reflexivity|]. clear IHb.
    exists (sx b0), (sy b0). split.
    { clear. generalize 0 at 1. generalize 0. induction b as [|c b IH]; intros u v; [reflexivity|]. cbn [app needle_after]. apply IH. }
    rewrite <- !app_assoc. cbn [app]. rewrite map_app. cbn [map].
    rewrite (py_index_app _ (map inj b)) by (rewrite zlen_app; unfold zlen; rewrite map_length; cbn; lia).
    cbn [bindr andb p_stitches]. f_equal.
    replace (map inj b ++ inj b0 :: inj s :: map inj r) with ((map inj b ++ [inj b0]) ++ inj s :: map inj r)
      by (rewrite <- app_assoc; reflexivity).
    rewrite py_insert_app.
    + rewrite <- app_assoc. cbn [app]. rewrite map_app. cbn [map]. f_equal. f_equal. f_equal.
      unfold of_int. cbn [sx sy scmd]. f_equal; unfold inject_Z, Qplus; cbn [Qnum Qden Pos.mul]; f_equal; lia.
    + rewrite !zlen_app. unfold zlen. rewrite map_length. cbn. lia.
Qed.

Definition at_work (st : trim_state) (D R : list (stitch Z)) (x y : Z) (trimmed : bool) (run : option (Z * Z * Z)) : Prop :=
  r_ss st = map inj (D ++ R) /\ r_i st = zlen D - 1 /\ r_ie st = zlen D + zlen R - 1 /\
  r_x st = inject_Z x /\ r_y st = inject_Z y /\ needle_after 0 0 D = (x, y) /\ r_trimmed st = trimmed /\
  match run with
  | None => r_jumping st = false \/
      (r_jumping st = true /\ trimmed = true /\ (r_dx st == 0)%Q /\ (r_dy st == 0)%Q /\
       exists B J, D = B ++ J /\ r_start st = zlen B /\ needle_after 0 0 B = (x, y))
  | Some (k, x0, y0) => r_jumping st = true /\ (trimmed = false -> r_count st = k) /\
      (r_dx st == inject_Z (x - x0))%Q /\ (r_dy st == inject_Z (y - y0))%Q /\
      exists B J, D = B ++ J /\ r_start st = zlen B /\ needle_after 0 0 B = (x0, y0)
  end.

Section Steps.
Variable n : Z.
Hypothesis Hn : 2 <= n.
Notation step := (trim_step (Some n) None true).
Notation loop := (trim_loop (Some n) None true).

Lemma fetch st D s R x y trimmed run : at_work st D (s :: R) x y trimmed run ->
  py_index (r_i st + 1) (r_ss st) = Ok (inj s) /\ (r_i st <? r_ie st) = true.
Proof.
  intros (E1 & E2 & E3 & _). rewrite E1, E2, E3. pose proof (zlen_nonneg D). pose proof (zlen_nonneg R).
  rewrite zlen_cons. split; [|apply Z.ltb_lt; lia]. rewrite map_app. cbn [map].
  apply py_index_app. unfold zlen. rewrite map_length. lia.
Qed.
Lemma needle_snoc D (s : stitch Z) : needle_after 0 0 (D ++ [s]) = (sx s, sy s).
Proof. generalize 0 at 1. generalize 0. induction D as [|c D IH]; intros u v; [reflexivity|]. cbn [app needle_after]. apply IH. Qed.

(** Commands that are not jumps. *)
Lemma step_plain st D s R x y trimmed run :
  at_work st D (s :: R) x y trimmed run -> cmd_of (scmd s) <> JUMP ->
  exists st', step st = Ok st' /\
    let c := cmd_of (scmd s) in
    if (c =? STITCH) || (c =? SEQUIN_EJECT) then at_work st' (D ++ [s]) R (sx s) (sy s) false None
    else if (c =? COLOR_CHANGE) || (c =? NEEDLE_SET) || (c =? TRIM) then at_work st' (D ++ [s]) R (sx s) (sy s) true None
    else sx s = x -> sy s = y -> at_work st' (D ++ [s]) R (sx s) (sy s) trimmed run.
Proof.
  intros W NJ. destruct (fetch _ _ _ _ _ _ _ _ W) as [F _].
  destruct W as (E1 & E2 & E3 & E4 & E5 & E6 & E7 & E8).
  unfold trim_step. rewrite F. cbn [bindr of_int scmd sx sy]. apply Z.eqb_neq in NJ.
  assert (L : zlen (D ++ [s]) = zlen D + 1) by (rewrite zlen_app; reflexivity).
  assert (A : map inj (D ++ s :: R) = map inj ((D ++ [s]) ++ R)) by (rewrite <- app_assoc; reflexivity).
  rewrite zlen_cons in E3.
  destruct ((cmd_of (scmd s) =? STITCH) || (cmd_of (scmd s) =? SEQUIN_EJECT)).
  { rewrite NJ. eexists. split; [reflexivity|].
    unfold at_work. cbn [r_ss r_i r_ie r_x r_y r_trimmed r_jumping]. rewrite needle_snoc, E1, A, L.
    split; [reflexivity|]. split; [lia|]. split; [lia|]. repeat split. left; reflexivity. }
  destruct ((cmd_of (scmd s) =? COLOR_CHANGE) || (cmd_of (scmd s) =? NEEDLE_SET) || (cmd_of (scmd s) =? TRIM)).
  { rewrite NJ. eexists. split; [reflexivity|].
    unfold at_work. cbn [r_ss r_i r_ie r_x r_y r_trimmed r_jumping]. rewrite needle_snoc, E1, A, L.
    split; [reflexivity|]. split; [lia|]. split; [lia|]. repeat split. left; reflexivity. }
  rewrite NJ. eexists. split; [reflexivity|]. intros Ex Ey.
  split; [cbn [r_ss]; rewrite E1; exact A|]. cbn [r_i r_ie r_x r_y r_trimmed r_jumping r_dx r_dy r_count r_start].
  split; [lia|]. split; [lia|]. split; [reflexivity|]. split; [reflexivity|]. split; [apply needle_snoc|]. split; [exact E7|].
  rewrite Ex, Ey. destruct run as [[[k x0] y0]|].
  - destruct E8 as (H1 & H2 & H3 & H4 & B & J & -> & H5 & H6). split; [exact H1|]. split; [exact H2|]. split; [exact H3|].
    split; [exact H4|]. exists B, (J ++ [s]). rewrite <- app_assoc. auto.
  - destruct E8 as [E8|(H1 & H2 & H3 & H4 & B & J & -> & H5 & H6)]; [left; exact E8|]. right.
    split; [exact H1|]. split; [exact H2|]. split; [exact H3|]. split; [exact H4|]. exists B, (J ++ [s]). rewrite <- app_assoc. auto.
Qed.

(** A jump that neither asks for a trim nor ends where its run began. *)
Lemma step_jump st D s R x y trimmed run :
  at_work st D (s :: R) x y trimmed run -> cmd_of (scmd s) = JUMP ->
  let '(k, x0, y0) := match run with Some v => v | None => (0, x, y) end in
  (trimmed = true \/ k + 1 < n) -> ~ (sx s = x0 /\ sy s = y0) ->
  0 <= k ->
  exists st', step st = Ok st' /\ at_work st' (D ++ [s]) R (sx s) (sy s) trimmed (Some (k + 1, x0, y0)) /\
    (r_jumping st = false -> r_start st' = zlen D) /\ (r_jumping st = true -> r_start st' = r_start st).
Proof.
  intros W EJ. destruct (fetch _ _ _ _ _ _ _ _ W) as [F _].
  destruct W as (E1 & E2 & E3 & E4 & E5 & E6 & E7 & E8).
  assert (L : zlen (D ++ [s]) = zlen D + 1) by (rewrite zlen_app; reflexivity).
  assert (A : map inj (D ++ s :: R) = map inj ((D ++ [s]) ++ R)) by (rewrite <- app_assoc; reflexivity).
  rewrite zlen_cons in E3.
  assert (Q0 : forall a b c : Z, (inject_Z a - inject_Z b + inject_Z (b - c) == inject_Z (a - c))%Q).
  { intros. unfold Zminus. rewrite !inject_Z_plus, !inject_Z_opp. ring. }
  unfold trim_step. rewrite F. cbn [bindr of_int scmd sx sy]. rewrite EJ.
  change ((JUMP =? STITCH) || (JUMP =? SEQUIN_EJECT)) with false.
  change ((JUMP =? COLOR_CHANGE) || (JUMP =? NEEDLE_SET) || (JUMP =? TRIM)) with false. change (JUMP =? JUMP) with true. cbn iota.
  destruct (match run with Some v => v | None => (0, x, y) end) as [[k x0] y0] eqn:Er.
  intros Hk Hne Hk0.
  assert (C : exists dx dy c0 start,
    (if r_jumping st then (r_dx st, r_dy st, r_count st, r_start st) else (0%Q, 0%Q, 0, r_i st + 1)) = (dx, dy, c0, start) /\
    (dx == inject_Z (x - x0))%Q /\ (dy == inject_Z (y - y0))%Q /\ (trimmed = false -> c0 = k) /\
    (exists B J, D = B ++ J /\ start = zlen B /\ needle_after 0 0 B = (x0, y0)) /\
    (r_jumping st = false -> start = zlen D) /\ (r_jumping st = true -> start = r_start st)).
  { destruct run as [[[k' x0'] y0']|].
    - injection Er as -> -> ->. destruct E8 as (H1 & H2 & H3 & H4 & B & J & H5 & H6 & H7). rewrite H1.
      do 4 eexists. split; [reflexivity|]. split; [exact H3|]. split; [exact H4|]. split; [exact H2|]. split; [exists B, J; auto|]. split; congruence.
    - injection Er as <- <- <-. rewrite !Z.sub_diag. change (inject_Z 0) with 0%Q.
      destruct E8 as [H1|(H1 & H2 & H3 & H4 & B & J & H5 & H6 & H7)]; rewrite H1.
      + do 4 eexists. split; [reflexivity|]. split; [reflexivity|]. split; [reflexivity|]. split; [reflexivity|].
        split; [exists D, []; rewrite app_nil_r; split; [reflexivity|]; split; [lia|exact E6]|]. split; [lia|discriminate].
      + do 4 eexists. split; [reflexivity|]. split; [exact H3|]. split; [exact H4|]. split; [congruence|]. split; [exists B, J; auto|]. split; congruence. }
  destruct C as (dx & dy & c0 & start & -> & Hdx & Hdy & Hc & (B & J & EB & Es & Eb) & S1 & S2). cbn iota beta zeta.
  rewrite E7.
  assert (Rq : negb trimmed && ((c0 + 1 =? n) || false) = false).
  { destruct trimmed; [reflexivity|]. destruct Hk as [Hk|Hk]; [discriminate|]. rewrite (Hc eq_refl).
    destruct (Z.eqb_spec (k + 1) n); [lia|reflexivity]. }
  rewrite Rq. cbn [bindr].
  set (dx' := (dx + (inject_Z (sx s) - r_x st))%Q). set (dy' := (dy + (inject_Z (sy s) - r_y st))%Q).
  assert (Dx : (dx' == inject_Z (sx s - x0))%Q) by (unfold dx'; rewrite Hdx, E4, <- (Q0 (sx s) x x0); ring).
  assert (Dy : (dy' == inject_Z (sy s - y0))%Q) by (unfold dy'; rewrite Hdy, E5, <- (Q0 (sy s) y y0); ring).
  assert (Nz : true && Qeq_bool dx' 0 && Qeq_bool dy' 0 = false).
  { destruct (Qeq_bool dx' 0) eqn:B1; [|reflexivity]. destruct (Qeq_bool dy' 0) eqn:B2; [|reflexivity]. exfalso.
    apply Qeq_bool_iff in B1, B2. rewrite Dx in B1. rewrite Dy in B2. apply Hne.
    change 0%Q with (inject_Z 0) in B1, B2. rewrite inject_Z_injective in B1, B2. lia. }
  rewrite Nz. eexists. split; [reflexivity|]. cbn [r_start]. split; [|split; assumption].
  unfold at_work. cbn [r_ss r_i r_ie r_x r_y r_trimmed r_jumping r_dx r_dy r_count r_start]. rewrite needle_snoc, E1, A, L.
  split; [reflexivity|]. split; [lia|]. split; [lia|]. split; [reflexivity|]. split; [reflexivity|]. split; [reflexivity|].
  split; [reflexivity|]. split; [reflexivity|]. split; [intros Ht; rewrite (Hc Ht); reflexivity|]. split; [exact Dx|]. split; [exact Dy|].
  exists B, (J ++ [s]). rewrite EB, <- app_assoc. auto.
Qed.

(** The jump that completes a trim. *)
Lemma step_trim st B J s R x y x0 y0 :
  at_work st (B ++ J) (s :: R) x y false (Some (n - 1, x0, y0)) -> r_start st = zlen B -> needle_after 0 0 B = (x0, y0) ->
  cmd_of (scmd s) = JUMP -> sx s = x0 -> sy s = y0 -> J <> [] ->
  exists st', step st = Ok st' /\ at_work st' (B ++ [mkS x0 y0 TRIM]) R x0 y0 true None.
Proof.
  intros W Es Eb EJ Ex Ey NJ. destruct (fetch _ _ _ _ _ _ _ _ W) as [F _].
  destruct W as (E1 & E2 & E3 & E4 & E5 & E6 & E7 & H1 & H2 & H3 & H4 & _).
  rewrite zlen_cons in E3.
  assert (Q0 : forall a b c : Z, (inject_Z a - inject_Z b + inject_Z (b - c) == inject_Z (a - c))%Q).
  { intros. unfold Zminus. rewrite !inject_Z_plus, !inject_Z_opp. ring. }
  unfold trim_step. rewrite F. cbn [bindr of_int scmd sx sy]. rewrite EJ.
  change ((JUMP =? STITCH) || (JUMP =? SEQUIN_EJECT)) with false.
  change ((JUMP =? COLOR_CHANGE) || (JUMP =? NEEDLE_SET) || (JUMP =? TRIM)) with false. change (JUMP =? JUMP) with true. cbn iota.
  rewrite H1. cbn iota beta zeta. rewrite E7, (H2 eq_refl). replace (n - 1 + 1) with n by lia. rewrite Z.eqb_refl. cbn [orb negb andb].
  rewrite Es. destruct J as [|j J]; [congruence|].
  replace (r_ss st) with (map inj (B ++ j :: (J ++ s :: R))) by (rewrite E1; f_equal; rewrite <- !app_assoc; reflexivity).
  destruct (trim_at_int B j (J ++ s :: R)) as (bx & by_ & Eb' & ->). rewrite Eb in Eb'. injection Eb' as <- <-. cbn [bindr].
  set (dx' := (r_dx st + (inject_Z (sx s) - r_x st))%Q). set (dy' := (r_dy st + (inject_Z (sy s) - r_y st))%Q).
  assert (Dx : (dx' == 0)%Q).
  { unfold dx'. rewrite H3, E4, Qplus_comm, Q0, Ex, Z.sub_diag. reflexivity. }
  assert (Dy : (dy' == 0)%Q).
  { unfold dy'. rewrite H4, E5, Qplus_comm, Q0, Ey, Z.sub_diag. reflexivity. }
  assert (Z1 : Qeq_bool dx' 0 = true) by (apply Qeq_bool_iff; exact Dx).
  assert (Z2 : Qeq_bool dy' 0 = true) by (apply Qeq_bool_iff; exact Dy).
  rewrite Z1, Z2. cbn [andb].
  assert (Del : py_del (zlen B + 1) (r_i st + 1 + 1 + 1) (map inj (B ++ mkS x0 y0 TRIM :: j :: J ++ s :: R))
    = map inj ((B ++ [mkS x0 y0 TRIM]) ++ R)).
  { replace (map inj (B ++ mkS x0 y0 TRIM :: j :: J ++ s :: R))
      with (map inj (B ++ [mkS x0 y0 TRIM]) ++ map inj ((j :: J) ++ [s]) ++ map inj R)
      by (rewrite <- !map_app; f_equal; rewrite <- !app_assoc; reflexivity).
    rewrite py_del_app; [rewrite <- map_app; reflexivity| |].
    - unfold zlen. rewrite map_length, app_length. cbn [length]. lia.
    - rewrite E2. unfold zlen. rewrite !map_length, !app_length. cbn [length]. lia. }
  rewrite Del. eexists. split; [reflexivity|].
  unfold at_work. cbn [r_ss r_i r_ie r_x r_y r_trimmed r_jumping r_dx r_dy r_count r_start].
  rewrite needle_snoc. cbn [sx sy]. rewrite Ex, Ey.
  assert (L1 : zlen (B ++ [mkS x0 y0 TRIM]) = zlen B + 1) by (rewrite zlen_app; reflexivity). rewrite L1.
  split; [reflexivity|]. split; [lia|]. split; [unfold zlen; rewrite map_length, !app_length; cbn [length]; lia|].
  split; [reflexivity|]. split; [reflexivity|]. split; [reflexivity|]. split; [reflexivity|]. right.
  split; [reflexivity|]. split; [reflexivity|]. split; [exact Dx|]. split; [exact Dy|].
  exists (B ++ [mkS x0 y0 TRIM]), []. rewrite app_nil_r, L1, needle_snoc. auto.
Qed.

(** Several rounds. *)
Definition reaches (st : trim_state) (st' : trim_state) (k : nat) : Prop :=
  forall fuel, loop (k + fuel)%nat st = loop fuel st'.
Lemma reaches_step st D s R x y trimmed run st' st'' k :
  at_work st D (s :: R) x y trimmed run -> step st = Ok st' -> reaches st' st'' k -> reaches st st'' (S k).
Proof.
  intros W E H fuel. destruct (fetch _ _ _ _ _ _ _ _ W) as [_ F]. cbn [Nat.add trim_loop]. rewrite F, E. cbn [bindr]. apply H.
Qed.
Lemma reaches_refl st : reaches st st 0.
Proof. intros fuel. reflexivity. Qed.
Lemma reaches_trans a b c k m : reaches a b k -> reaches b c m -> reaches a c (k + m).
Proof. intros H1 H2 fuel. rewrite <- Nat.add_assoc, H1. apply H2. Qed.


Lemma front_run front : forall st D J R x y k, at_work st (D ++ J) (map (fun d => mkS (x + d) (y + d) JUMP) front ++ R)
    (sx (last J (mkS x y 0))) (sy (last J (mkS x y 0))) false (Some (k, x, y)) ->
  r_start st = zlen D -> Forall (fun d => d <> 0) front -> 0 <= k -> k + Z.of_nat (length front) < n ->
  exists st' J' x' y', reaches st st' (length front) /\ r_start st' = zlen D /\ (J <> [] -> J' <> []) /\
    at_work st' (D ++ J') R x' y' false (Some (k + Z.of_nat (length front), x, y)).
Proof.
  induction front as [|d front IH]; intros st D J R x y k W Es Hf Hk Hl.
  - exists st, J, (sx (last J (mkS x y 0))), (sy (last J (mkS x y 0))). split; [apply reaches_refl|]. split; [exact Es|].
    split; [tauto|]. cbn [length Z.of_nat]. rewrite Z.add_0_r. exact W.
  - apply Forall_cons_iff in Hf as [Hd Hf]. cbn [map app] in W. cbn [length] in Hl.
    assert (Jp : r_jumping st = true) by (destruct W as (_ & _ & _ & _ & _ & _ & _ & H & _); exact H).
    pose proof (step_jump _ _ _ _ _ _ _ _ W eq_refl) as Hs. cbn iota beta zeta in Hs. cbn [sx sy] in Hs.
    destruct Hs as (st' & E & W' & _ & S2); [right; lia|lia|lia|].
    rewrite <- app_assoc in W'.
    destruct (IH st' D (J ++ [mkS (x + d) (y + d) JUMP]) R x y (k + 1)) as (st'' & J' & x' & y' & H1 & H2 & H3 & H4).
    + rewrite last_last. exact W'.
    + rewrite (S2 Jp). exact Es.
    + exact Hf.
    + lia.
    + lia.
    + exists st'', J', x', y'. split; [eapply reaches_step; eassumption|]. split; [exact H2|].
      split; [intros _; apply H3; destruct J; discriminate|]. cbn [length].
      replace (k + Z.of_nat (S (length front))) with (k + 1 + Z.of_nat (length front)) by lia. exact H4.
Qed.

(** The excursion that stands for a trim. *)
Lemma excursion front st D R x y : at_work st D (map (fun d => mkS (x + d) (y + d) JUMP) (front ++ [0]) ++ R) x y false None ->
  Forall (fun d => d <> 0) front -> Z.of_nat (length front) = n - 1 ->
  exists st', reaches st st' (length front + 1) /\ at_work st' (D ++ [mkS x y TRIM]) R x y true None.
Proof.
  intros W Hf Hl.
  assert (Jp : r_jumping st = false).
  { destruct W as (_ & _ & _ & _ & _ & _ & _ & [H|(_ & H & _)]); [exact H|discriminate H]. }
  destruct front as [|d front]; [cbn in Hl; lia|]. cbn [map app] in W. cbn [length] in Hl.
  apply Forall_cons_iff in Hf as [Hd Hf].
  assert (B0 : needle_after 0 0 D = (x, y)) by (destruct W as (_ & _ & _ & _ & _ & H & _); exact H).
  pose proof (step_jump _ _ _ _ _ _ _ _ W eq_refl) as Hs. cbn iota beta zeta in Hs. cbn [sx sy] in Hs.
  destruct Hs as (st1 & E1 & W1 & S1 & _); [right; lia|lia|lia|].
  rewrite map_app, <- app_assoc in W1. cbn [map app] in W1.
  destruct (front_run front st1 D [mkS (x + d) (y + d) JUMP] (mkS (x + 0) (y + 0) JUMP :: R) x y (0 + 1))
    as (st2 & J & x' & y' & R2 & S2 & N2 & W2).
  { exact W1. } { apply S1; exact Jp. } { exact Hf. } { lia. } { lia. }
  replace (0 + 1 + Z.of_nat (length front)) with (n - 1) in W2 by lia. rewrite !Z.add_0_r in W2.
  destruct (step_trim st2 D J (mkS x y JUMP) R x' y' x y W2 S2 B0 eq_refl eq_refl eq_refl) as (st3 & E3 & W3).
  { apply N2. discriminate. }
  exists st3. split; [|exact W3]. cbn [length]. eapply (reaches_step _ _ _ _ _ _ _ _ _ _ (length front + 1)%nat W E1).
  eapply reaches_trans; [exact R2|]. eapply reaches_step; [exact W2|exact E3|apply reaches_refl].
Qed.

(** What is left of the loop once the list is exhausted. *)
Lemma tidy_loop front : Forall (fun d => d <> 0) front -> Z.of_nat (length front) = n - 1 ->
  forall l st D T x y trimmed run,
  at_work st D (dst_view (front ++ [0]) l ++ T) x y trimmed run -> tidy n trimmed run x y l ->
  (forall k x0 y0, run = Some (k, x0, y0) -> 0 <= k) ->
  exists st' k trimmed' run', reaches st st' k /\ le k (length (dst_view (front ++ [0]) l)) /\
    at_work st' (D ++ relabel dst_name l) T (fst (needle_after x y l)) (snd (needle_after x y l)) trimmed' run'.
Proof.
  intros Hf Hl. induction l as [|s l IH]; intros st D T x y trimmed run W Ht Hk.
  - exists st, O, trimmed, run. split; [apply reaches_refl|]. split; [apply Nat.le_refl|].
    cbn [relabel map needle_after fst snd]. rewrite app_nil_r. exact W.
  - cbn [tidy] in Ht. cbn [dst_view] in W |- *. cbn [needle_after relabel map]. fold (relabel dst_name l).
    assert (Go : forall c trimmed' run' (st1 : trim_state),
      reaches st st1 1 -> at_work st1 (D ++ [mkS (sx s) (sy s) c]) (dst_view (front ++ [0]) l ++ T) (sx s) (sy s) trimmed' run' ->
      tidy n trimmed' run' (sx s) (sy s) l -> (forall k x0 y0, run' = Some (k, x0, y0) -> 0 <= k) -> c = dst_name (scmd s) ->
      exists st' k trimmed' run', reaches st st' k /\ le k (length ([mkS (sx s) (sy s) (dst_name (scmd s))] ++ dst_view (front ++ [0]) l)) /\
      at_work st' (D ++ mkS (sx s) (sy s) (dst_name (scmd s)) :: relabel dst_name l) T
       (fst (needle_after (sx s) (sy s) l)) (snd (needle_after (sx s) (sy s) l)) trimmed' run').
    { intros c t' r' st1 R1 W1 T1 K1 ->. destruct (IH _ _ _ _ _ _ _ W1 T1 K1) as (st' & k & t2 & r2 & R2 & L2 & W2).
      exists st', (1 + k)%nat, t2, r2. split; [eapply reaches_trans; eassumption|]. split; [cbn [app length]; lia|].
      rewrite <- app_assoc in W2. exact W2. }
    assert (Nm : cmd_of (dst_name (scmd s)) = dst_name (scmd s)).
    { unfold dst_name. destruct (cmd_of (scmd s) =? STOP); [reflexivity|]. unfold cmd_of. rewrite <- Z.land_assoc. reflexivity. }
    set (c := cmd_of (scmd s)) in *.
    destruct (Z.eqb_spec c TRIM) as [Et|Et].
    + rewrite Et in Ht. cbn in Ht. destruct Ht as (-> & -> & Ex & Ey & Ht). rewrite Ex, Ey in *. rewrite <- app_assoc in W.
      destruct (excursion front st D _ x y W Hf Hl) as (st1 & R1 & W1).
      destruct (IH _ _ _ _ _ _ _ W1 Ht) as (st' & k & t2 & r2 & R2 & L2 & W2); [discriminate|].
      exists st', (length front + 1 + k)%nat, t2, r2. split; [eapply reaches_trans; eassumption|].
      split; [rewrite app_length, map_length, app_length; cbn [length]; lia|].
      rewrite <- app_assoc in W2. unfold dst_name. fold c. rewrite Et. exact W2.
    + cbn [app] in W.
      destruct (Z.eqb_spec c JUMP) as [EJ|NJ].
      * rewrite EJ in Ht. cbn -[tidy] in Ht.
        assert (Dn : dst_name (scmd s) = JUMP) by (unfold dst_name; fold c; rewrite EJ; reflexivity).
        pose proof (step_jump _ _ _ _ _ _ _ _ W) as Hs. cbn [scmd sx sy] in Hs. rewrite Dn in Hs. specialize (Hs eq_refl).
        destruct (match run with Some v => v | None => (0, x, y) end) as [[k x0] y0] eqn:Er.
        destruct Ht as (H1 & H2 & H3).
        assert (K0 : 0 <= k) by (destruct run as [[[k' a] b]|]; injection Er as <- <- <-; [eapply Hk; reflexivity|lia]).
        destruct (Hs H1 H2 K0) as (st1 & E1 & W1 & _).
        eapply (Go JUMP); [|exact W1|exact H3| |symmetry; exact Dn].
        -- eapply reaches_step; [exact W|exact E1|apply reaches_refl].
        -- intros k' a b [= <- <- <-]. lia.
      * assert (Dj : cmd_of (dst_name (scmd s)) <> JUMP).
        { rewrite Nm. unfold dst_name. fold c. destruct (Z.eqb_spec c STOP); [discriminate|exact NJ]. }
        destruct (step_plain _ _ _ _ _ _ _ _ W) as (st1 & E1 & W1); [cbn [scmd]; exact Dj|].
        cbn [scmd sx sy] in W1. rewrite Nm in W1. unfold dst_name in W1. fold c in W1.
        assert (R1 : reaches st st1 1) by (eapply reaches_step; [exact W|exact E1|apply reaches_refl]).
        assert (Ds : c <> STOP -> dst_name (scmd s) = c).
        { unfold dst_name. fold c. destruct (Z.eqb_spec c STOP); [congruence|reflexivity]. }
        destruct ((c =? STITCH) || (c =? SEQUIN_EJECT)) eqn:B1.
        { assert (Ns : (c =? STOP) = false).
          { apply orb_true_iff in B1. destruct B1 as [B1|B1]; apply Z.eqb_eq in B1; rewrite B1; reflexivity. }
          rewrite Ns, B1 in W1. eapply Go; [exact R1|exact W1|exact Ht|discriminate|].
          unfold dst_name. fold c. rewrite Ns. reflexivity. }
        destruct ((c =? COLOR_CHANGE) || (c =? STOP)) eqn:B2.
        { eapply (Go (dst_name (scmd s))); [exact R1| |exact Ht|discriminate|reflexivity].
          unfold dst_name. fold c. apply orb_true_iff in B2. destruct B2 as [B2|B2]; apply Z.eqb_eq in B2; rewrite B2 in W1 |- *; exact W1. }
        replace (c =? TRIM) with false in Ht by (symmetry; apply Z.eqb_neq; exact Et).
        replace (c =? JUMP) with false in Ht by (symmetry; apply Z.eqb_neq; exact NJ).
        destruct Ht as (Ec & Ex & Ey & Ht). rewrite Ec in W1. cbn -[at_work dst_view] in W1.
        eapply (Go SEQUIN_MODE); [exact R1|apply W1; assumption|exact Ht|exact Hk|]. unfold dst_name. fold c. rewrite Ec. reflexivity.
Qed.
End Steps.

Lemma trim_front t : 2 <= t -> exists front, trim_offsets t = front ++ [0] /\ Forall (fun d => d <> 0) front /\
  Z.of_nat (length front) = t - 1.
Proof.
  intros Ht. unfold trim_offsets, trim_events. cbn [offsets sx].
  assert (G : forall n d, d = 4 \/ d = -4 -> exists front, offsets (- (d / 2)) (trim_evs n d) = front ++ [0] /\
    Forall (fun d => d <> 0) front /\ length front = n).
  { induction n; intros d Hd; cbn [trim_evs offsets sx].
    - exists []. split; [destruct Hd; subst; reflexivity|]. split; [constructor|reflexivity].
    - replace (- (d / 2) + d) with (- (- d / 2)) by (destruct Hd; subst; reflexivity).
      destruct (IHn (- d)) as (f & E & F & L); [lia|]. exists ((- (- d / 2)) :: f). rewrite E. split; [reflexivity|].
      split; [constructor; [lia|exact F]|cbn [length]; lia]. }
  destruct (G (Z.to_nat (t - 2)) (-4)) as (f & E & F & L); [lia|].
  exists ((0 + 2) :: f). split; [cbn [app]; f_equal; exact E|]. split; [constructor; [lia|exact F]|]. cbn [length]. lia.
Qed.


Lemma needle_view n ex : ex <> [] -> last ex 0 = 0 -> forall l trimmed run x y, tidy n trimmed run x y l ->
  needle_after x y (dst_view ex l) = needle_after x y l.
Proof.
  intros H1 H2. induction l as [|s l IH]; intros trimmed run x y Ht; [reflexivity|].
  cbn [tidy] in Ht. cbn [dst_view needle_after].
  assert (P : exists t' r', tidy n t' r' (sx s) (sy s) l /\ (cmd_of (scmd s) = TRIM -> sx s = x /\ sy s = y)).
  { destruct (_ || _) eqn:B1 in Ht.
    { exists false, None. split; [exact Ht|]. intros E. rewrite E in B1. discriminate. }
    destruct (_ || _) eqn:B2 in Ht.
    { exists true, None. split; [exact Ht|]. intros E. rewrite E in B2. discriminate. }
    destruct (Z.eqb_spec (cmd_of (scmd s)) TRIM) as [E|E].
    { destruct Ht as (_ & _ & Ex & Ey & Ht). exists true, None. auto. }
    destruct (cmd_of (scmd s) =? JUMP).
    { destruct (match run with Some v => v | None => (0, x, y) end) as [[k x0] y0]. destruct Ht as (_ & _ & Ht).
      do 2 eexists. split; [exact Ht|]. congruence. }
    destruct Ht as (Ec & _ & _ & Ht). do 2 eexists. split; [exact Ht|]. congruence. }
  destruct P as (t' & r' & Ht' & Hp). rewrite needle_after_app.
  destruct (Z.eqb_spec (cmd_of (scmd s)) TRIM) as [E|E].
  - destruct (Hp E) as [-> ->]. rewrite needle_after_map by exact H1. rewrite H2, !Z.add_0_r.
    destruct (Hp E) as [<- <-]. eapply IH. exact Ht'.
  - cbn [needle_after sx sy]. eapply IH. exact Ht'.
Qed.

(** The reader's trim interpolation turns the excursions back into trims. *)
Theorem dst_trims_back t l : 2 <= t -> tidy t true None 0 0 l ->
  forall fuel, (length (dst_view (trim_offsets t) l) + 2 <= fuel)%nat ->
  interpolate_trims (Some t) None true fuel (map inj (closed (dst_view (trim_offsets t) l)))
  = Ok (map inj (closed (relabel dst_name l))).
Proof.
  intros Ht Hl fuel Hf. destruct (trim_front t Ht) as (front & Eo & F1 & F2).
  destruct (trim_offsets_facts t) as (_ & F3 & F4).
  unfold closed. rewrite (needle_view t _ F4 F3 _ _ _ _ _ Hl).
  assert (Er : needle_after 0 0 (relabel dst_name l) = needle_after 0 0 l).
  { clear. generalize 0 at 1 3. generalize 0. induction l as [|s l IH]; intros u v; [reflexivity|]. cbn [relabel map needle_after sx sy]. apply IH. }
  rewrite Er. destruct (needle_after 0 0 l) as [ex ey] eqn:En. rewrite Eo in Hf |- *.
  unfold interpolate_trims.
  set (L := dst_view (front ++ [0]) l) in *.
  set (st0 := mkTr (map inj (L ++ [mkS ex ey END])) (-1) (zlen (map inj (L ++ [mkS ex ey END])) - 1) 0%Q 0%Q 0 0 0%Q 0%Q false true).
  assert (W0 : at_work st0 [] (L ++ [mkS ex ey END]) 0 0 true None).
  { unfold at_work, st0. cbn [r_ss r_i r_ie r_x r_y r_trimmed r_jumping app]. split; [reflexivity|]. split; [reflexivity|].
    split; [unfold zlen; rewrite map_length; cbn [length]; lia|]. repeat split. left. reflexivity. }
  destruct (tidy_loop t Ht front F1 F2 l st0 [] [mkS ex ey END] 0 0 true None W0 Hl) as (st1 & k & t1 & r1 & R1 & K1 & W1); [discriminate|].
  rewrite En in W1. cbn [fst snd] in W1.
  destruct (step_plain t _ _ _ _ _ _ _ _ W1) as (st2 & E2 & W2); [discriminate|].
  cbn [scmd sx sy] in W2. change (cmd_of END) with END in W2. cbn -[at_work] in W2. specialize (W2 eq_refl eq_refl).
  replace fuel with (k + S (fuel - k - 1))%nat by (fold L in K1; lia).
  rewrite R1. cbn [trim_loop]. destruct (fetch _ _ _ _ _ _ _ _ W1) as [_ ->]. rewrite E2. cbn [bindr].
  destruct W2 as (S1 & S2 & S3 & _).
  assert (Lp : trim_loop (Some t) None true (fuel - k - 1) st2 = Ok st2).
  { destruct (fuel - k - 1)%nat; cbn [trim_loop]; destruct (Z.ltb_spec (r_i st2) (r_ie st2)); try reflexivity;
    exfalso; unfold zlen in *; cbn [length] in *; lia. }
  rewrite Lp. cbn [bindr]. rewrite S1, app_nil_r. reflexivity.
Qed.
