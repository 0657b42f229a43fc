(** Loading and saving JEF stitches: the trim interpolation as one pass, and what it leaves. *)
From Coq Require Import ZArith QArith Qabs List Bool Lia.
From Verif Require Import PyBase EmbConst StreamModel StreamSpec StreamProofs QuantModel NumQ PatternModel PatternSpec TrimProofs
  DstModel DstSpec DstProofs DstFileProofs DstFileModel BitLemmas DstTrimProofs ResaveSpec JefAgainSpec.
Import ListNotations.
Open Scope Z_scope.

Section Pass.
Variable dist : option Q.
Notation step := (trim_step None dist true).
Notation loop := (trim_loop None dist true).

(** A run of jumps: where it began, whether a trim was put before it, the jumps kept. *)
Definition run := option (Z * Z * bool * list (stitch Z)).
Definition mark_of (m : bool) (x0 y0 : Z) : list (stitch Z) := if m then [mkS x0 y0 TRIM] else [].
Definition held (r : run) : list (stitch Z) :=
  match r with Some (x0, y0, m, J) => mark_of m x0 y0 ++ J | None => [] end.
Fixpoint passed (tr : bool) (r : run) (px py : Z) (l : list (stitch Z)) : list (stitch Z) :=
  match l with
  | [] => held r
  | s :: l =>
      if cmd_of (scmd s) =? JUMP then
        let '(x0, y0, m, J) := match r with Some v => v | None => (px, py, false, []) end in
        passed tr (Some (x0, y0, m || negb tr && far dist (sx s - x0) (sy s - y0),
                         if (sx s =? x0) && (sy s =? y0) then [] else J ++ [s])) (sx s) (sy s) l
      else held r ++ s :: passed (cut_by tr (scmd s)) None (sx s) (sy s) l
  end.

Definition began (r : run) (px py : Z) : Z * Z := match r with Some (x0, y0, _, _) => (x0, y0) | None => (px, py) end.
Record during (st : trim_state) (B : list (stitch Z)) (tr : bool) (r : run) (px py : Z) (R : list (stitch Z)) : Prop := mkDuring {
  d_ss : r_ss st = map of_int (B ++ held r ++ R);
  d_i : r_i st = zlen B + zlen (held r) - 1;
  d_ie : r_ie st = zlen B + zlen (held r) + zlen R - 1;
  d_x : r_x st = inject_Z px;
  d_y : r_y st = inject_Z py;
  d_began : needle_after 0 0 B = began r px py;
  d_run : match r with
          | None => r_jumping st = false /\ r_trimmed st = tr
          | Some (x0, y0, m, J) => r_jumping st = true /\ r_trimmed st = tr || m /\ r_start st = zlen B + zlen (mark_of m x0 y0) /\
              (r_dx st == inject_Z (px - x0))%Q /\ (r_dy st == inject_Z (py - y0))%Q
          end }.

Lemma gt_proper : forall a b d, (a == b)%Q -> q_gt a d = q_gt b d.
Proof. intros a b d H. unfold q_gt. rewrite H. reflexivity. Qed.
Lemma far_spec : forall dx dy (qx qy : Q), (qx == inject_Z dx)%Q -> (qy == inject_Z dy)%Q ->
  match dist with Some d => q_gt (Qabs qy) d || q_gt (Qabs qx) d | None => false end = far dist dx dy.
Proof.
  intros dx dy qx qy Hx Hy. unfold far. destruct dist as [d|]; [|reflexivity].
  rewrite (gt_proper (Qabs qy) (inject_Z (Z.abs dy))), (gt_proper (Qabs qx) (inject_Z (Z.abs dx))); [reflexivity| |].
  - rewrite Hx. reflexivity.
  - rewrite Hy. reflexivity.
Qed.

Lemma d_fetch st B tr r px py s R : during st B tr r px py (s :: R) ->
  py_index (r_i st + 1) (r_ss st) = Ok (of_int s) /\ (r_i st <? r_ie st) = true.
Proof.
  intros W. rewrite (d_ss _ _ _ _ _ _ _ W), (d_i _ _ _ _ _ _ _ W), (d_ie _ _ _ _ _ _ _ W).
  pose proof (zlen_nonneg B). pose proof (zlen_nonneg (held r)). pose proof (zlen_nonneg R).
  rewrite zlen_cons. split; [|apply Z.ltb_lt; lia]. rewrite app_assoc, map_app. cbn [map].
  apply py_index_app. unfold zlen. rewrite map_length, app_length. lia.
Qed.

Lemma step_other st B tr r px py s R : during st B tr r px py (s :: R) -> In (scmd s) [STITCH; COLOR_CHANGE] ->
  exists st', step st = Ok st' /\ during st' (B ++ held r ++ [s]) (cut_by tr (scmd s)) None (sx s) (sy s) R.
Proof.
  intros W Hs. destruct (d_fetch _ _ _ _ _ _ _ _ W) as [F _].
  assert (X : step st = Ok (mkTr (r_ss st) (r_i st + 1) (r_ie st) (inject_Z (sx s)) (inject_Z (sy s)) (r_count st) (r_start st) (r_dx st) (r_dy st) false (cut_by tr (scmd s)))).
  { unfold trim_step. rewrite F. cbn [bindr of_int scmd sx sy]. cbn [In] in Hs. destruct Hs as [Hs|[Hs|[]]]; rewrite <- Hs; reflexivity. }
  eexists. split; [exact X|]. destruct W as [E1 E2 E3 E4 E5 E6 E7].
  constructor; cbn [r_ss r_i r_ie r_x r_y r_jumping r_trimmed held]; try reflexivity.
  - rewrite E1, <- !app_assoc. reflexivity.
  - rewrite !zlen_app. unfold zlen in *. cbn [length]. lia.
  - rewrite E3, !zlen_app, zlen_cons. unfold zlen in *. cbn [length]. lia.
  - rewrite app_assoc. apply needle_snoc.
  - auto.
Qed.

Lemma step_jump st B tr r px py s R x0 y0 m J : during st B tr r px py (s :: R) -> scmd s = JUMP ->
  match r with Some v => v | None => (px, py, false, []) end = (x0, y0, m, J) ->
  exists st', step st = Ok st' /\
    during st' B tr (Some (x0, y0, m || negb tr && far dist (sx s - x0) (sy s - y0), if (sx s =? x0) && (sy s =? y0) then [] else J ++ [s])) (sx s) (sy s) R.
Proof.
  intros W Hs Hr. destruct (d_fetch _ _ _ _ _ _ _ _ W) as [F _].
  assert (Hb : needle_after 0 0 B = (x0, y0)).
  { rewrite (d_began _ _ _ _ _ _ _ W). destruct r as [[[[a b] c] d]|]; inversion Hr; reflexivity. }
  assert (Hh : held r = mark_of m x0 y0 ++ J).
  { destruct r as [[[[a b] c] d]|]; inversion Hr; reflexivity. }
  unfold trim_step. rewrite F. cbn [bindr of_int scmd sx sy]. rewrite Hs.
  change ((cmd_of JUMP =? STITCH) || (cmd_of JUMP =? SEQUIN_EJECT)) with false.
  change ((cmd_of JUMP =? COLOR_CHANGE) || (cmd_of JUMP =? NEEDLE_SET) || (cmd_of JUMP =? TRIM)) with false.
  change (cmd_of JUMP =? JUMP) with true. cbv iota.
  destruct W as [E1 E2 E3 E4 E5 _ E7].
  assert (C : exists dx dy c, (if r_jumping st then (r_dx st, r_dy st, r_count st, r_start st) else (0%Q, 0%Q, 0, r_i st + 1)) =
     (dx, dy, c, zlen B + zlen (mark_of m x0 y0)) /\ (dx == inject_Z (px - x0))%Q /\ (dy == inject_Z (py - y0))%Q /\ r_trimmed st = tr || m).
  { destruct r as [[[[a b] c] d]|].
    - inversion Hr; subst a b c d. destruct E7 as (-> & H2 & H3 & H4 & H5). rewrite H3. eexists _, _, _. split; [reflexivity|]. auto.
    - inversion Hr; subst x0 y0 m J. destruct E7 as [-> H2]. rewrite !Z.sub_diag, E2. unfold zlen. cbn [mark_of held List.length].
      exists 0%Q, 0%Q, 0. split; [apply f_equal2; [reflexivity|lia]|]. split; [reflexivity|]. split; [reflexivity|]. rewrite H2, orb_false_r. reflexivity. }
  destruct C as (dx & dy & c & -> & D1 & D2 & D3). cbv zeta. cbn [orb].
  assert (Q0 : forall d (a b c : Z), (d == inject_Z (b - c) -> d + (inject_Z a - inject_Z b) == inject_Z (a - c))%Q).
  { intros d a b c0 ->. unfold Zminus. rewrite !inject_Z_plus, !inject_Z_opp. ring. }
  rewrite E4, E5. pose proof (Q0 _ (sx s) px x0 D1) as Dx. pose proof (Q0 _ (sy s) py y0 D2) as Dy. clear Q0 D1 D2.
  rewrite (far_spec _ _ _ _ Dx Dy), D3. rewrite Hh in *. clear Hh Hr E7 E4 E5.
  set (f := far dist (sx s - x0) (sy s - y0)) in *.
  assert (M : (if negb (tr || m) && f
      then do ss <- trim_at (zlen B + zlen (mark_of m x0 y0)) (r_ss st); Ok (ss, zlen B + zlen (mark_of m x0 y0) + 1, r_i st + 1 + 1, r_ie st + 1, true)
      else Ok (r_ss st, zlen B + zlen (mark_of m x0 y0), r_i st + 1, r_ie st, tr || m))
    = Ok (map of_int ((B ++ mark_of (m || negb tr && f) x0 y0) ++ J ++ s :: R), zlen B + zlen (mark_of (m || negb tr && f) x0 y0),
          zlen B + zlen (mark_of (m || negb tr && f) x0 y0) + zlen J, zlen B + zlen (mark_of (m || negb tr && f) x0 y0) + zlen J + zlen R, tr || (m || negb tr && f))).
  { destruct (negb (tr || m) && f) eqn:Et.
    - apply andb_true_iff in Et. destruct Et as [Et1 Et2]. apply negb_true_iff, orb_false_iff in Et1. destruct Et1 as [-> ->]. rewrite Et2 in *.
      cbn [orb negb andb mark_of] in *. cbn [app] in E1. destruct (J ++ s :: R) as [|a T] eqn:EJ; [destruct J; discriminate EJ|].
      rewrite E1. destruct (trim_at_int B a T) as (xx & yy & Exy & Et). rewrite Hb in Exy. injection Exy as <- <-.
      unfold zlen at 2. cbn [List.length]. rewrite Z.add_0_r, Et. cbn [bindr]. rewrite <- app_assoc. cbn [app]. rewrite zlen_cons in E3.
      unfold zlen in *. cbn [List.length app] in *. apply f_equal; repeat match goal with |- (_, _) = (_, _) => apply f_equal2 end; try reflexivity; lia.
    - assert (Em : m || negb tr && f = m \/ tr = true).
      { destruct tr; [auto|]. left. destruct m; [reflexivity|]. cbn [orb negb andb] in *. exact Et. }
      assert (Em' : m || negb tr && f = m) by (destruct Em as [Em|Em]; [exact Em|rewrite Em; cbn [negb andb]; apply orb_false_r]).
      rewrite Em', E1, <- !app_assoc. rewrite zlen_cons, !zlen_app in *. apply f_equal; repeat match goal with |- (_, _) = (_, _) => apply f_equal2 end; try reflexivity; lia. }
  rewrite M. clear M. cbn [bindr andb]. set (mk := mark_of (m || negb tr && f) x0 y0).
  assert (Ec : Qeq_bool (dx + (inject_Z (sx s) - inject_Z px)) 0 && Qeq_bool (dy + (inject_Z (sy s) - inject_Z py)) 0 = (sx s =? x0) && (sy s =? y0)).
  { assert (G : forall q z, (q == inject_Z z)%Q -> Qeq_bool q 0 = (z =? 0)).
    { intros q z H. destruct (Z.eqb_spec z 0) as [e|e]; [apply Qeq_bool_iff; rewrite H, e; reflexivity|].
      apply not_true_iff_false. intros K. apply Qeq_bool_iff in K. rewrite H in K. change 0%Q with (inject_Z 0) in K.
      apply (proj1 (inject_Z_injective _ _)) in K. contradiction. }
    rewrite (G _ _ Dx), (G _ _ Dy). f_equal; apply eq_true_iff_eq; rewrite !Z.eqb_eq; lia. }
  rewrite Ec. destruct ((sx s =? x0) && (sy s =? y0)) eqn:Eb.
  - assert (Hd : py_del (zlen B + zlen mk) (zlen B + zlen mk + zlen J + 1) (map of_int ((B ++ mk) ++ J ++ s :: R)) = map of_int ((B ++ mk) ++ R)).
    { replace (J ++ s :: R) with ((J ++ [s]) ++ R) by (rewrite <- app_assoc; reflexivity). rewrite (map_app _ (B ++ mk)), (map_app _ (J ++ [s])), (map_app _ (B ++ mk)).
      apply py_del_app; unfold zlen; rewrite ?map_length, ?app_length, ?map_length, ?app_length; cbn [List.length map]; lia. }
    rewrite Hd. eexists. split; [reflexivity|].
    constructor; cbn [r_ss r_i r_ie r_x r_y r_jumping r_trimmed r_start r_dx r_dy held began]; try reflexivity.
    + fold mk. rewrite app_nil_r, app_assoc. reflexivity.
    + fold mk. rewrite app_nil_r. lia.
    + fold mk. rewrite app_nil_r. unfold zlen. rewrite map_length, !app_length. lia.
    + exact Hb.
    + auto.
  - eexists. split; [reflexivity|].
    constructor; cbn [r_ss r_i r_ie r_x r_y r_jumping r_trimmed r_start r_dx r_dy held began]; try reflexivity.
    + fold mk. rewrite <- !app_assoc. reflexivity.
    + fold mk. rewrite !zlen_app. change (zlen [s]) with 1. lia.
    + fold mk. rewrite !zlen_app. change (zlen [s]) with 1. lia.
    + exact Hb.
    + auto.
Qed.

Lemma loop_passed e : scmd e = END -> forall R fuel st st' B tr r px py, during st B tr r px py (R ++ [e]) ->
  Forall (fun a => In (scmd a) [STITCH; JUMP; COLOR_CHANGE]) R -> loop fuel st = Ok st' ->
  r_ss st' = map of_int (B ++ passed tr r px py (R ++ [e])).
Proof.
  intros He. induction R as [|s R IH]; intros fuel st st' B tr r px py W HR E.
  - cbn [app] in *. destruct (d_fetch _ _ _ _ _ _ _ _ W) as [F F'].
    assert (Er : r_ss st' = r_ss st).
    { destruct fuel as [|fuel]; cbn [trim_loop] in E; rewrite F' in E; [discriminate|].
      unfold trim_step in E. rewrite F in E. cbn [bindr of_int scmd sx sy] in E. rewrite He in E.
      change ((cmd_of END =? STITCH) || (cmd_of END =? SEQUIN_EJECT)) with false in E.
      change ((cmd_of END =? COLOR_CHANGE) || (cmd_of END =? NEEDLE_SET) || (cmd_of END =? TRIM)) with false in E. change (cmd_of END =? JUMP) with false in E.
      cbv iota in E. cbn [bindr] in E. destruct fuel; cbn [trim_loop r_i r_ie] in E;
        (destruct (Z.ltb_spec (r_i st + 1) (r_ie st)) as [L|L]; [rewrite (d_i _ _ _ _ _ _ _ W), (d_ie _ _ _ _ _ _ _ W) in L; unfold zlen in L; cbn [List.length] in L; lia|]);
        injection E as <-; reflexivity. }
    rewrite Er, (d_ss _ _ _ _ _ _ _ W). cbn [passed]. rewrite He. change (cmd_of END =? JUMP) with false. cbv iota.
    cbn [held]. reflexivity.
  - apply Forall_cons_iff in HR. destruct HR as [Hs HR]. cbn [app] in *.
    destruct (d_fetch _ _ _ _ _ _ _ _ W) as [_ F']. destruct fuel as [|fuel]; cbn [trim_loop] in E; rewrite F' in E; [discriminate|].
    destruct (Z.eq_dec (scmd s) JUMP) as [Hj|Hj].
    + destruct (match r with Some v => v | None => (px, py, false, []) end) as [[[x0 y0] m] J] eqn:Er.
      destruct (step_jump _ _ _ _ _ _ _ _ _ _ _ _ W Hj Er) as (st1 & E1 & W1). rewrite E1 in E. cbn [bindr] in E.
      rewrite (IH _ _ _ _ _ _ _ _ W1 HR E). cbn [passed]. rewrite Hj, Er. reflexivity.
    + assert (Hs' : In (scmd s) [STITCH; COLOR_CHANGE]) by (cbn [In] in *; intuition congruence).
      destruct (step_other _ _ _ _ _ _ _ _ W Hs') as (st1 & E1 & W1). rewrite E1 in E. cbn [bindr] in E.
      rewrite (IH _ _ _ _ _ _ _ _ W1 HR E). cbn [passed].
      replace (cmd_of (scmd s) =? JUMP) with false by (cbn [In] in Hs'; destruct Hs' as [<-|[<-|[]]]; reflexivity).
      rewrite <- !app_assoc. reflexivity.
Qed.
Theorem interpolated_passed : forall body e fuel l', scmd e = END -> Forall (fun a => In (scmd a) [STITCH; JUMP; COLOR_CHANGE]) body ->
  interpolate_trims None dist true fuel (map of_int (body ++ [e])) = Ok l' -> l' = map of_int (passed true None 0 0 (body ++ [e])).
Proof.
  intros body e fuel l' He Hb E. unfold interpolate_trims in E.
  destruct (trim_loop _ _ _ _ _) as [st'|] eqn:El; [|discriminate]. cbn [bindr] in E. injection E as <-.
  refine (loop_passed e He body fuel _ st' [] true None 0 0 _ Hb El).
  constructor; cbn [r_ss r_i r_ie r_x r_y r_jumping r_trimmed held app began]; try reflexivity.
  - unfold zlen. rewrite map_length. cbn [List.length]. lia.
  - auto.
Qed.
End Pass.
