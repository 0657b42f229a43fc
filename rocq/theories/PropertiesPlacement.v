(** Designs with transformation commands, added patterns and appended translations: where the stitches are sewn. *)
From Coq Require Import ZArith Reals Lra List Bool Lia.
From Verif Require Import PyBase EmbConst FunctionsModel ThreadModel NumModel NumR MatrixModel EncoderModel
  HeapModel HeapSpec HeapProofs HeapOpsProofs JoinProofs PropertiesHeap
  BitLemmas EncoderProofs EncoderSpec EncoderFlowProofs EncoderSewProofs EncoderMatrixProofs PropertiesEncoder PropertiesReal
  PlacementModel PlacementSpec PlacementProofs PlacementJoinProofs.
Import ListNotations.
Open Scope Z_scope.

(** ** C189 *)
(** The needle is where the last stitch, jump or frame ejection took it. *)
Definition plain_needle (l : list (stitch R)) : Prop :=
  Forall (fun a => is_cmd STITCH_BREAK a = false /\ is_cmd SEQUIN_EJECT a = false) l.
Definition no_centres (l : list (stitch R)) : Prop :=
  Forall (fun a => is_cmd MATRIX_SCALE a = false /\ is_cmd MATRIX_ROTATE a = false) l.

Lemma vague_cmd : forall a : stitch R, is_cmd STITCH_BREAK a = false -> is_cmd SEQUIN_EJECT a = false ->
  vague_op (opof a) = false.
Proof.
  intros a H1 H2. pose proof (classify_says (cmd_of (scmd a))) as Y. fold (opof a) in Y.
  change (cmd_of (scmd a) =? STITCH_BREAK = false) in H1. change (cmd_of (scmd a) =? SEQUIN_EJECT = false) in H2.
  destruct (opof a); try reflexivity; cbn [op_says] in Y; rewrite Y in *; discriminate.
Qed.
Lemma centred_cmd : forall a : stitch R, is_cmd MATRIX_SCALE a = false -> is_cmd MATRIX_ROTATE a = false ->
  centred_op (opof a) = false.
Proof.
  intros a H1 H2. pose proof (classify_says (cmd_of (scmd a))) as Y. fold (opof a) in Y.
  change (cmd_of (scmd a) =? MATRIX_SCALE = false) in H1. change (cmd_of (scmd a) =? MATRIX_ROTATE = false) in H2.
  destruct (opof a); try reflexivity; cbn [op_says] in Y; rewrite Y in *; discriminate.
Qed.

Lemma quiet_cmd : forall a : stitch R, has_command stitching_commands a = false -> quiet_op (opof a) = true.
Proof.
  intros a H. unfold quiet_op. destruct (has_command matrix_commands a) eqn:M.
  - assert (Mo : matrix_op (opof a) = true).
    { unfold has_command, matrix_commands in M. apply existsb_exists in M. destruct M as (k & Hk & E).
      unfold is_cmd in E. apply Z.eqb_eq in E. unfold opof, cmd_of.
      change (Z.land (scmd a) COMMAND_MASK) with (Z.land (scmd a) 255). rewrite E.
      cbn [In] in Hk. repeat (destruct Hk as [<-|Hk]; [reflexivity|]). destruct Hk. }
    rewrite Mo. apply orb_true_r.
  - assert (P : plain_op (opof a) = true) by (apply classify_plain; [exact M|exact H]). rewrite P. reflexivity.
Qed.

Lemma asked_matrix : forall set p, asked set p = moved (init_matrix RN set) p.
Proof.
  intros set p. change (moved (init_matrix RN set) p) with (transform set p).
  rewrite C40_transform_settings_partial. unfold asked, tr, sc, ro.
  destruct (s_translate RNum set) as [[tx ty]|], (s_scale RNum set) as [[kx ky|k]|], (s_rotate RNum set); reflexivity.
Qed.

Lemma init_affine : forall set, affine (init_matrix RN set).
Proof.
  intros set. unfold init_matrix.
  assert (A : affine match s_translate RN set with
    | Some (tx, ty) => post_translate RN (get_identity RN) tx ty | None => get_identity RN end).
  { destruct (s_translate RN set) as [[tx ty]|]; [|apply identity_affine].
    apply C39_product_affine; [apply identity_affine|apply translate_affine]. }
  set (m := match s_translate RN set with Some (tx, ty) => _ | None => _ end) in *. cbv zeta.
  assert (B : affine match s_scale RN set with
           | Some (ScaleXY _ x y) => post_scale RN m x y (f0 RN) (f0 RN)
           | Some (ScaleOne _ k) => post_scale RN m k k (f0 RN) (f0 RN) | None => m end).
  { destruct (s_scale RN set) as [[]|]; [apply post_scale_affine|apply post_scale_affine|]; exact A. }
  destruct (s_rotate RN set) as [r|]; [apply post_rotate_affine|]; exact B.
Qed.

(** Every stitch is sewn where the transformation commands before it put it. *)
Theorem C189_matrix_commands : forall (set : settings RNum) p o ths, transcode RNum set p = Ok (o, ths) ->
  plain_needle (until_end (p_stitches RNum p)) \/ no_centres (until_end (p_stitches RNum p)) ->
  exists qs f n, sewn (rounds set) (asked set) (0%R, 0%R) (until_end (p_stitches RNum p)) qs f n /\
    subseq qs (needle_points o) /\
    (plain_settings set -> Forall (fun a => has_command stitching_commands a = false) (until_end (p_stitches RNum p)) ->
     needle_points o = qs).
Proof.
  intros set p o ths E Hn. rewrite transcode_unfold in E.
  destruct (build_thread_change_sequence _ _ _ _) as [seq|] eqn:Eb; [|discriminate]. cbn [bindr] in E.
  destruct (main_loop _ _ _ _ _ _ _) as [s|] eqn:Em; [|discriminate]. cbn [bindr] in E. injection E as <- <-.
  set (s0 := start RN set (p_threads RN p)) in *.
  assert (H0 : hi RN s0 /\ matrix RN s0 = init_matrix RN set /\ out RN s0 = [] /\ jumping RN s0 = false /\
     (nx RN s0, ny RN s0) = (0%R, 0%R) /\ (no_ties RN (init_state RN set) -> no_ties RN s0)).
  { unfold s0, start. destruct (_ =? _);
    (split; [reflexivity|]; split; [reflexivity|]; split; [reflexivity|]; split; [reflexivity|]; split; [reflexivity|auto]). }
  destruct H0 as (H0 & M0 & O0 & J0 & N0 & T0).
  assert (Fo : followed s0 (0%R, 0%R) (until_end (p_stitches RN p))).
  { destruct Hn as [Hn|Hn]; [left|right].
    - split; [exact J0|]. split; [symmetry; exact N0|]. eapply Forall_impl; [|exact Hn].
      intros a [A B]. apply vague_cmd; assumption.
    - eapply Forall_impl; [|exact Hn]. intros a [A B]. apply centred_cmd; assumption. }
  assert (A0 : affine (matrix RN s0)) by (rewrite M0; apply init_affine).
  assert (F0 : forall q, asked set q = moved (matrix RN s0) q) by (intros q'; rewrite M0; apply asked_matrix).
  destruct (loop_sewn _ _ _ _ _ _ _ (asked set) (0%R, 0%R) H0 A0 F0 Fo Em) as (qs & l & f & n & Sw & P & Sb & O).
  rewrite O0 in P. cbn [needle_points filter map app] in P.
  exists qs, f, n. split; [|split].
  - replace (rounds set) with (rounding (init_config RN set)); [exact Sw|].
    unfold rounds, init_config, get. cbn [rounding]. destruct (s_round RN set) as [[]|]; reflexivity.
  - change (needle_points (out RN s) = l) in P. rewrite P. exact Sb.
  - intros (T1 & T2 & T3) Q. change (needle_points (out RN s) = l) in P. rewrite P. apply O.
    + apply T0. unfold no_ties. cbn [init_state tie_on_contingency tie_off_contingency long_stitch_contingency]. unfold get.
      split; [destruct T1 as [-> | ->]; discriminate|]. split; [destruct T2 as [-> | ->]; discriminate|].
      destruct T3 as [->|[->| ->]]; discriminate.
    + eapply Forall_impl; [|exact Q]. intros a Ha. apply quiet_cmd. exact Ha.
Qed.
Print Assumptions C189_matrix_commands.

Definition bare : settings RNum :=
  mkSettings RNum None None None None None None None None None None None None None None None None.
Definition r_at (x y : R) (c : Z) : stitch R := mkS x y c.
(** Sewn at (3, 4); then the same place moved by (2, 0) and scaled twofold about the needle. *)
Definition c189_design : list (stitch R) :=
  [r_at 3 4 STITCH; r_at 2 0 MATRIX_TRANSLATE; r_at 2 2 MATRIX_SCALE; r_at 3 4 STITCH].

(** Carrying the loop out, for examples. *)
Lemma main_loop_cons : forall c seq src pos a r s, main_loop RN c seq src pos (a :: r) s =
  (do '(x, y) <- placed RN c s a;
   do s <- exec RN c seq src pos (a :: r) a x y (classify (cmd_of (scmd a))) (set_high RN s (Z.land (scmd a) FLAGS_MASK));
   if cmd_of (scmd a) =? END then Ok s else main_loop RN c seq src (pos + 1) r s).
Proof. reflexivity. Qed.
Lemma main_loop_scale : forall c seq src pos a r s, rounding c = false -> scmd a = MATRIX_SCALE ->
  det (matrix RN s) <> 0%R ->
  exists m, main_loop RN c seq src pos (a :: r) s =
            main_loop RN c seq src (pos + 1) r (set_matrix RN (set_high RN s (Z.land MATRIX_SCALE FLAGS_MASK)) m).
Proof.
  intros c seq src pos a r s Hc Ha D. rewrite main_loop_cons. unfold placed. rewrite Hc, Ha.
  destruct (point_in_matrix_space RN (matrix RN s) (sx a) (sy a)) as [x y]. cbn [bindr].
  change (classify (cmd_of MATRIX_SCALE)) with OpScale. cbn [exec]. unfold needle_in_source. attrs.
  destruct (C39_inverse (matrix RN s)) as [Hi _]. destruct (Hi D) as (i & Ei & I1 & _). rewrite Ei. cbn [bindr].
  assert (Di : det i <> 0%R).
  { intros D'. pose proof (det_product (matrix RN s) i) as Y. rewrite I1, D' in Y. revert Y. unfold det. mring. lra. }
  destruct (C39_inverse i) as [Hj _]. destruct (Hj Di) as (j & Ej & _). rewrite Ej. cbn [bindr].
  eexists. reflexivity.
Qed.

Ltac step_loop :=
  rewrite main_loop_cons;
  match goal with |- context [placed RN ?c ?s ?a] =>
    let e := eval cbv -[RNum IZR get_identity post_translate NumModel.F fadd fmul f0 f1] in (placed RN c s a) in change (placed RN c s a) with e end;
  cbn [bindr];
  match goal with |- context [exec ?n ?c ?seq ?src ?pos ?rest ?a ?x ?y ?o ?s] =>
    let e := eval cbv -[RNum IZR get_identity post_translate NumModel.F fadd fmul f0 f1] in (exec n c seq src pos rest a x y o s) in
    change (exec n c seq src pos rest a x y o s) with e end;
  cbn [bindr];
  match goal with |- context [if cmd_of ?u =? END then _ else _] => change (cmd_of u =? END) with false end; cbv iota.

Example C189_case : plain_needle (until_end c189_design) /\ plain_settings bare /\
  Forall (fun a => has_command stitching_commands a = false) (until_end c189_design) /\
  exists o ths, transcode RNum bare (mkP RNum c189_design []) = Ok (o, ths) /\
    needle_points o = [(3%R, 4%R); (7%R, 4%R)].
Proof.
  split; [|split; [|split]].
  - unfold plain_needle. cbn [until_end c189_design]. repeat constructor.
  - unfold plain_settings. cbn. auto.
  - cbn [until_end c189_design]. repeat constructor.
  - assert (X : exists o ths, transcode RNum bare (mkP RNum c189_design []) = Ok (o, ths)).
    { rewrite transcode_unfold.
      match goal with |- context [build_thread_change_sequence ?a ?b ?c ?d] =>
        let e := eval vm_compute in (build_thread_change_sequence a b c d) in
        change (build_thread_change_sequence a b c d) with e end.
      cbn [bindr p_stitches p_threads]. unfold c189_design at 2. unfold r_at.
      step_loop. step_loop.
      match goal with |- context [main_loop RN ?c ?seq ?src ?pos (?a :: ?r) ?s] =>
        set (ml := main_loop RN c seq src pos (a :: r) s);
        destruct (main_loop_scale c seq src pos a r s eq_refl eq_refl) as (m & Em);
        [attrs; unfold det; mring; lra|];
        match type of Em with _ = ?v => assert (Em' : ml = v) by exact Em; clearbody ml; rewrite Em'; clear ml Em Em' end
      end.
      step_loop. eexists. eexists. reflexivity. }
    destruct X as (o & ths & X). exists o, ths. split; [exact X|].
    destruct (C189_matrix_commands bare (mkP RNum c189_design []) o ths X) as (qs & f & n & Sw & _ & P).
    { left. unfold plain_needle. cbn [p_stitches until_end c189_design]. repeat constructor. }
    rewrite P; [clear P X| |cbn [p_stitches until_end c189_design]; repeat constructor].
    2: { unfold plain_settings. cbn. auto. }
    cbn [p_stitches] in Sw. change (until_end c189_design) with c189_design in Sw. unfold c189_design in Sw.
    change (rounds bare) with false in Sw.
    inversion Sw as [| ? ? ? ? q1 qs1 ? ? _ L1 S1 | | | | | | | | ]; subst; try discriminate.
    inversion S1 as [| | | ? ? ? ? ? ? ? _ S2 | | | | | | ]; subst; try discriminate.
    inversion S2 as [| | | | | | ? ? c ? ? ? ? ? _ C3 S3 | | | ]; subst; try discriminate.
    inversion S3 as [| ? ? ? ? q4 qs4 ? ? _ L4 S4 | | | | | | | | ]; subst; try discriminate.
    inversion S4; subst. unfold lands in L1, L4.
    assert (Hc : c = (1, 4)%R).
    { symmetry. apply C3. rewrite L1. unfold asked, shift, spot, r_at. cbn. apply f_equal2; ring. }
    rewrite L1, L4, Hc. unfold asked, around, shift, stretch, spot, r_at. cbn [s_rotate s_scale s_translate bare fst snd sx sy].
    repeat (apply f_equal2; [try reflexivity; apply f_equal2; ring|]). reflexivity.
Qed.

(** ** C190 *)
(** Nothing in the commands that ends, transforms or hides the needle. *)
Definition undisturbed (l : list (stitch R)) : Prop :=
  Forall (fun a => is_cmd END a = false /\ transforms a = false /\
                   is_cmd STITCH_BREAK a = false /\ is_cmd SEQUIN_EJECT a = false) l.

Lemma blanked_same : forall k (a b : stitch R), k <> 255 ->
  ~ In k [COLOR_CHANGE; COLOR_BREAK; NEEDLE_SET] ->
  scmd b = scmd a \/ PatternSpec.is_change a /\ scmd b = NO_COMMAND -> is_cmd k b = is_cmd k a.
Proof.
  intros k a b Hk Hc H. unfold is_cmd. destruct H as [->|[Ch ->]]; [reflexivity|].
  transitivity false.
  - apply Z.eqb_neq. intros X. apply Hk. rewrite <- X. reflexivity.
  - symmetry. apply Z.eqb_neq. intros X. apply Hc. rewrite <- X. exact Ch.
Qed.

Notation blanked := (fun a b : stitch R => sx a = sx b /\ sy a = sy b /\
  (scmd b = scmd a \/ PatternSpec.is_change a /\ scmd b = NO_COMMAND)).

Ltac other_command := first [discriminate | cbn [In]; intros K; repeat (destruct K as [K|K]; [discriminate K|]); exact K].

Lemma blanked_until : forall l l', Forall2 blanked l l' -> Forall2 blanked (until_end l) (until_end l').
Proof.
  intros l l' H. induction H as [|a b l l' Hab H IH]; [constructor|]. cbn [until_end].
  rewrite (blanked_same END a b) by (first [other_command|apply Hab]).
  destruct (is_cmd END a); constructor; assumption.
Qed.

Lemma blanked_sews : forall l l' (g : point -> point), Forall2 blanked l l' ->
  map (fun a => g (spot a)) (filter sews_src l') = map (fun a => g (spot a)) (filter sews_src l).
Proof.
  intros l l' g H. induction H as [|a b l l' Hab H IH]; [reflexivity|]. cbn [filter].
  assert (S : sews_src b = sews_src a).
  { unfold sews_src. destruct Hab as (_ & _ & Hc).
    rewrite (blanked_same STITCH a b), (blanked_same NEEDLE_AT a b), (blanked_same SEW_TO a b) by (first [exact Hc|other_command]).
    reflexivity. }
  rewrite S. destruct (sews_src a); [|exact IH]. cbn [map]. rewrite IH. f_equal.
  destruct Hab as (X & Y & _). unfold spot. rewrite X, Y. reflexivity.
Qed.

Lemma blanked_undisturbed : forall l l', Forall2 blanked l l' -> undisturbed l -> undisturbed l'.
Proof.
  intros l l' H. induction H as [|a b l l' Hab H IH]; intros U; [constructor|].
  apply Forall_cons_iff in U. destruct U as [(A & B & D & E) U]. constructor; [|apply IH; exact U].
  destruct Hab as (_ & _ & Hc). unfold transforms in *.
  rewrite (blanked_same END a b), (blanked_same STITCH_BREAK a b), (blanked_same SEQUIN_EJECT a b),
    (blanked_same MATRIX_TRANSLATE a b), (blanked_same MATRIX_SCALE_ORIGIN a b), (blanked_same MATRIX_ROTATE_ORIGIN a b),
    (blanked_same MATRIX_SCALE a b), (blanked_same MATRIX_ROTATE a b), (blanked_same MATRIX_RESET a b)
    by (first [exact Hc|other_command]). auto.
Qed.

Lemma blanked_quiet : forall l l', Forall2 blanked l l' ->
  Forall (fun a => has_command stitching_commands a = false) l ->
  Forall (fun a => has_command stitching_commands a = false) l'.
Proof.
  intros l l' H. induction H as [|a b l l' Hab H IH]; intros U; [constructor|].
  apply Forall_cons_iff in U. destruct U as [A U]. constructor; [|apply IH; exact U].
  destruct Hab as (_ & _ & Hc). rewrite <- A. unfold has_command, stitching_commands. cbn [existsb].
  repeat match goal with |- context [is_cmd ?k b] => rewrite (blanked_same k a b) by (first [exact Hc|other_command]) end.
  reflexivity.
Qed.

Lemma undisturbed_end : forall l, undisturbed l -> Forall (fun a => is_cmd END a = false) l.
Proof. intros l H. eapply Forall_impl; [|exact H]. intros a Ha. apply Ha. Qed.
Lemma undisturbed_transforms : forall l, undisturbed l -> Forall (fun a => transforms a = false) l.
Proof. intros l H. eapply Forall_impl; [|exact H]. intros a Ha. apply Ha. Qed.
Lemma undisturbed_needle : forall l, undisturbed l -> plain_needle l.
Proof. intros l H. eapply Forall_impl; [|exact H]. intros a Ha. split; apply Ha. Qed.

(** The commands of both patterns with the placement commands between them, sewn. *)
Lemma joined_sewn : forall (set : settings RNum) first pl cc second threads o ths dx dy kx ky rotate,
  rounds set = false -> undisturbed first -> undisturbed (until_end second) ->
  asked_for 0%R dx dy kx ky rotate pl -> (cc = [] \/ exists x y, cc = [mkS x y COLOR_CHANGE]) ->
  transcode RNum set (mkP RNum (first ++ pl ++ cc ++ second) threads) = Ok (o, ths) ->
  exists c, (kx <> None \/ rotate <> None -> asked set c = needle_after (asked set) first (0%R, 0%R)) /\
    let qs := map (fun a => asked set (spot a)) (filter sews_src first) ++
              map (fun a => asked set (chosen dx dy kx ky rotate c (spot a))) (filter sews_src (until_end second)) in
    subseq qs (needle_points o) /\
    (plain_settings set ->
     Forall (fun a => has_command stitching_commands a = false) (first ++ until_end second) -> needle_points o = qs).
Proof.
  intros set first pl cc second threads o ths dx dy kx ky rotate Hr U1 U2 (mv & sc & tu & -> & Hm & Hk & Ht) Hc E.
  assert (Em : Forall (fun a => is_cmd END a = false /\ is_cmd STITCH_BREAK a = false /\ is_cmd SEQUIN_EJECT a = false /\
                                has_command stitching_commands a = false) (mv ++ sc ++ tu ++ cc)).
  { apply Forall_app. split; [|apply Forall_app; split; [|apply Forall_app; split]].
    - destruct Hm as [(_ & _ & ->)|(_ & a & b & -> & _)]; repeat constructor.
    - destruct Hk as [(_ & ->)|(a & b & _ & -> & _)]; repeat constructor.
    - destruct Ht as [(_ & ->)|(a & _ & ->)]; repeat constructor.
    - destruct Hc as [->|(x & y & ->)]; repeat constructor. }
  assert (Eu : until_end (first ++ (mv ++ sc ++ tu) ++ cc ++ second)
               = first ++ (mv ++ sc ++ tu ++ cc ++ until_end second)).
  { rewrite until_end_app by (apply undisturbed_end; exact U1). f_equal.
    replace ((mv ++ sc ++ tu) ++ cc ++ second) with ((mv ++ sc ++ tu ++ cc) ++ second) by (rewrite <- !app_assoc; reflexivity).
    rewrite until_end_app; [rewrite <- !app_assoc; reflexivity|].
    eapply Forall_impl; [|exact Em]. intros a Ha. apply Ha. }
  destruct (C189_matrix_commands set _ o ths E) as (qs & f & n & Sw & Sb & Pq).
  { left. cbn [p_stitches]. change (F RN) with R. rewrite Eu. unfold plain_needle. apply Forall_app.
    split; [apply undisturbed_needle; exact U1|].
    replace (mv ++ sc ++ tu ++ cc ++ until_end second) with ((mv ++ sc ++ tu ++ cc) ++ until_end second)
      by (rewrite <- !app_assoc; reflexivity).
    apply Forall_app. split; [|apply undisturbed_needle; exact U2].
    eapply Forall_impl; [|exact Em]. intros a Ha. split; apply Ha. }
  cbn [p_stitches] in Sw, Pq. change (F RN) with R in Sw, Pq. rewrite Eu in Sw, Pq. rewrite Hr in Sw.
  apply sewn_app in Sw. destruct Sw as (qs1 & qs2 & f1 & n1 & -> & S1 & S2).
  destruct (sewn_plain _ _ _ _ _ _ S1 (undisturbed_transforms _ U1)) as (-> & -> & ->).
  destruct (sewn_placement _ _ _ _ _ _ _ _ _ _ dx dy kx ky rotate S2 Hm Hk Ht) as (c & g & Hcn & Hg & S3).
  assert (U3 : Forall (fun a => transforms a = false) (cc ++ until_end second)).
  { apply Forall_app. split; [|apply undisturbed_transforms; exact U2].
    destruct Hc as [->|(x & y & ->)]; repeat constructor. }
  destruct (sewn_plain _ _ _ _ _ _ S3 U3) as (_ & _ & E3).
  assert (E4 : qs2 = map (fun a => asked set (chosen dx dy kx ky rotate c (spot a))) (filter sews_src (until_end second))).
  { rewrite E3, filter_app, map_app. destruct Hc as [->|(x & y & ->)]; cbn [filter map app];
      change (sews_src (mkS x y COLOR_CHANGE)) with false || idtac; cbv iota; cbn [map app];
      apply map_ext; intros a; apply Hg. }
  exists c. split; [exact Hcn|]. cbv zeta. rewrite <- E4. split; [exact Sb|].
  intros Ps Q. apply Pq; [exact Ps|]. apply Forall_app in Q. destruct Q as [Q1 Q2]. apply Forall_app. split; [exact Q1|].
  replace (mv ++ sc ++ tu ++ cc ++ until_end second) with ((mv ++ sc ++ tu ++ cc) ++ until_end second)
      by (rewrite <- !app_assoc; reflexivity).
  apply Forall_app. split; [|exact Q2]. eapply Forall_impl; [|exact Em]. intros a Ha. apply Ha.
Qed.

(** An added pattern is moved, then rotated and then scaled about the place where the first pattern leaves the needle;
    the first pattern stays where it was. *)
Theorem C190_added_pattern_placed : forall T (filler : Z -> T) teq (w : @world T R) p q
    sa s ta ea xa ya sb tb eb xb yb dx dy kx ky rotate (set : settings RNum) first,
  sound w -> apart w p q -> NoDup (objects w q) ->
  shows w p (sa ++ [s]) ta ea xa ya -> shows w q sb tb eb xb yb -> ta <> [] -> tb <> [] ->
  first = (if scmd s =? END then sa else sa ++ [s]) ->
  undisturbed first -> undisturbed (until_end sb) -> rounds set = false ->
  exists w' joined tj ej xj yj,
    add_pattern 0%R Rplus filler teq w p q dx dy kx ky rotate = Ok w' /\ shows w' p joined tj ej xj yj /\
    forall threads o ths, transcode RNum set (mkP RNum joined threads) = Ok (o, ths) ->
    exists c, (kx <> None \/ rotate <> None -> asked set c = needle_after (asked set) first (0%R, 0%R)) /\
      let qs := map (fun a => asked set (spot a)) (filter sews_src first) ++
                map (fun a => asked set (chosen dx dy kx ky rotate c (spot a))) (filter sews_src (until_end sb)) in
      subseq qs (needle_points o) /\
      (plain_settings set ->
       Forall (fun a => has_command stitching_commands a = false) (first ++ until_end sb) -> needle_points o = qs).
Proof.
  intros T filler teq w p q sa s ta ea xa ya sb tb eb xb yb dx dy kx ky rotate set first H1 H2 H3 H4 H5 H6 H7 -> U1 U2 Hr.
  destruct (C60_add_pattern_partial T R 0%R Rplus filler teq w p q sa s ta ea xa ya sb tb eb xb yb dx dy kx ky rotate
    H1 H2 H3 H4 H5 H6 H7) as (w' & pl & cc & sb' & tj & xj & yj & E & V & A & Hc & F).
  eexists w', _, _, _, _, _. split; [exact E|]. split; [exact V|]. intros threads o ths Et.
  pose proof (blanked_until _ _ F) as Fu.
  destruct (joined_sewn set _ pl cc sb' threads o ths dx dy kx ky rotate Hr U1 (blanked_undisturbed _ _ Fu U2) A Hc Et)
    as (c & Hcn & Sb & Pq).
  exists c. split; [exact Hcn|]. cbv zeta in *.
  rewrite (blanked_sews _ _ (fun v => asked set (chosen dx dy kx ky rotate c v)) Fu) in Sb, Pq.
  split; [exact Sb|]. intros Ps Q. apply Pq; [exact Ps|]. apply Forall_app in Q. destruct Q as [Q1 Q2].
  apply Forall_app. split; [exact Q1|]. apply (blanked_quiet _ _ Fu). exact Q2.
Qed.
Print Assumptions C190_added_pattern_placed.

Definition w_placed : @world Z R :=
  mkW [r_at 3 4 STITCH; r_at 3 4 STITCH] [mkHP [0]%nat [7] [] 3%R 4%R; mkHP [1]%nat [7] [] 3%R 4%R].
Example C190_case : sound w_placed /\ apart w_placed 0 1 /\ NoDup (objects w_placed 1) /\
  shows w_placed 0 ([] ++ [r_at 3 4 STITCH]) [7] [] 3%R 4%R /\ shows w_placed 1 [r_at 3 4 STITCH] [7] [] 3%R 4%R /\
  undisturbed [r_at 3 4 STITCH] /\ rounds bare = false /\
  exists w' o ths, add_pattern 0%R Rplus (fun k => k) Z.eqb w_placed 0 1 (Some 2%R) None (Some 2%R) None None = Ok w' /\
    shows w' 0 c189_design [7] [] 3%R 4%R /\
    transcode RNum bare (mkP RNum c189_design []) = Ok (o, ths) /\ needle_points o = [(3%R, 4%R); (7%R, 4%R)].
Proof.
  split; [intros [|[|[|k]]] h H; try discriminate; injection H as <-; cbn; repeat constructor|].
  split; [split; [discriminate|cbn; intros l [<-|[]] [X|[]]; discriminate]|].
  split; [repeat constructor; intros []|]. split; [reflexivity|]. split; [reflexivity|].
  split; [repeat constructor|]. split; [reflexivity|].
  destruct C189_case as (_ & _ & _ & o & ths & X & Y).
  eexists. exists o, ths. split; [reflexivity|]. split; [reflexivity|]. split; [exact X|exact Y].
Qed.

(** ** C191 *)
Lemma append_translation_ok : forall T (w : @world T R) p ss ts ex x y dx dy,
  sound w -> shows w p ss ts ex x y ->
  exists w', append_translation Rplus w p dx dy = Ok w' /\ sound w' /\
    shows w' p (ss ++ [mkS (x + dx) (y + dy) MATRIX_TRANSLATE])%R ts ex (x + dx)%R (y + dy)%R.
Proof.
  intros T w p ss ts ex x y dx dy Hs V. destruct (shows_pat _ _ _ _ _ _ _ V) as (ls & Hp & Hc & Hl).
  unfold append_translation, add_stitch_relative. rewrite Hp. cbn [bindr hp_x hp_y]. unfold add_stitch_absolute.
  destruct (add_command_ok w p ss ts ex x y MATRIX_TRANSLATE (x + dx)%R (y + dy)%R Hs V) as (w1 & E1 & (S1 & _) & V1).
  rewrite E1. cbn [bindr]. destruct (shows_pat _ _ _ _ _ _ _ V1) as (ls1 & Hp1 & Hc1 & Hl1). rewrite Hp1. cbn [bindr].
  eexists. split; [reflexivity|]. cbn [hp_stitches hp_threads hp_extras]. split.
  - apply set_pat_sound; [exact S1|]. exact (sound_pat _ _ _ S1 Hp1).
  - exact (shows_set w1 p (mkHP ls1 ts ex (x + dx) (y + dy))%R _ Hl1 Hc1).
Qed.

(** What an appended translation does: the commands after it are moved by the offset and by the last position. *)
Theorem C191_append_translation_partial : forall T (w : @world T R) p ss ts ex x y dx dy (set : settings RNum),
  sound w -> shows w p ss ts ex x y -> undisturbed ss -> rounds set = false ->
  exists w' moved, append_translation Rplus w p dx dy = Ok w' /\ shows w' p moved ts ex (x + dx)%R (y + dy)%R /\
    forall more threads o ths, undisturbed (until_end more) ->
    transcode RNum set (mkP RNum (moved ++ more) threads) = Ok (o, ths) ->
    let qs := map (fun a => asked set (spot a)) (filter sews_src ss) ++
              map (fun a => asked set (shift (x + dx, y + dy)%R (spot a))) (filter sews_src (until_end more)) in
    subseq qs (needle_points o) /\
    (plain_settings set -> Forall (fun a => has_command stitching_commands a = false) (ss ++ until_end more) ->
     needle_points o = qs).
Proof.
  intros T w p ss ts ex x y dx dy set Hs V U Hr.
  destruct (append_translation_ok T w p ss ts ex x y dx dy Hs V) as (w' & E & _ & V').
  eexists w', _. split; [exact E|]. split; [exact V'|]. intros more threads o ths U2 Et. cbv zeta.
  rewrite <- app_assoc in Et.
  destruct (joined_sewn set ss [mkS (x + dx) (y + dy) MATRIX_TRANSLATE]%R [] more threads o ths
              (Some (x + dx)%R) (Some (y + dy)%R) None None None Hr U U2) as (c & _ & Sb & Pq); [| |exact Et|].
  - exists [mkS (x + dx) (y + dy) MATRIX_TRANSLATE]%R, [], []. split; [reflexivity|]. split; [|split; left; auto].
    right. split; [left; discriminate|]. eexists _, _. split; [reflexivity|]. split; left; reflexivity.
  - left. reflexivity.
  - cbv zeta in *. exact (conj Sb Pq).
Qed.

(** From the origin that is the documented translation. *)
Theorem C191_append_translation_at_origin_partial : forall T (w : @world T R) p ss ts ex dx dy (set : settings RNum),
  sound w -> shows w p ss ts ex 0%R 0%R -> undisturbed ss -> rounds set = false ->
  exists w' moved, append_translation Rplus w p dx dy = Ok w' /\ shows w' p moved ts ex dx dy /\
    forall more threads o ths, undisturbed (until_end more) ->
    transcode RNum set (mkP RNum (moved ++ more) threads) = Ok (o, ths) ->
    subseq (map (fun a => asked set (spot a)) (filter sews_src ss) ++
            map (fun a => asked set (shift (dx, dy) (spot a))) (filter sews_src (until_end more))) (needle_points o).
Proof.
  intros T w p ss ts ex dx dy set Hs V U Hr.
  destruct (C191_append_translation_partial T w p ss ts ex 0%R 0%R dx dy set Hs V U Hr) as (w' & m & E & V' & K).
  rewrite !Rplus_0_l in V'. exists w', m. split; [exact E|]. split; [exact V'|].
  intros more threads o ths U2 Et. destruct (K more threads o ths U2 Et) as [Sb _]. cbv zeta in Sb.
  rewrite !Rplus_0_l in Sb. exact Sb.
Qed.

(** One stitch at (3, 4), a translation by (2, 0), then a stitch at (5, 5): not sewn at (7, 5) but at (10, 9). *)
Definition w_drawn : @world Z R := mkW [r_at 3 4 STITCH] [mkHP [0]%nat [7] [] 3%R 4%R].
Theorem C191_append_translation_refuted :
  sound w_drawn /\ shows w_drawn 0 [r_at 3 4 STITCH] [7] [] 3%R 4%R /\
  exists w' drawn o ths, append_translation Rplus w_drawn 0 2%R 0%R = Ok w' /\
    shows w' 0 drawn [7] [] (3 + 2)%R (4 + 0)%R /\
    transcode RNum bare (mkP RNum (drawn ++ [r_at 5 5 STITCH]) []) = Ok (o, ths) /\
    needle_points o = [(3, 4)%R; (10, 9)%R] /\ needle_points o <> [(3, 4)%R; shift (2, 0)%R (5, 5)%R].
Proof.
  split; [intros [|[|[|k]]] h H; try discriminate; injection H as <-; cbn; repeat constructor|]. split; [reflexivity|].
  eexists. exists [r_at 3 4 STITCH; mkS (3 + 2) (4 + 0) MATRIX_TRANSLATE]%R. cut (exists o ths,
    transcode RNum bare (mkP RNum ([r_at 3 4 STITCH; mkS (3 + 2) (4 + 0) MATRIX_TRANSLATE]%R ++ [r_at 5 5 STITCH]) []) = Ok (o, ths)).
  - intros (o & ths & X). exists o, ths. split; [reflexivity|]. split; [reflexivity|]. split; [exact X|].
    assert (Y : needle_points o = [(3, 4)%R; (10, 9)%R]).
    { destruct (C191_append_translation_partial Z w_drawn 0 [r_at 3 4 STITCH] [7] [] 3%R 4%R 2%R 0%R bare)
        as (w' & m & E & V & K).
      - intros [|[|[|k]]] h H; try discriminate; injection H as <-; cbn; repeat constructor.
      - reflexivity.
      - repeat constructor.
      - reflexivity.
      - injection E as <-. unfold shows in V. cbn in V. injection V as V. 
        assert (Em : m = [r_at 3 4 STITCH; mkS (3 + 2) (4 + 0) MATRIX_TRANSLATE]%R).
        { destruct m as [|m1 [|m2 [|]]]; try discriminate. injection V as <- <-. reflexivity. }
        subst m. destruct (K [r_at 5 5 STITCH] [] o ths) as [_ P]; [repeat constructor|exact X|].
        cbv zeta in P. rewrite P; [|unfold plain_settings; cbn; auto|repeat constructor].
        unfold asked, shift, spot, r_at. cbn [filter sews_src map app bare s_rotate s_scale s_translate fst snd sx sy].
        cbn. repeat (apply f_equal2; [apply f_equal2; ring|]). reflexivity. }
    rewrite Y. split; [reflexivity|]. unfold shift. cbn [fst snd]. intros Q. injection Q. lra.
  - rewrite transcode_unfold.
    match goal with |- context [build_thread_change_sequence ?a ?b ?c ?d] =>
      let e := eval vm_compute in (build_thread_change_sequence a b c d) in
      change (build_thread_change_sequence a b c d) with e end.
    cbn [bindr p_stitches p_threads app]. unfold r_at. step_loop. step_loop. step_loop. eexists. eexists. reflexivity.
Qed.
Print Assumptions C191_append_translation_partial.
Print Assumptions C191_append_translation_refuted.
