(** The encoder sews a design with transformation commands where [sewn] says. *)
From Coq Require Import ZArith Reals Lra List Bool Lia.
From Verif Require Import PyBase EmbConst FunctionsModel ThreadModel NumModel NumR NumRProofs MatrixModel EncoderModel
  BitLemmas EncoderProofs EncoderSpec EncoderSewProofs EncoderMatrixProofs PropertiesReal PropertiesEncoder PlacementSpec.
Import ListNotations.
Open Scope Z_scope.

Definition op_says (k : Z) (o : op) : Prop :=
  match o with
  | OpStitch => k = STITCH | OpNeedleAt => k = NEEDLE_AT | OpSewTo => k = SEW_TO
  | OpJump => k = JUMP | OpFrameEject => k = FRAME_EJECT
  | OpTranslate => k = MATRIX_TRANSLATE | OpScaleOrigin => k = MATRIX_SCALE_ORIGIN
  | OpRotateOrigin => k = MATRIX_ROTATE_ORIGIN | OpScale => k = MATRIX_SCALE | OpRotate => k = MATRIX_ROTATE
  | OpReset => k = MATRIX_RESET
  | OpStitchBreak => k = STITCH_BREAK | OpSequinEject => k = SEQUIN_EJECT
  | _ => forallb (fun j => negb (k =? j)) [STITCH; NEEDLE_AT; SEW_TO; JUMP; FRAME_EJECT; MATRIX_TRANSLATE;
           MATRIX_SCALE_ORIGIN; MATRIX_ROTATE_ORIGIN; MATRIX_SCALE; MATRIX_ROTATE; MATRIX_RESET; STITCH_BREAK;
           SEQUIN_EJECT] = true
  end.

Lemma classify_says : forall k, op_says k (classify k).
Proof.
  intros k. unfold classify.
  repeat match goal with
  | |- op_says k (if k =? ?b then _ else _) => destruct (Z.eqb_spec k b) as [->|?]; [reflexivity|]
  end.
  cbn [op_says forallb]. repeat (apply andb_true_intro; split; [apply negb_true_iff, Z.eqb_neq; assumption|]). reflexivity.
Qed.

Lemma r_round_near : forall v, near (r_round v) v.
Proof.
  intros v. unfold near, r_round. pose proof (base_Int_part v) as [B1 B2].
  destruct (Rlt_dec (v - IZR (Int_part v)) (1 / 2)) as [H|H]; [apply Rabs_le; lra|].
  destruct (Rlt_dec (1 / 2) (v - IZR (Int_part v))) as [G|G].
  - rewrite plus_IZR. apply Rabs_le. lra.
  - destruct (Z.even (Int_part v)); [apply Rabs_le; lra|]. rewrite plus_IZR. apply Rabs_le. lra.
Qed.

Lemma placed_lands : forall c s a x y, placed RN c s a = Ok (x, y) ->
  lands (rounding c) (moved (matrix RN s) (spot a)) (x, y).
Proof.
  intros c s a x y E. unfold placed in E.
  destruct (point_in_matrix_space RN (matrix RN s) (sx a) (sy a)) as [u v] eqn:Eu.
  assert (X : moved (matrix RN s) (spot a) = (u, v)) by exact Eu. rewrite X. clear X Eu. unfold lands.
  destruct (rounding c); [|injection E as <- <-; reflexivity].
  cbn [fround RNum bindr] in E. injection E as <- <-. exists (r_round u), (r_round v).
  split; [reflexivity|]. split; apply r_round_near.
Qed.

Lemma det_product : forall a b, det (matrix_multiply RN a b) = (det a * det b)%R.
Proof. intros [] []. unfold det. mring. ring. Qed.

(** The centre of a scaling or rotation at the needle, and the matrix kept by it. *)
Lemma needle_centre : forall (s s1 : rst) q, affine (matrix RN s) -> needle_in_source RN s = Ok (s1, q) ->
  matrix RN s1 = matrix RN s /\ forall p, moved (matrix RN s) p = (nx RN s, ny RN s) <-> p = q.
Proof.
  intros s s1 q Ha E. unfold needle_in_source in E.
  destruct (C39_inverse (matrix RN s)) as [Hi H0].
  destruct (Req_dec (det (matrix RN s)) 0) as [D|D]; [rewrite (H0 D) in E; discriminate|].
  destruct (Hi D) as (i & Ei & I1 & I2 & Ia & Ip). rewrite Ei in E. cbn [bindr] in E.
  assert (Di : det i <> 0%R).
  { intros D'. pose proof (det_product (matrix RN s) i) as Z. rewrite I1, D' in Z. revert Z. unfold det. mring. lra. }
  destruct (C39_inverse i) as [Hj _]. destruct (Hj Di) as (j & Ej & J1 & J2 & _). rewrite Ej in E. cbn [bindr] in E.
  injection E as <- <-. attrs. split.
  - destruct (C39_associative_identity (matrix RN s) i j) as (As & L1 & _).
    rewrite J1, I1 in As. destruct (C39_associative_identity j i j) as (_ & _ & L2).
    rewrite L1, L2 in As. exact As.
  - intros p. split.
    + intros Hp. destruct (Ip p Ha) as [X _]. rewrite Hp in X. symmetry. exact X.
    + intros ->. destruct (Ip (nx RN s, ny RN s) Ha) as [_ X]. exact X.
Qed.

Lemma post_scale_affine : forall m kx ky x y, affine m -> affine (post_scale RN m kx ky x y).
Proof.
  intros m kx ky x y H. unfold post_scale, post_translate. destruct (_ && _);
    repeat (apply C39_product_affine; [|first [apply scale_affine|apply translate_affine]]); exact H.
Qed.
Lemma post_rotate_affine : forall m d x y, affine m -> affine (post_rotate RN m d x y).
Proof.
  intros m d x y H. unfold post_rotate, post_translate. destruct (_ && _);
    repeat (apply C39_product_affine; [|first [apply rotate_affine|apply translate_affine]]); exact H.
Qed.
Lemma identity_affine : affine (get_identity RN).
Proof. unfold affine. mring. auto. Qed.
Lemma moved_identity : forall p, moved (get_identity RN) p = p.
Proof. intros [x y]. mring. f_equal; ring. Qed.
Lemma about_origin : forall f p, about (0%R, 0%R) f p = f p.
Proof.
  intros f [x y]. unfold about. cbn [fst snd]. rewrite !Rminus_0_r, !Rplus_0_r, <- surjective_pairing. reflexivity.
Qed.

(** The commands that may sew more than their own place. *)
Definition quiet_op (o : op) : bool := plain_op o || matrix_op o.
Definition centred_op (o : op) : bool := match o with OpScale | OpRotate => true | _ => false end.
Definition opof (a : stitch R) : op := classify (cmd_of (scmd a)).

(** Either the needle is followed, or no command asks for it. *)
Definition followed (s : rst) (n : point) (l : list (stitch R)) : Prop :=
  (jumping RN s = false /\ n = (nx RN s, ny RN s) /\ Forall (fun a => vague_op (opof a) = false) l) \/
  Forall (fun a => centred_op (opof a) = false) l.

Lemma loop_sewn : forall c seq src rest pos s s' f n, hi RN s -> affine (matrix RN s) ->
  (forall p, f p = moved (matrix RN s) p) -> followed s n (until_end rest) ->
  main_loop RN c seq src pos rest s = Ok s' ->
  exists qs l f' n',
    sewn (rounding c) f n (until_end rest) qs f' n' /\
    needle_points (out RN s') = needle_points (out RN s) ++ l /\
    subseq qs l /\
    (no_ties RN s -> Forall (fun a => quiet_op (opof a) = true) (until_end rest) -> l = qs).
Proof.
  intros c seq src. induction rest as [|a rest IH]; intros pos s s' f n H Ha Hf Hn E; cbn [main_loop] in E;
    change (F RN) with R in *.
  - injection E as <-. exists [], [], f, n. split; [constructor|].
    destruct (grow_add RN s END (nx RN s) (ny RN s) H) as [A B]; [unfold END; lia|].
    split; [exact A|]. split; [constructor|auto].
  - destruct (placed RN c s a) as [[x y]|] eqn:Ep; [|discriminate]. cbn [bindr] in E.
    apply placed_lands in Ep. rewrite <- Hf in Ep.
    set (s0 := set_high RN s (Z.land (scmd a) FLAGS_MASK)) in E.
    assert (H0 : hi RN s0) by (unfold hi, s0; attrs; apply high_flags_mask).
    match type of E with bindr ?e _ = _ => destruct e as [s1|] eqn:E1; [|discriminate] end.
    cbn [bindr] in E. cbn [until_end] in *.
    change (is_cmd END a) with (cmd_of (scmd a) =? END) in *.
    destruct (Z.eqb_spec (cmd_of (scmd a)) END) as [Ee|Ee].
    { rewrite Ee in E1. change (classify END) with OpEnd in E1. cbn [exec] in E1. injection E1 as <-.
      injection E as <-. exists [], [], f, n. split; [constructor|].
      destruct (grow_add RN s0 END (nx RN s0) (ny RN s0) H0) as [A B]; [unfold END; lia|].
      split; [exact A|]. split; [constructor|auto]. }
    pose proof (classify_says (cmd_of (scmd a))) as Say. fold (opof a) in E1, Say.
    assert (Src : forall k, is_cmd k a = (cmd_of (scmd a) =? k)) by reflexivity.
    assert (Fol : forall n1, (jumping RN s0 = false -> n = (nx RN s0, ny RN s0) -> vague_op (opof a) = false ->
         jumping RN s1 = false /\ n1 = (nx RN s1, ny RN s1)) -> followed s1 n1 (until_end rest)).
    { intros n1 K. destruct Hn as [(J & Ne & V)|V].
      - apply Forall_cons_iff in V. destruct V as [V V']. left. destruct (K J Ne V). auto.
      - apply Forall_cons_iff in V. right. apply V. }
    destruct (matrix_op (opof a)) eqn:Mo.
    + (* matrix commands *)
      pose proof (exec_matrix _ _ _ _ _ _ _ _ _ _ _ _ Mo E1) as (m & Em).
      assert (K : forall f1, affine (matrix RN s1) -> (forall p, f1 p = moved (matrix RN s1) p) ->
         (forall qs f' n', sewn (rounding c) f1 n (until_end rest) qs f' n' ->
                           sewn (rounding c) f n (a :: until_end rest) qs f' n') ->
         exists qs l f' n', sewn (rounding c) f n (a :: until_end rest) qs f' n' /\
           needle_points (out RN s') = needle_points (out RN s) ++ l /\ subseq qs l /\
           (no_ties RN s -> Forall (fun b => quiet_op (opof b) = true) (a :: until_end rest) -> l = qs)).
      { intros f1 A1 F1 W. assert (H1 : hi RN s1) by (rewrite Em; exact H0).
        assert (Fo1 : followed s1 n (until_end rest)).
        { apply Fol. intros J Ne _. rewrite Em. attrs. auto. }
        destruct (IH _ _ _ f1 n H1 A1 F1 Fo1 E) as (qs & l & f' & n' & Sw & P & Sb & O).
        exists qs, l, f', n'. split; [apply W; exact Sw|]. split; [etransitivity; [exact P|rewrite Em; reflexivity]|]. split; [exact Sb|].
        intros Nt Q. apply Forall_cons_iff in Q. apply O; [rewrite Em; exact Nt|apply Q]. }
      assert (Ha0 : affine (matrix RN s0)) by exact Ha.
      assert (Hf0 : forall p, f p = moved (matrix RN s0) p) by exact Hf.
      destruct (opof a) eqn:Eo; try discriminate Mo; cbn [exec] in E1; cbn [op_says] in Say.
      * injection E1 as <-. apply (K (fun p => f (shift (spot a) p))).
        -- attrs. apply C39_product_affine; [exact Ha0|apply translate_affine].
        -- intros p. attrs.
           etransitivity; [|symmetry; exact (proj1 (C39_post_operations (matrix RN s0) p (sx a) (sy a) 0 0 0 0 0)%R)].
           rewrite Hf0. reflexivity.
        -- intros. apply sewn_translate; [rewrite Src, Say; reflexivity|assumption].
      * injection E1 as <-. apply (K (fun p => f (stretch (spot a) p))).
        -- attrs. apply post_scale_affine. exact Ha0.
        -- intros p. attrs.
           etransitivity; [|symmetry; exact (proj1 (proj2 (C39_post_operations (matrix RN s0) p 0 0 (sx a) (sy a) 0 0 0)%R))].
           rewrite about_origin. rewrite Hf0. reflexivity.
        -- intros. apply sewn_scale_origin; [rewrite Src, Say; reflexivity|assumption].
      * injection E1 as <-. apply (K (fun p => f (turn (sx a) p))).
        -- attrs. apply post_rotate_affine. exact Ha0.
        -- intros p. attrs.
           etransitivity; [|symmetry; exact (proj2 (proj2 (C39_post_operations (matrix RN s0) p 0 0 0 0 (sx a) 0 0)%R))].
           rewrite about_origin. rewrite Hf0. reflexivity.
        -- intros. apply sewn_rotate_origin; [rewrite Src, Say; reflexivity|assumption].
      * destruct (needle_in_source RN s0) as [[s2 [qx qy]]|] eqn:En; [|discriminate]. cbn [bindr fst snd] in E1.
        injection E1 as <-. destruct (needle_centre _ _ _ Ha0 En) as [M2 C2].
        apply (K (fun p => f (around (qx, qy) (stretch (spot a)) p))).
        -- attrs. apply post_scale_affine. rewrite M2. exact Ha0.
        -- intros p. attrs. rewrite M2.
           etransitivity; [|symmetry; exact (proj1 (proj2 (C39_post_operations (matrix RN s0) p 0 0 (sx a) (sy a) 0 qx qy)%R))].
           rewrite Hf0. reflexivity.
        -- intros. eapply sewn_scale; [rewrite Src, Say; reflexivity| |eassumption].
           intros p. rewrite Hf0. destruct Hn as [(_ & -> & _)|V]; [apply C2|].
           apply Forall_cons_iff in V. destruct V as [V _]. rewrite Eo in V. discriminate.
      * destruct (needle_in_source RN s0) as [[s2 [qx qy]]|] eqn:En; [|discriminate]. cbn [bindr fst snd] in E1.
        injection E1 as <-. destruct (needle_centre _ _ _ Ha0 En) as [M2 C2].
        apply (K (fun p => f (around (qx, qy) (turn (sx a)) p))).
        -- attrs. apply post_rotate_affine. rewrite M2. exact Ha0.
        -- intros p. attrs. rewrite M2.
           etransitivity; [|symmetry; exact (proj2 (proj2 (C39_post_operations (matrix RN s0) p 0 0 0 0 (sx a) qx qy)%R))].
           rewrite Hf0. reflexivity.
        -- intros. eapply sewn_rotate; [rewrite Src, Say; reflexivity| |eassumption].
           intros p. rewrite Hf0. destruct Hn as [(_ & -> & _)|V]; [apply C2|].
           apply Forall_cons_iff in V. destruct V as [V _]. rewrite Eo in V. discriminate.
      * injection E1 as <-. apply (K (fun p => p)).
        -- apply identity_affine.
        -- intros p. attrs. rewrite moved_identity. reflexivity.
        -- intros. apply sewn_reset; [rewrite Src, Say; reflexivity|assumption].
    + (* others *)
      destruct (exec_grow _ _ _ _ _ _ _ _ _ _ _ _ H0 Mo E1) as (H1 & M1 & K1 & l1 & P1 & S1 & O1).
      assert (Ha1 : affine (matrix RN s1)) by (rewrite M1; exact Ha).
      assert (Hf1 : forall p, f p = moved (matrix RN s1) p) by (rewrite M1; exact Hf).
      set (n1 := if going_op (opof a) then (x, y) else n).
      assert (Fo1 : followed s1 n1 (until_end rest)).
      { apply Fol. intros J Ne V. destruct (exec_needle _ _ _ _ _ _ _ _ _ _ _ _ J V E1) as [J1 N1].
        split; [exact J1|]. rewrite N1. unfold n1. destruct (going_op (opof a)); [reflexivity|exact Ne]. }
      destruct (IH _ _ _ f n1 H1 Ha1 Hf1 Fo1 E) as (qs & l & f' & n' & Sw & P & Sb & O).
      assert (Pt : needle_points (out RN s') = needle_points (out RN s) ++ l1 ++ l).
      { etransitivity; [exact P|]. etransitivity; [apply (f_equal (fun u => u ++ l)); exact P1|]. rewrite <- app_assoc. reflexivity. }
      assert (Step : no_ties RN s -> quiet_op (opof a) = true ->
         no_ties RN s1 /\ l1 = if sewing_op (opof a) then [(x, y)] else []).
      { intros Nt Hp. unfold quiet_op in Hp. rewrite Mo, orb_false_r in Hp. split; [|apply O1; assumption].
        assert (Hst : steady_op (opof a) = true).
        { unfold plain_op in Hp. apply andb_prop in Hp. apply Hp. }
        destruct (K1 Hst) as (_ & _ & T1 & T2 & T3). unfold no_ties. rewrite T1, T2, T3. exact Nt. }
      assert (So : sewing_op (opof a) = sews_src a) by exact (sews_src_op RN a).
      exists (if sewing_op (opof a) then (x, y) :: qs else qs), (l1 ++ l), f', n'.
      split; [|split; [exact Pt|split]].
      * unfold n1 in Sw. destruct (sewing_op (opof a)) eqn:Sew.
        -- apply sewn_stitch; [congruence|exact Ep|]. destruct (opof a); try discriminate Sew; exact Sw.
        -- destruct (going_op (opof a)) eqn:Go.
           ++ apply sewn_goes with (q := (x, y)); [|exact Ep|exact Sw]. unfold goes. rewrite !Src.
              destruct (opof a); try discriminate Go; try discriminate Sew; cbn [op_says] in Say; rewrite Say; reflexivity.
           ++ apply sewn_other; [congruence| | |exact Sw]; unfold goes, transforms; rewrite !Src;
              (destruct (opof a); try discriminate Go; try discriminate Mo; cbn [op_says] in Say;
               first [rewrite Say; reflexivity|
                 cbn [forallb] in Say; repeat rewrite andb_true_iff in Say; repeat rewrite negb_true_iff in Say;
                 destruct Say as (_ & _ & _ & Y1 & Y2 & Y3 & Y4 & Y5 & Y6 & Y7 & Y8 & _);
                 rewrite ?Y1, ?Y2, ?Y3, ?Y4, ?Y5, ?Y6, ?Y7, ?Y8; reflexivity]).
      * destruct (sewing_op (opof a)) eqn:Sew; [|apply subseq_prefix; exact Sb].
        destruct (S1 Sew) as (a1 & a2 & ->). rewrite <- app_assoc. apply subseq_prefix. cbn [app]. apply sub_take.
        apply subseq_prefix. exact Sb.
      * intros Nt Hp. apply Forall_cons_iff in Hp. destruct Hp as [Hp Hp'].
        destruct (Step Nt Hp) as [Nt1 L1]. rewrite L1, (O Nt1 Hp'). destruct (sewing_op (opof a)); reflexivity.
Qed.
