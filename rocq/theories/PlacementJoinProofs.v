(** Consequences of [sewn] for joined patterns. *)
From Coq Require Import ZArith Reals Lra List Bool Lia.
From Verif Require Import PyBase EmbConst FunctionsModel ThreadModel NumModel NumR MatrixModel EncoderModel
  EncoderSpec EncoderSewProofs PlacementSpec.
Import ListNotations.
Open Scope Z_scope.

Lemma is_cmd_two : forall j k (a : stitch R), is_cmd j a = true -> is_cmd k a = true -> j = k.
Proof. unfold is_cmd. intros j k a H1 H2. apply Z.eqb_eq in H1. apply Z.eqb_eq in H2. congruence. Qed.

Lemma sews_not_goes : forall a : stitch R, sews_src a = true -> goes a = true -> False.
Proof.
  intros a H G. unfold sews_src in H. unfold goes in G. rewrite !orb_true_iff in *.
  destruct H as [[H|H]|H], G as [G|G]; pose proof (is_cmd_two _ _ _ H G); discriminate.
Qed.

Lemma until_end_app : forall (l1 l2 : list (stitch R)), Forall (fun a => is_cmd END a = false) l1 ->
  until_end (l1 ++ l2) = l1 ++ until_end l2.
Proof.
  induction l1 as [|a l1 IH]; intros l2 H; [reflexivity|]. apply Forall_cons_iff in H. destruct H as [Ha H].
  cbn [app until_end]. rewrite Ha, IH by exact H. reflexivity.
Qed.

Lemma sewn_app : forall r l1 l2 f n qs f' n', sewn r f n (l1 ++ l2) qs f' n' ->
  exists qs1 qs2 f1 n1, qs = qs1 ++ qs2 /\ sewn r f n l1 qs1 f1 n1 /\ sewn r f1 n1 l2 qs2 f' n'.
Proof.
  intros r. induction l1 as [|a l1 IH]; intros l2 f n qs f' n' H; cbn [app] in H.
  - exists [], qs, f, n. split; [reflexivity|]. split; [constructor|exact H].
  - inversion H; subst;
    match goal with K : sewn _ _ _ (l1 ++ l2) _ _ _ |- _ => destruct (IH _ _ _ _ _ _ K) as (qs1 & qs2 & f1 & n1 & -> & A & B) end.
    + exists (q :: qs1), qs2, f1, n1. split; [reflexivity|]. split; [eapply sewn_stitch; eassumption|exact B].
    + exists qs1, qs2, f1, n1. split; [reflexivity|]. split; [eapply sewn_goes; eassumption|exact B].
    + exists qs1, qs2, f1, n1. split; [reflexivity|]. split; [eapply sewn_translate; eassumption|exact B].
    + exists qs1, qs2, f1, n1. split; [reflexivity|]. split; [eapply sewn_scale_origin; eassumption|exact B].
    + exists qs1, qs2, f1, n1. split; [reflexivity|]. split; [eapply sewn_rotate_origin; eassumption|exact B].
    + exists qs1, qs2, f1, n1. split; [reflexivity|]. split; [eapply sewn_scale; eassumption|exact B].
    + exists qs1, qs2, f1, n1. split; [reflexivity|]. split; [eapply sewn_rotate; eassumption|exact B].
    + exists qs1, qs2, f1, n1. split; [reflexivity|]. split; [eapply sewn_reset; eassumption|exact B].
    + exists qs1, qs2, f1, n1. split; [reflexivity|]. split; [eapply sewn_other; eassumption|exact B].
Qed.

Lemma transforms_false : forall a k, transforms a = false -> In k [MATRIX_TRANSLATE; MATRIX_SCALE_ORIGIN;
  MATRIX_ROTATE_ORIGIN; MATRIX_SCALE; MATRIX_ROTATE; MATRIX_RESET] -> is_cmd k a = true -> False.
Proof.
  intros a k H Hk E. unfold transforms in H. rewrite !orb_false_iff in H. cbn [In] in Hk.
  decompose [and] H. repeat (destruct Hk as [<-|Hk]; [congruence|]). exact Hk.
Qed.

Lemma sewn_plain : forall l f n qs f' n', sewn false f n l qs f' n' -> Forall (fun a => transforms a = false) l ->
  f' = f /\ n' = needle_after f l n /\ qs = map (fun a => f (spot a)) (filter sews_src l).
Proof.
  induction l as [|a l IH]; intros f n qs f' n' H Ht.
  - inversion H; subst. auto.
  - apply Forall_cons_iff in Ht. destruct Ht as [Ha Ht].
    inversion H; subst; try (exfalso; eapply transforms_false; [exact Ha| |eassumption]; cbn; tauto);
    match goal with K : sewn _ _ _ l _ _ _ |- _ => destruct (IH _ _ _ _ _ K Ht) as (E1 & E2 & E3) end;
    cbn [needle_after fold_left filter] in *; (split; [exact E1|]).
    + match goal with L : lands _ _ _ |- _ => unfold lands in L; subst q end.
      match goal with S : sews_src a = true |- _ => rewrite S end. cbn [orb map]. split; [exact E2|congruence].
    + match goal with L : lands _ _ _ |- _ => unfold lands in L; subst q end.
      match goal with S : goes a = true |- _ => rewrite S; destruct (sews_src a) eqn:Ss; [destruct (sews_not_goes a Ss S)|] end.
      cbn [orb]. split; [exact E2|congruence].
    + match goal with S : goes a = false |- _ => rewrite S end.
      match goal with S : sews_src a = false |- _ => rewrite S end. cbn [orb]. split; [exact E2|congruence].
Qed.

Lemma shift_around : forall d c f p, shift d (around c f p) = around (shift d c) f (shift d p).
Proof.
  intros [dx dy] [cx cy] f [x y]. unfold around, shift. cbn [fst snd].
  replace (x + dx - (cx + dx))%R with (x - cx)%R by ring. replace (y + dy - (cy + dy))%R with (y - cy)%R by ring.
  apply f_equal2; ring.
Qed.
Lemma around_centre_turn : forall c d, around c (turn d) c = c.
Proof. intros [x y] d. unfold around, shift, turn. cbn [fst snd]. apply f_equal2; ring. Qed.
Lemma around_centre_stretch : forall c k, around c (stretch k) c = c.
Proof. intros [x y] d. unfold around, shift, stretch. cbn [fst snd]. apply f_equal2; ring. Qed.
Lemma shift_zero : forall p, shift (0%R, 0%R) p = p.
Proof. intros [x y]. unfold shift. cbn [fst snd]. apply f_equal2; ring. Qed.

Ltac wrong_cmd := match goal with
  | H : is_cmd ?k (mkS _ _ _) = true |- _ => discriminate H
  | H : sews_src (mkS _ _ _) = true |- _ => discriminate H
  | H : goes (mkS _ _ _) = true |- _ => discriminate H
  | H : transforms (mkS _ _ _) = false |- _ => discriminate H
  end.

Lemma sewn_move : forall r f n x y l qs f' n', sewn r f n (mkS x y MATRIX_TRANSLATE :: l) qs f' n' ->
  sewn r (fun p => f (shift (x, y) p)) n l qs f' n'.
Proof. intros r f n x y l qs f' n' H. inversion H; subst; try wrong_cmd. assumption. Qed.
Lemma sewn_stretch : forall r f n x y l qs f' n', sewn r f n (mkS x y MATRIX_SCALE :: l) qs f' n' ->
  exists c, (forall p, f p = n <-> p = c) /\ sewn r (fun p => f (around c (stretch (x, y)) p)) n l qs f' n'.
Proof. intros r f n x y l qs f' n' H. inversion H; subst; try wrong_cmd. eauto. Qed.
Lemma sewn_turn : forall r f n x y l qs f' n', sewn r f n (mkS x y MATRIX_ROTATE :: l) qs f' n' ->
  exists c, (forall p, f p = n <-> p = c) /\ sewn r (fun p => f (around c (turn x) p)) n l qs f' n'.
Proof. intros r f n x y l qs f' n' H. inversion H; subst; try wrong_cmd. eauto. Qed.

(** A chain of placement commands amounts to one map about the place of the needle. *)
Lemma sewn_placement : forall r f n moves scales turns l qs f' n' dx dy kx ky rotate,
  sewn r f n (moves ++ scales ++ turns ++ l) qs f' n' ->
  (dx = None /\ dy = None /\ moves = [] \/
   (dx <> None \/ dy <> None) /\ exists a b, moves = [mkS a b MATRIX_TRANSLATE] /\
      (dx = Some a \/ dx = None /\ a = 0%R) /\ (dy = Some b \/ dy = None /\ b = 0%R)) ->
  (kx = None /\ scales = [] \/
   exists a b, kx = Some a /\ scales = [mkS a b MATRIX_SCALE] /\ (ky = Some b \/ ky = None /\ b = a)) ->
  (rotate = None /\ turns = [] \/ exists a, rotate = Some a /\ turns = [mkS a 0%R MATRIX_ROTATE]) ->
  exists c g, (kx <> None \/ rotate <> None -> f c = n) /\
    (forall p, g p = f (chosen dx dy kx ky rotate c p)) /\ sewn r g n l qs f' n'.
Proof.
  intros r f n moves scales turns l qs f' n' dx dy kx ky rotate H Hm Hk Ht.
  set (d := (match dx with Some v => v | None => 0%R end, match dy with Some v => v | None => 0%R end)).
  assert (H1 : exists f1, (forall p, f1 p = f (shift d p)) /\ sewn r f1 n (scales ++ turns ++ l) qs f' n').
  { destruct Hm as [(-> & -> & ->)|(_ & a & b & -> & Ha & Hb)].
    - exists f. split; [|exact H]. intros p. unfold d. rewrite shift_zero. reflexivity.
    - cbn [app] in H. apply sewn_move in H. eexists. split; [|exact H]. intros p. cbv beta. f_equal.
      unfold d. destruct Ha as [->|[-> ->]], Hb as [->|[-> ->]]; reflexivity. }
  destruct H1 as (f1 & F1 & H1). clear H Hm. fold d. unfold chosen. fold d.
  destruct Hk as [(-> & ->)|(a & b & -> & -> & Hky)].
  - cbn [app] in H1. destruct Ht as [(-> & ->)|(t & -> & ->)].
    + exists (0%R, 0%R), f1. split; [intros [X|X]; contradiction|]. split; [exact F1|exact H1].
    + cbn [app] in H1. apply sewn_turn in H1. destruct H1 as (c & Hc & H2).
      exists (shift d c). eexists. split; [|split; [|exact H2]].
      * intros _. rewrite <- F1. apply Hc. reflexivity.
      * intros p. cbv beta. rewrite F1, shift_around. reflexivity.
  - cbn [app] in H1. apply sewn_stretch in H1. destruct H1 as (c & Hc & H2).
    assert (Hb : match ky with Some v => v | None => a end = b).
    { destruct Hky as [->|[-> ->]]; reflexivity. }
    rewrite Hb. destruct Ht as [(-> & ->)|(t & -> & ->)].
    + exists (shift d c). eexists. split; [|split; [|exact H2]].
      * intros _. rewrite <- F1. apply Hc. reflexivity.
      * intros p. cbv beta. rewrite F1, shift_around. reflexivity.
    + cbn [app] in H2. apply sewn_turn in H2. destruct H2 as (c' & Hc' & H3).
      assert (c = c') as <-.
      { apply Hc'. rewrite around_centre_stretch. apply Hc. reflexivity. }
      exists (shift d c). eexists. split; [|split; [|exact H3]].
      * intros _. rewrite <- F1. apply Hc. reflexivity.
      * intros p. cbv beta. rewrite F1, !shift_around. reflexivity.
Qed.
