(** The settings given to a writer. *)
From Coq Require Import ZArith List Bool Lia QArith.
From Verif Require Import PyBase EmbConst NumModel NumQ EncoderModel SettingsModel.
Import ListNotations.
Open Scope Z_scope.

(** ** C50 *)
Section C50.
Context (N : Num).
Notation lookup := (lookup N).
Notation sdict := (sdict N).

Lemma lookup_app : forall k (d1 d2 : sdict),
  lookup k (d1 ++ d2) = match lookup k d1 with Some v => Some v | None => lookup k d2 end.
Proof.
  induction d1 as [|[k' v] d1 IH]; intros d2; [reflexivity|]. cbn [app SettingsModel.lookup].
  destruct (key_eq k' k) as [e|]; [reflexivity|apply IH].
Qed.

Lemma lookup_same : forall k v, lookup k [existT _ k v] = Some v.
Proof.
  intros k v. cbn [SettingsModel.lookup]. destruct (key_eq k k) as [e|]; [|congruence].
  rewrite (Eqdep_dec.UIP_dec key_eq e eq_refl). reflexivity.
Qed.

Lemma lookup_other : forall k k' v, k' <> k -> lookup k [existT _ k' v] = None.
Proof. intros k k' v H. cbn [SettingsModel.lookup]. destruct (key_eq k' k); [contradiction|reflexivity]. Qed.

Lemma set_default_lookup : forall w d k k',
  lookup k (set_default N w d k') =
  match lookup k d with Some v => Some v | None => if key_eq k' k then w k else None end.
Proof.
  intros w d k k'. unfold set_default. destruct (lookup k' d) as [v|] eqn:E.
  - destruct (lookup k d) eqn:E'; [reflexivity|]. destruct (key_eq k' k); [subst; congruence|reflexivity].
  - destruct (w k') as [v|] eqn:W.
    + rewrite lookup_app. destruct (lookup k d); [reflexivity|]. destruct (key_eq k' k) as [e|e].
      * subst. rewrite lookup_same, W. reflexivity.
      * apply lookup_other. exact e.
    + destruct (lookup k d); [reflexivity|]. destruct (key_eq k' k); [subst; congruence|reflexivity].
Qed.

Lemma fold_lookup : forall w k ks d,
  lookup k (fold_left (set_default N w) ks d) =
  match lookup k d with Some v => Some v | None => if in_dec key_eq k ks then w k else None end.
Proof.
  intros w k ks. induction ks as [|k' ks IH]; intros d; cbn [fold_left].
  - destruct (lookup k d); reflexivity.
  - rewrite IH, set_default_lookup. destruct (lookup k d); [reflexivity|].
    destruct (key_eq k' k) as [e|e].
    + subst. destruct (in_dec key_eq k (k :: ks)) as [i|i]; [|elim i; left; reflexivity].
      destruct (w k); [reflexivity|]. destruct (in_dec key_eq k ks); reflexivity.
    + destruct (in_dec key_eq k ks) as [i|i]; destruct (in_dec key_eq k (k' :: ks)) as [j|j]; try reflexivity.
      * elim j. right. exact i.
      * destruct j as [j|j]; [congruence|contradiction].
Qed.

(** The caller's value if there is one, else the format's value. *)
Theorem C50_settings_override : forall (w : attributes N) d k,
  lookup k (prepare N w d) =
  match lookup k d with
  | Some v => Some v
  | None => if in_dec key_eq k [KMaxJump; KMaxStitch; KFullJump; KRound; KSpeeds; KSequin; KThreadChange;
                                KExplicitTrim; KTranslate; KScale; KRotate] then w k else None
  end.
Proof. intros w d k. apply fold_lookup. Qed.

Lemma store_length : forall heap l d, (l < length heap)%nat -> length (store N heap l d) = length heap.
Proof.
  intros heap l d H. unfold store. rewrite app_length, firstn_length. cbn [length]. rewrite skipn_length. lia.
Qed.
Lemma store_same : forall heap l d, (l < length heap)%nat -> nth_error (store N heap l d) l = Some d.
Proof.
  intros heap l d H. unfold store. rewrite nth_error_app2; rewrite firstn_length; [|lia].
  replace (l - Nat.min l (length heap))%nat with 0%nat by lia. reflexivity.
Qed.
Lemma store_last : forall heap d d', store N (heap ++ [d]) (length heap) d' = heap ++ [d'].
Proof.
  intros heap d d'. unfold store. rewrite firstn_app, firstn_all, Nat.sub_diag.
  cbn [firstn]. rewrite app_nil_r. f_equal. f_equal. apply skipn_all2. rewrite app_length. cbn. lia.
Qed.

Lemma fold_at_last : forall w ks heap d,
  fold_left (set_default_at N w (length heap)) ks (heap ++ [d]) = heap ++ [fold_left (set_default N w) ks d].
Proof.
  intros w ks. induction ks as [|k ks IH]; intros heap d; [reflexivity|]. cbn [fold_left].
  unfold set_default_at at 2. rewrite nth_error_app2, Nat.sub_diag by lia. cbn [nth_error].
  rewrite store_last. apply IH.
Qed.

(** The writer gets a new object; every object that existed before, the caller's dictionary
    included, is unchanged; what the new object holds. *)
(** Whether the pattern is to be encoded: as the user says, else as the format says, else yes. *)
Definition encoding_asked (w : attributes N) (d : sdict) (asked : bool) : Prop :=
  lookup KEncode d = Some asked \/
  (lookup KEncode d = None /\ (w KEncode = Some asked \/ (w KEncode = None /\ asked = true))).
Theorem C50_callers_settings_unchanged : forall (w : attributes N) heap arg heap' l,
  settings_object N w heap arg = Some (heap', l) ->
  (forall o d, nth_error heap o = Some d -> o <> l /\ nth_error heap' o = Some d) /\
  exists d d', match arg with None => d = [] | Some o => nth_error heap o = Some d end /\
    nth_error heap' l = Some d' /\
    forall asked, encoding_asked w d asked -> d' = if asked then prepare N w d else d.
Proof.
  intros w heap arg heap' l H. unfold settings_object in H.
  destruct (match arg with None => Some [] | Some l => nth_error heap l end) as [d|] eqn:E; [|discriminate].
  assert (H1 : (if encodes N w d then fold_left (set_default_at N w (length heap)) defaulted (heap ++ [d]) else heap ++ [d]) = heap')
    by congruence.
  assert (H2 : l = length heap) by congruence. clear H. subst l.
  assert (Q : heap' = heap ++ [if encodes N w d then prepare N w d else d]).
  { rewrite <- H1. destruct (encodes N w d); [|reflexivity]. exact (fold_at_last w defaulted heap d). }
  clear H1. subst heap'. split.
  - intros o d' Ho. assert (L : (o < length heap)%nat) by (apply nth_error_Some; congruence).
    split; [lia|]. rewrite nth_error_app1 by exact L. exact Ho.
  - exists d. eexists. split; [destruct arg; [exact E|congruence]|]. split.
    + rewrite nth_error_app2, Nat.sub_diag by lia. reflexivity.
    + intros asked A. unfold encodes. destruct A as [-> |[-> [-> |[-> ->]]]]; reflexivity.
Qed.
End C50.
Print Assumptions C50_settings_override.
Print Assumptions C50_callers_settings_unchanged.

Example C50_case :
  let user : sdict ExNum := [existT _ KMaxJump (Fin ExNum (inject_Z 50)); existT (value ExNum) (Other 7) 3; existT (value ExNum) KRound false] in
  exists heap', settings_object ExNum (dst_attributes ExNum inject_Z) [[]; user] (Some 1%nat) = Some (heap', 2%nat) /\
    nth_error heap' 1 = Some user /\
    forall d, nth_error heap' 2 = Some d ->
      (lookup ExNum KMaxJump d, lookup ExNum KMaxStitch d, lookup ExNum KRound d, lookup ExNum KFullJump d,
       lookup ExNum KTieOn d, lookup ExNum KSpeeds d) =
      (Some (Fin ExNum (inject_Z 50)), Some (Fin ExNum (inject_Z 121)), Some false, Some false, None, None).
Proof. eexists. split; [reflexivity|]. split; [reflexivity|]. intros d H. injection H as <-. reflexivity. Qed.
