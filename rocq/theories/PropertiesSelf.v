(** Property C198: encoding a pattern onto itself. *)
From Coq Require Import ZArith QArith List Bool Lia Arith.
From Verif Require Import PyBase EmbConst NumModel NumQ ThreadModel EncoderModel PatternModel HeapModel PatternSpec
  HeapSpec HeapProofs HeapOpsProofs PropertiesEncoder PropertiesHeap.
Import ListNotations.
Open Scope Z_scope.

Lemma self_transcode {T C} (zero : C) enc (w w' : @world T C) p ss ts ex x y :
  sound w -> NoDup (map fst ex) -> shows w p ss ts ex x y ->
  transcode_obj zero enc w p p = Ok w' ->
  exists out ts', enc ss ts = Ok (out, ts') /\
    w_cells w' = w_cells w ++ out /\ (length (w_pats w') = S (length (w_pats w)))%nat /\
    nth_error (w_pats w') p = Some (mkHP (seq (length (w_cells w)) (length out)) ts' ex zero zero) /\
    forall r, (r < length (w_pats w))%nat -> r <> p -> nth_error (w_pats w') r = nth_error (w_pats w) r.
Proof.
  intros Hs Hn Hsh H. unfold transcode_obj in H. rewrite Nat.eqb_refl in H.
  destruct (shows_pat _ _ _ _ _ _ _ Hsh) as (ls & Hp & Hc & Hl).
  destruct (copy zero w p) as [[w1 q]|] eqn:Ec; [|discriminate]. cbn [bindr] in H.
  destruct (copy_spec _ _ _ _ _ _ Ec Hp) as (A & Eq & B).
  destruct (copy_sound _ _ _ _ _ Hs Ec) as (S1 & _ & L1 & _ & O).
  destruct (C31_copy_equal _ _ _ _ _ _ _ _ _ _ _ _ Hs Hn Hsh Ec) as [Sq _].
  assert (Hne : q <> p) by (rewrite Eq; lia).
  assert (S2 : sound (clear zero w1 p)).
  { intros r h Hr. unfold clear in Hr. cbn [set_pat w_pats w_cells clear] in *. destruct (Nat.eq_dec r p) as [->|N].
    - rewrite nth_put_same in Hr by lia. injection Hr as <-. constructor.
    - rewrite nth_put_other in Hr by exact N. apply (S1 _ _ Hr). }
  assert (Sq2 : shows (clear zero w1 p) q ss ts ex x y).
  { unfold shows, seen, clear in *. cbn [set_pat w_pats w_cells]. rewrite nth_put_other by exact Hne. exact Sq. }
  assert (Hd : pat_of (clear zero w1 p) p = Ok (mkHP [] [] [] zero zero)) by (apply set_pat_get; lia).
  destruct (transcode_into_spec enc _ _ _ _ _ _ _ _ _ S2 Hne Sq2 _ Hd H) as (out & ts' & E1 & E2 & E3).
  exists out, ts'. split; [exact E1|].
  unfold clear in E2, E3. cbn [set_pat w_cells w_pats hp_stitches hp_threads hp_extras hp_x hp_y app] in E2, E3.
  rewrite A in E2, E3. split; [exact E2|]. rewrite E3, put_put. split; [rewrite put_length; exact L1|]. split.
  - rewrite nth_put_same by lia. rewrite dict_copy by exact Hn. reflexivity.
  - intros r Hr N. rewrite nth_put_other by exact N. apply O, Hr.
Qed.

(** Encoding pattern [p] with itself as the destination: [p] becomes exactly its encoding, nothing
    of what it was before left over, with its metadata, at the origin; every other pattern, even one
    that shared stitches with it, stays as it was and shares none with it any more.  And it is the
    same as what get_normalized_pattern returns as a new pattern. *)
Theorem C198_encode_onto_itself : forall (N : Num) (set : settings N) rnd
    (w w' : @world thread (F N)) p ss ts ex x y,
  sound w -> NoDup (map fst ex) -> shows w p ss ts ex x y ->
  transcode_obj (f0 N) (encoder N set rnd) w p p = Ok w' ->
  (exists out ts', encoder N set rnd ss ts = Ok (out, ts') /\ shows w' p out ts' ex (f0 N) (f0 N)) /\
  (forall r, (r < length (w_pats w))%nat -> r <> p -> seen w' r = seen w r /\ apart w' p r) /\
  (forall w2 q, get_normalized_pattern (f0 N) (encoder N set rnd) w p = Ok (w2, q) -> seen w2 q = seen w' p).
Proof.
  intros N set rnd w w' p ss ts ex x y Hs Hn Hsh H.
  destruct (self_transcode _ _ _ _ _ _ _ _ _ _ Hs Hn Hsh H) as (out & ts' & E & A & L & P & O).
  assert (Sp : shows w' p out ts' ex (f0 N) (f0 N)).
  { unfold shows, seen. rewrite P. cbn [hp_stitches hp_threads hp_extras hp_x hp_y]. rewrite A, new_cells. reflexivity. }
  split; [exists out, ts'; split; assumption|]. split.
  - intros r Hr Nr. split.
    + apply seen_ext; [apply O; assumption|]. intros l Hin. rewrite A. apply nth_error_app1. eapply sound_objects; eassumption.
    + split; [congruence|]. intros l Hl. unfold objects in Hl. rewrite P in Hl. cbn [hp_stitches] in Hl. apply in_seq in Hl.
      rewrite (objects_ext w w') by (apply O; assumption). intros Hin. pose proof (sound_objects _ _ _ Hs Hin). lia.
  - intros w2 q H2. destruct (normalized_apart _ _ _ _ _ _ _ _ _ _ _ Hs Hn Hsh H2) as (_ & _ & out2 & ts2 & E2 & S2).
    rewrite E in E2. injection E2 as <- <-. unfold shows in *. congruence.
Qed.
Print Assumptions C198_encode_onto_itself.
(** The call succeeds exactly when encoding does. *)
Theorem C198_succeeds : forall (N : Num) (set : settings N) rnd (w : @world thread (F N)) p ss ts ex x y out ts',
  sound w -> shows w p ss ts ex x y -> encoder N set rnd ss ts = Ok (out, ts') ->
  exists w', transcode_obj (f0 N) (encoder N set rnd) w p p = Ok w'.
Proof.
  intros N set rnd w p ss ts ex x y out ts' Hs Hsh E. unfold transcode_obj. rewrite Nat.eqb_refl.
  destruct (shows_pat _ _ _ _ _ _ _ Hsh) as (ls & Hp & Hc & Hl).
  destruct (copy (f0 N) w p) as [[w1 q]|] eqn:Ec; [|unfold copy in Ec; rewrite Hp in Ec; discriminate]. cbn [bindr].
  destruct (copy_spec _ _ _ _ _ _ Ec Hp) as (A & Eq & B). cbn [hp_stitches hp_threads hp_extras hp_x hp_y] in B.
  destruct (copy_sound _ _ _ _ _ Hs Ec) as (_ & _ & L1 & _ & O).
  assert (Hne : q <> p) by (rewrite Eq; lia).
  assert (Hq : pat_of w1 q = Ok (mkHP ls ts (dict_update [] ex) x y)).
  { apply pat_of_ok. rewrite B, Eq, nth_error_app2, Nat.sub_diag by lia. reflexivity. }
  unfold transcode_into. unfold clear. rewrite set_pat_get_other, Hq by exact Hne. cbn [bindr].
  rewrite set_pat_get by lia. cbn [bindr hp_stitches hp_threads].
  rewrite (contents_pats w) by exact A. rewrite Hc. cbn [bindr]. rewrite E. cbn [bindr].
  set (w2 := set_pat (set_pat w1 p _) p _).
  assert (L2 : (p < length (w_pats w2))%nat) by (unfold w2; cbn [set_pat w_pats]; rewrite !put_length; lia).
  destruct (append_all_ok out w2 p L2) as [w3 E3]. rewrite E3. cbn [bindr].
  destruct (pat_of w2 p) as [h|] eqn:H2.
  2:{ unfold pat_of in H2. destruct (nth_error (w_pats w2) p) eqn:K; [discriminate|]. apply nth_error_None in K. lia. }
  destruct (append_all_spec _ _ _ _ _ H2 E3) as [_ B3]. assert (H3 : exists h3, pat_of w3 p = Ok h3).
  { eexists. apply pat_of_ok. rewrite B3. apply nth_put_same. exact L2. }
  destruct H3 as [h3 H3]. rewrite H3. cbn [bindr]. eexists. reflexivity.
Qed.
Print Assumptions C198_succeeds.
(** Of two patterns that share all their stitches the first is encoded onto itself. *)
Example C198_case : exists w', transcode_obj 0%Q (encoder ExNum no_settings (fun _ => blue)) w_two 0 0 = Ok w' /\
  objects w' 0 = [3; 4; 5]%nat /\ objects w' 1 = [0; 1; 2]%nat /\ map (@scmd Q) (skipn 3 (w_cells w')) = [STITCH; STITCH; END].
Proof. eexists. split; [vm_compute; reflexivity|]. vm_compute. auto. Qed.
