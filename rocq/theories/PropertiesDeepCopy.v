(** C224: copies made with Python's copy module.  copy.copy gives a pattern that looks like the original;
    copy.deepcopy should give one that shares nothing with it, and raises TypeError instead. *)
From Coq Require Import ZArith List Bool Lia.
From Verif Require Import PyBase EmbConst HeapModel HeapSpec HeapProofs PropertiesHeap DeepCopyModel.
Import ListNotations.
Open Scope Z_scope.

(** copy.copy(p): the new pattern shows the same stitches, threads, metadata and position. *)
Theorem C224_copy_partial : forall T C (zero : C) (w : @world T C) p ss ts ex x y,
  sound w -> NoDup (map fst ex) -> shows w p ss ts ex x y ->
  exists w' q, copy_copy zero w p = Ok (w', q) /\ q <> p /\ shows w' q ss ts ex x y /\ shows w' p ss ts ex x y.
Proof.
  intros T C zero w p ss ts ex x y Hs Hn H. unfold copy_copy, call. cbn [Nat.eqb].
  destruct (copy zero w p) as [[w' q]|e] eqn:E.
  - exists w', q. split; [reflexivity|]. destruct (copy_sound _ _ _ _ _ Hs E) as (_ & _ & _ & Q & _).
    destruct (C31_copy_equal _ _ _ _ _ _ _ _ _ _ _ _ Hs Hn H E) as [A B].
    assert (P : (p < length (w_pats w))%nat).
    { apply nth_error_Some. unfold shows, seen in H. destruct (nth_error (w_pats w) p); [discriminate|congruence]. }
    split; [lia|]. split; [exact A|]. unfold shows. rewrite B by exact P. exact H.
  - exfalso. unfold copy in E. unfold shows, seen in H. unfold pat_of in E.
    destruct (nth_error (w_pats w) p); cbn in *; discriminate.
Qed.
(** copy.deepcopy raises for every pattern, and the method itself, called directly, shares the stitches. *)
Theorem C224_refuted :
  (forall T C (zero : C) (w : @world T C) p, copy_deepcopy zero w p = Err TypeError) /\
  (exists (w w' w'' : @world Z Z) q,
     sound w /\ deepcopy_method 0 w 0 0 = Ok (w', q) /\ translate Z.add w' q 5 0 = Ok w'' /\ seen w'' 0 <> seen w 0).
Proof.
  split; [reflexivity|].
  exists w_one. eexists _, _, _. split; [|split; [|split]].
  - intros [|[|p]] h H; try discriminate. injection H as <-. cbn. repeat constructor.
  - vm_compute. reflexivity.
  - vm_compute. reflexivity.
  - vm_compute. discriminate.
Qed.
Example C224_case : sound w_one /\ shows w_one 0 [mkS 0 0 STITCH; mkS 10 0 STITCH] [1] [] 10 0.
Proof.
  split; [|reflexivity]. intros [|[|p]] h H; try discriminate. injection H as <-. cbn. repeat constructor.
Qed.
Print Assumptions C224_copy_partial.
Print Assumptions C224_refuted.
