From Coq Require Import ZArith List Bool Lia.
From Verif Require Import PyBase EmbConst StreamModel StreamSpec.
Import ListNotations.
Open Scope Z_scope.

Lemma qz_int_add : forall p x, p + qz_int x p = x.
Proof. intros. unfold qz_int. lia. Qed.

Lemma apply_rel_quantise_int : forall l px py,
  apply_rel px py (quantise qz_int px py l) = l.
Proof.
  induction l as [|[x y c] l IH]; intros px py; cbn [quantise apply_rel sx sy scmd]; [reflexivity|].
  rewrite !qz_int_add, IH. reflexivity.
Qed.

Lemma apply_rel_app : forall a b px py,
  apply_rel px py (a ++ b)
  = apply_rel px py a ++ (let '(x, y) := needle_after px py (apply_rel px py a) in apply_rel x y b).
Proof.
  induction a as [|e a IH]; intros b px py; cbn [app apply_rel needle_after]; [reflexivity|].
  rewrite IH. cbn [app sx sy]. reflexivity.
Qed.

Lemma apply_rel_length : forall l px py, length (apply_rel px py l) = length l.
Proof. induction l; intros; cbn [apply_rel length]; [reflexivity|rewrite IHl; reflexivity]. Qed.

Lemma needle_after_app : forall a b x y, needle_after x y (a ++ b)
  = let '(x', y') := needle_after x y a in needle_after x' y' b.
Proof. induction a; intros; cbn [app needle_after]; [reflexivity|apply IHa]. Qed.

(** Appending the relative END event closes the pattern. *)
Lemma apply_rel_end : forall l,
  apply_rel 0 0 (l ++ [mkS 0 0 END]) = closed (apply_rel 0 0 l).
Proof.
  intros l. rewrite apply_rel_app. unfold closed.
  destruct (needle_after 0 0 (apply_rel 0 0 l)) as [x y].
  cbn [apply_rel sx sy scmd]. rewrite !Z.add_0_r. reflexivity.
Qed.

Lemma prefix_refl : forall A (a : list A), prefix_of a a.
Proof. intros. exists []. rewrite app_nil_r. reflexivity. Qed.
Lemma prefix_nil : forall A (a : list A), prefix_of [] a.
Proof. intros. exists a. reflexivity. Qed.
Lemma prefix_cons : forall A x (a b : list A), prefix_of a b -> prefix_of (x :: a) (x :: b).
Proof. intros A x a b [t ->]. exists t. reflexivity. Qed.
Lemma prefix_app : forall A (x a b : list A), prefix_of a b -> prefix_of (x ++ a) (x ++ b).
Proof. intros A x a b [t ->]. exists t. rewrite app_assoc. reflexivity. Qed.

Lemma apply_rel_prefix : forall a b px py, prefix_of a b ->
  prefix_of (apply_rel px py a) (apply_rel px py b).
Proof. intros a b px py [t ->]. rewrite apply_rel_app. eexists. reflexivity. Qed.

(** Relabelling commands commutes with applying events. *)
Definition relabel {C} (f : Z -> Z) (l : list (stitch C)) : list (stitch C) :=
  map (fun s => mkS (sx s) (sy s) (f (scmd s))) l.

Lemma apply_rel_relabel : forall f l px py,
  apply_rel px py (relabel f l) = relabel f (apply_rel px py l).
Proof.
  induction l as [|e l IH]; intros px py; cbn [relabel map apply_rel sx sy scmd]; [reflexivity|].
  f_equal. apply IH.
Qed.

Lemma quantise_before_end : forall C (qz : C -> Z -> Z) l xx yy,
  quantise qz xx yy (before_end l) = before_end (quantise qz xx yy l).
Proof.
  induction l as [|s l IH]; intros xx yy; cbn [before_end quantise scmd]; [reflexivity|].
  destruct (cmd_of (scmd s) =? END); [reflexivity|].
  cbn [quantise]. f_equal. apply IH.
Qed.

Lemma needle_after_relabel : forall f l x y,
  needle_after x y (relabel f l) = needle_after x y l.
Proof. induction l as [|s l IH]; intros; cbn [relabel map needle_after sx sy]; [reflexivity|apply IH]. Qed.

Lemma before_end_idem_closed : forall l, Forall (fun s => cmd_of (scmd s) <> END) (@before_end Z l).
Proof.
  induction l as [|s l IH]; cbn [before_end]; [constructor|].
  destruct (Z.eqb_spec (cmd_of (scmd s)) END); constructor; assumption.
Qed.

Lemma emit_all_app : forall A (g : A -> res (list Z)) a b x y,
  emit_all g a = Ok x -> emit_all g b = Ok y -> emit_all g (a ++ b) = Ok (x ++ y).
Proof.
  induction a as [|e a IH]; intros b x y Ha Hb; cbn [emit_all app] in *.
  - injection Ha as <-. exact Hb.
  - destruct (g e) as [h|]; cbn [bindr] in *; [|discriminate].
    destruct (emit_all g a) as [t|] eqn:Et; cbn [bindr] in *; [|discriminate].
    injection Ha as <-. rewrite (IH b t y eq_refl Hb). cbn [bindr]. rewrite app_assoc. reflexivity.
Qed.

(** ** Patterns and events of the 8-bit formats *)
Definition ev_good (m : Z) (moves ctrls : list Z) (e : rel) : Prop :=
  let c := cmd_of (scmd e) in
  In c moves /\ -m <= sx e <= m /\ -m <= sy e <= m \/ In c ctrls /\ sx e = 0 /\ sy e = 0.

Lemma representable_good : forall m moves ctrls l px py,
  representable m moves ctrls px py l -> Forall (ev_good m moves ctrls) (quantise qz_int px py l).
Proof.
  intros m moves ctrls. induction l as [|s l IH]; intros px py H; cbn [quantise]; [apply Forall_nil|].
  destruct H as [Hs Hl]. apply Forall_cons.
  - unfold ev_good. cbn [scmd sx sy]. unfold step_within, qz_int in *.
    destruct Hs as [Hs|Hs]; [left; tauto|right]. split; [tauto|lia].
  - apply IH. rewrite !qz_int_add. exact Hl.
Qed.

Lemma representable_before_end : forall m moves ctrls l px py,
  representable m moves ctrls px py l -> representable m moves ctrls px py (before_end l).
Proof.
  intros m moves ctrls. induction l as [|s l IH]; intros px py H; cbn [before_end]; [exact I|].
  destruct H as [Hs Hl]. destruct (cmd_of (scmd s) =? END); [exact I|].
  split; [exact Hs|]. apply IH. exact Hl.
Qed.

(** Dropping displacement-free commands commutes with applying events. *)
Lemma apply_rel_renamed : forall m moves ctrls f l px py,
  representable m moves ctrls px py l ->
  (forall c, f c = None -> In (cmd_of c) moves -> False) ->
  apply_rel px py (renamed f (quantise qz_int px py l)) = renamed f l.
Proof.
  intros m moves ctrls f. induction l as [|s l IH]; intros px py H Hd; [reflexivity|].
  destruct H as [Hs Hl]. cbn [quantise renamed scmd sx sy].
  rewrite !qz_int_add. destruct (f (scmd s)) as [c|] eqn:Ef.
  - cbn [apply_rel sx sy scmd]. rewrite !qz_int_add. f_equal. apply IH; assumption.
  - destruct Hs as [[Hs _]|[_ [Hx Hy]]]; [exfalso; eauto|].
    rewrite Hx, Hy in *. apply IH; assumption.
Qed.

Lemma renamed_total : forall C f g (l : list (stitch C)),
  (forall c, f c = Some (g c)) -> renamed f l = relabel g l.
Proof.
  intros C f g l H. induction l as [|s l IH]; [reflexivity|].
  cbn [renamed relabel map]. rewrite H. f_equal. apply IH.
Qed.
