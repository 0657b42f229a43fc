(** C228: where a design stood before it was centred. *)
From Coq Require Import ZArith QArith Qabs Qround List Bool Lia Lqa.
From Verif Require Import PyBase EmbConst NumQ QuantProofs PatternModel PropertiesPattern.
Import ListNotations.
Open Scope Z_scope.

(** * Specification *)
(** The same commands, moved by (u, v). *)
Definition moved (u v : Q) (a b : list (stitch Q)) : Prop :=
  Forall2 (fun s t => (sx t == sx s + u)%Q /\ (sy t == sy s + v)%Q /\ scmd t = scmd s) a b.
(** The middle between two sides is not halfway between two whole numbers. *)
Definition no_tie (lo hi : Q) : Prop := forall z : Z, ~ (lo + hi == inject_Z (2 * z + 1))%Q.

(** * Proofs *)
Lemma inject_lt_iff a b : (inject_Z a < inject_Z b)%Q <-> a < b.
Proof. rewrite <- Zlt_Qlt. reflexivity. Qed.
Lemma small_int u : (- (1) <= inject_Z u)%Q -> (inject_Z u <= 1)%Q -> -1 <= u <= 1.
Proof.
  intros A B. split; rewrite Zle_Qle; [change (inject_Z (-1)) with (- (1))%Q|change (inject_Z 1) with 1%Q]; assumption.
Qed.
Lemma zero_int u : (- (1) < inject_Z u)%Q -> (inject_Z u < 1)%Q -> u = 0.
Proof.
  intros A B. assert (-1 < u) by (apply inject_lt_iff; exact A). assert (u < 1) by (apply inject_lt_iff; exact B). lia.
Qed.
Lemma floor_shift x y k : (y == x + inject_Z k)%Q -> Qfloor y = Qfloor x + k.
Proof.
  intros E. pose proof (floor_bounds x) as B. pose proof (floor_bounds y) as C.
  assert (Qfloor y - (Qfloor x + k) = 0); [|lia]. apply zero_int; unfold Z.sub; rewrite inject_Z_plus, inject_Z_opp, inject_Z_plus; lra.
Qed.
Lemma round_even x y k : (y == x + inject_Z k)%Q -> Z.even k = true -> q_round y = q_round x + k.
Proof.
  intros E K. unfold q_round. rewrite (floor_shift x y k E).
  assert (D : (2 * (y - inject_Z (Qfloor x + k)) == 2 * (x - inject_Z (Qfloor x)))%Q) by (rewrite inject_Z_plus; lra).
  assert (L : Qle_bool 1 (2 * (y - inject_Z (Qfloor x + k))) = Qle_bool 1 (2 * (x - inject_Z (Qfloor x)))) by (rewrite D; reflexivity).
  assert (M : Qeq_bool (2 * (y - inject_Z (Qfloor x + k))) 1 = Qeq_bool (2 * (x - inject_Z (Qfloor x))) 1) by (rewrite D; reflexivity).
  cbv zeta. rewrite L, M. clear L M D. destruct (Qle_bool 1 _); [|reflexivity]. destruct (Qeq_bool _ 1); [|apply Z.add_shuffle0].
  rewrite Z.even_add, K. destruct (Z.even (Qfloor x)); cbn [Bool.eqb]; [reflexivity|apply Z.add_shuffle0].
Qed.
Lemma round_near x y k : (y == x + inject_Z k)%Q -> exists u, q_round y = q_round x + k + u /\ -1 <= u <= 1.
Proof.
  intros E. exists (q_round y - (q_round x + k)). split; [lia|]. pose proof (q_round_half x). pose proof (q_round_half y).
  apply small_int; unfold Z.sub; rewrite inject_Z_plus, inject_Z_opp, inject_Z_plus; lra.
Qed.
Lemma round_strict x : (forall z : Z, ~ (x + x == inject_Z (2 * z + 1))%Q) -> (- (1 # 2) < x - inject_Z (q_round x))%Q /\ (x - inject_Z (q_round x) < 1 # 2)%Q.
Proof.
  intros T. pose proof (q_round_half x) as [A B]. split; apply Qnot_le_lt; intros C.
  - apply (T (q_round x - 1)). unfold Z.sub. rewrite !inject_Z_plus, !inject_Z_mult, !inject_Z_plus. change (inject_Z (- (1))) with (- (1))%Q. change (inject_Z 2) with 2%Q. change (inject_Z 1) with 1%Q. lra.
  - apply (T (q_round x)). rewrite !inject_Z_plus, !inject_Z_mult. change (inject_Z 2) with 2%Q. change (inject_Z 1) with 1%Q. lra.
Qed.
Lemma round_no_tie x y k : (y == x + inject_Z k)%Q -> (forall z : Z, ~ (x + x == inject_Z (2 * z + 1))%Q) -> q_round y = q_round x + k.
Proof.
  intros E T. pose proof (round_strict x T). pose proof (q_round_half y).
  assert (q_round y - (q_round x + k) = 0); [|lia]. apply zero_int; unfold Z.sub; rewrite inject_Z_plus, inject_Z_opp, inject_Z_plus; lra.
Qed.
(** One axis: the sides lo, hi and the sides after moving by k. *)
Lemma axis lo hi lo' hi' k : (lo' == lo + inject_Z k)%Q -> (hi' == hi + inject_Z k)%Q ->
  exists u, q_round ((hi' + lo') / 2)%Q = q_round ((hi + lo) / 2)%Q + k + u /\ -1 <= u <= 1 /\ (Z.even k = true \/ no_tie lo hi -> u = 0).
Proof.
  intros A B. assert (E : ((hi' + lo') / 2 == (hi + lo) / 2 + inject_Z k)%Q) by (rewrite A, B; field).
  destruct (round_near _ _ _ E) as (u & U & Hu). exists u. split; [exact U|]. split; [exact Hu|]. intros [K|T].
  - pose proof (round_even _ _ _ E K). lia.
  - enough (q_round ((hi' + lo') / 2)%Q = q_round ((hi + lo) / 2)%Q + k) by lia. apply (round_no_tie _ _ _ E). intros z C. apply (T z). rewrite <- C. field.
Qed.
Lemma moved_again a b c d e f l u v : (c + a == u + d)%Q -> (f + b == v + e)%Q ->
  moved u v (translate d e l) (translate c f (translate a b l)).
Proof.
  intros E G. induction l as [|s l IH]; cbn [translate map]; constructor; [|exact IH]. cbn [sx sy scmd]. repeat split; lra.
Qed.

(** Centring what is centred moves nothing. *)
Theorem C228_again : forall l, l <> [] -> exists l' l'',
  move_center_to_origin l = Ok l' /\ move_center_to_origin l' = Ok l'' /\ moved 0 0 l' l''.
Proof.
  intros l Hl. destruct (C37_centre l Hl) as (l' & x0 & y0 & x1 & y1 & E & B & X & Y & cx & cy & T).
  exists l'. unfold move_center_to_origin at 2. rewrite B. eexists. split; [exact E|]. split; [reflexivity|].
  apply Qabs_Qle_condition in X, Y.
  rewrite (q_round_zero ((x1 + x0) / 2)%Q), (q_round_zero ((y1 + y0) / 2)%Q).
  - clear. induction l' as [|s l' IH]; cbn [translate map]; constructor; [|exact IH]. cbn [sx sy scmd]. repeat split; reflexivity.
  - assert (R : ((y1 + y0) / 2 == (y0 + y1) / 2)%Q) by (rewrite (Qplus_comm y1 y0); reflexivity). rewrite R. exact Y.
  - assert (R : ((x1 + x0) / 2 == (x0 + x1) / 2)%Q) by (rewrite (Qplus_comm x1 x0); reflexivity). rewrite R. exact X.
Qed.

(** A design and the same design moved by whole units: both centred, they are at most one unit apart each
    way, and not at all where the shift is even or the middle of the design is no tie. *)
Theorem C228_same_partial : forall l a b, l <> [] -> exists l1 l2 u v x0 y0 x1 y1,
  move_center_to_origin l = Ok l1 /\ move_center_to_origin (translate (inject_Z a) (inject_Z b) l) = Ok l2 /\
  moved (inject_Z u) (inject_Z v) l1 l2 /\ -1 <= u <= 1 /\ -1 <= v <= 1 /\
  bounds l = (Some x0, Some y0, Some x1, Some y1) /\
  (Z.even a = true \/ no_tie x0 x1 -> u = 0) /\ (Z.even b = true \/ no_tie y0 y1 -> v = 0).
Proof.
  intros l a b Hl. destruct (C37_translate (inject_Z a) (inject_Z b) l Hl) as (x0 & y0 & x1 & y1 & x0' & y0' & x1' & y1' & E & E' & A & B & C & D).
  destruct (axis x0 x1 x0' x1' a A C) as (u & U & Hu & Zu). destruct (axis y0 y1 y0' y1' b B D) as (v & V & Hv & Zv).
  unfold move_center_to_origin. rewrite E, E', U, V. do 2 eexists. exists (- u), (- v), x0, y0, x1, y1.
  split; [reflexivity|]. split; [reflexivity|]. split; [|repeat split; try lia; intros H; [specialize (Zu H)|specialize (Zv H)]; lia].
  apply moved_again; rewrite <- !inject_Z_plus; f_equiv; lia.
Qed.
(** Otherwise the place does matter. *)
Theorem C228_refuted : exists l l1 l2,
  move_center_to_origin l = Ok l1 /\ move_center_to_origin (translate 1 0 l) = Ok l2 /\ ~ moved 0 0 l1 l2.
Proof.
  exists [mkS 0 0 STITCH; mkS 1 0 STITCH]%Q. do 2 eexists. split; [vm_compute; reflexivity|]. split; [vm_compute; reflexivity|].
  intros H. inversion H as [|s t a b [X _] _]. cbn [sx] in X. vm_compute in X. discriminate.
Qed.
Example C228_case : no_tie 0 4 /\ no_tie (1 # 3) 1 /\ ~ no_tie 0 1.
Proof.
  split; [|split].
  - intros z H. unfold Qeq, Qplus, inject_Z, Qnum, Qden in H. lia.
  - intros z H. unfold Qeq, Qplus, inject_Z, Qnum, Qden in H. lia.
  - intros H. apply (H 0). reflexivity.
Qed.
Print Assumptions C228_again.
Print Assumptions C228_same_partial.
Print Assumptions C228_refuted.
