(** Properties C41-C44: colours and palettes. *)
From Coq Require Import ZArith List Bool Lia.
From Verif Require Import PyBase ThreadModel ThreadProofs.
Import ListNotations.
Open Scope Z_scope.

(** ** Specification vocabulary *)
(** Palette entry [i] is usable and is [t]. *)
Definition entry (palette : list (option thread)) (i : nat) (t : thread) : Prop :=
  nth_error palette i = Some (Some t).

(** A colour as red, green and blue components. *)
Definition rgb (c : Z) : Z * Z * Z := ((c / 65536) mod 256, (c / 256) mod 256, c mod 256).

(** The weighted colour distance, written with ordinary arithmetic.  [m] is the mean of the
    reds, halves going to the even neighbour. *)
Definition colour_distance (c1 c2 : Z) : Z :=
  let '(r1, g1, b1) := rgb c1 in
  let '(r2, g2, b2) := rgb c2 in
  let s := r1 + r2 in
  let m := if s mod 4 =? 3 then s / 2 + 1 else s / 2 in
  (512 + m) * (r1 - r2) * (r1 - r2) / 256 + 4 * (g1 - g2) * (g1 - g2)
  + (767 - m) * (b1 - b2) * (b1 - b2) / 256.

Lemma components_rgb : forall c, (get_red c, get_green c, get_blue c) = rgb c.
Proof.
  intros c. unfold get_red, get_green, get_blue, rgb. rewrite !BitLemmas.land_ff, !Z.shiftr_div_pow2 by lia.
  reflexivity.
Qed.

Lemma same_rgb : forall a b, same_color a b <-> rgb a = rgb b.
Proof.
  intros a b. rewrite same_components, <- !components_rgb. split.
  - intros (-> & -> & ->). reflexivity.
  - intros E. injection E as E1 E2 E3. auto.
Qed.

Lemma distance_spec : forall a b, distance a b = colour_distance a b.
Proof.
  intros a b. unfold colour_distance. rewrite <- !components_rgb. unfold distance, color_distance_red_mean.
  cbv zeta. rewrite !Z.shiftr_div_pow2 by lia. change (2 ^ 8) with 256.
  assert (E : forall s, round_half s = if s mod 4 =? 3 then s / 2 + 1 else s / 2).
  { intros s. unfold round_half. destruct (Z.eqb_spec (s mod 4) 3), (Z.eqb_spec (s mod 2) 0),
      (Z.eqb_spec (s / 2 mod 2) 0); lia. }
  rewrite E. reflexivity.
Qed.

(** C41: the search answers None exactly when nothing is usable; otherwise the index of a usable
    entry nothing is nearer than; the distance is zero exactly between equal colours, so an
    entry of exactly the wanted colour is always found. *)
Theorem C41_nearest_minimum : forall c palette,
  (find_nearest_color_index c palette = None <-> forall i t, ~ entry palette i t) /\
  (forall i, find_nearest_color_index c palette = Some i ->
     exists t, entry palette i t /\
       forall j t', entry palette j t' -> colour_distance c (t_color t) <= colour_distance c (t_color t')) /\
  (forall a b, 0 <= colour_distance a b /\ (colour_distance a b = 0 <-> rgb a = rgb b)) /\
  (forall j t', entry palette j t' -> rgb (t_color t') = rgb c ->
     exists i t, find_nearest_color_index c palette = Some i /\ entry palette i t /\ rgb (t_color t) = rgb c).
Proof.
  intros c palette. unfold entry.
  assert (N : find_nearest_color_index c palette = None <-> forall i t, nth_error palette i <> Some (Some t)).
  { rewrite nearest_none. split.
    - intros F i t E. apply nth_error_In in E. rewrite Forall_forall in F. specialize (F _ E). discriminate.
    - intros F. apply Forall_forall. intros [t|] H; [|reflexivity]. apply In_nth_error in H.
      destruct H as [n E]. elim (F n t E). }
  assert (D : forall a b, 0 <= colour_distance a b /\ (colour_distance a b = 0 <-> rgb a = rgb b)).
  { intros a b. rewrite <- distance_spec. split; [apply distance_nonneg|].
    rewrite distance_zero. apply same_rgb. }
  split; [exact N|]. split; [|split; [exact D|]].
  - intros i H. destruct (nearest_some _ _ _ H) as (t & E & M). exists t. split; [exact E|].
    intros j t' Ej. rewrite <- !distance_spec. apply (M j t' Ej).
  - intros j t' Ej Hc. destruct (find_nearest_color_index c palette) as [i|] eqn:E.
    + destruct (nearest_some _ _ _ E) as (t & Et & M). exists i, t. split; [reflexivity|]. split; [exact Et|].
      specialize (M j t' Ej). rewrite !distance_spec in M.
      assert (Z0 : colour_distance c (t_color t') = 0) by (apply D; congruence).
      pose proof (D c (t_color t)) as [P Q]. symmetry. apply Q. lia.
    + destruct (proj1 N eq_refl j t' Ej).
Qed.

(** C42.  [order] is any enumeration of the different threads.  Equal colours get the same
    palette index, different colours different indexes, all indexes are palette positions. *)
Theorem C42_unique_palette : forall order palette threads,
  (length order <= usable palette)%nat ->
  (forall t, In t threads -> exists t', In t' order /\ rgb (t_color t') = rgb (t_color t)) ->
  length (build_unique_palette order palette threads) = length threads /\
  forall i j ti tj, nth_error threads i = Some ti -> nth_error threads j = Some tj ->
    exists pi pj, nth_error (build_unique_palette order palette threads) i = Some (Some pi) /\
      nth_error (build_unique_palette order palette threads) j = Some (Some pj) /\
      (pi < length palette)%nat /\ (pi = pj <-> rgb (t_color ti) = rgb (t_color tj)).
Proof.
  intros order palette threads Hu Hc.
  destruct (unique_palette order palette threads Hu) as [L H].
  { intros t Ht. destruct (Hc t Ht) as (t' & Hin & E). exists t'. split; [exact Hin|]. apply same_rgb. exact E. }
  split; [exact L|]. intros i j ti tj Ei Ej. destruct (H i j ti tj Ei Ej) as (pi & pj & A & B & C & D).
  exists pi, pj. rewrite <- same_rgb. auto.
Qed.

(** The count is needed: with one palette entry too few two colours collide. *)
Theorem C42_short_palette_refuted : exists order palette threads i j pi,
  length order = 2%nat /\ usable palette = 1%nat /\
  nth_error threads i = Some (plain_thread 0) /\ nth_error threads j = Some (plain_thread 0xFFFFFF) /\
  nth_error (build_unique_palette order palette threads) i = Some pi /\
  nth_error (build_unique_palette order palette threads) j = Some pi.
Proof.
  exists [plain_thread 0; plain_thread 0xFFFFFF], [Some (plain_thread 5)],
    [plain_thread 0; plain_thread 0xFFFFFF], 0%nat, 1%nat, (Some 0%nat).
  repeat split; vm_compute; reflexivity.
Qed.

Example C42_case :
  build_unique_palette [plain_thread 0x101010; plain_thread 0x111111]
    [Some (plain_thread 0); None; Some (plain_thread 0xFFFFFF); Some (plain_thread 0x80)]
    [plain_thread 0x111111; plain_thread 0x101010; plain_thread 0x111111]
  = [Some 3%nat; Some 0%nat; Some 3%nat].
Proof. vm_compute. reflexivity. Qed.

(** C43: with two usable entries the assignment succeeds, every thread gets an index and two
    neighbouring threads that differ get different indexes. *)
Theorem C43_nonrepeat_palette : forall palette threads, (2 <= usable palette)%nat ->
  exists idx, build_nonrepeat_palette palette threads = Ok idx /\ length idx = length threads /\
    (forall i, (i < length idx)%nat -> exists p, nth_error idx i = Some (Some p)) /\
    forall i t1 t2, nth_error threads i = Some t1 -> nth_error threads (S i) = Some t2 ->
      thread_eqb t1 t2 = false -> nth_error idx i <> nth_error idx (S i).
Proof.
  intros palette threads Hu. destruct (nonrepeat_palette palette threads Hu) as (idx & E & L & F & N).
  exists idx. split; [exact E|]. split; [exact L|]. split.
  - intros i Hi. destruct (nth_error idx i) as [[p|]|] eqn:Ei.
    + exists p. reflexivity.
    + apply nth_error_In in Ei. rewrite Forall_forall in F. elim (F _ Ei eq_refl).
    + apply nth_error_None in Ei. lia.
  - clear E F Hu. revert idx L N. induction threads as [|t threads IH]; intros idx L N i t1 t2 E1 E2 D.
    { destruct i; discriminate. }
    destruct idx as [|x idx]; [discriminate|]. destruct threads as [|t' threads].
    { destruct i; discriminate. }
    destruct idx as [|y idx]; [discriminate|]. cbn [no_repeat] in N. destruct N as [N0 N].
    destruct i as [|i].
    + cbn [nth_error] in *. injection E1 as <-. injection E2 as <-. intros H. injection H as H. elim (N0 D H).
    + cbn [nth_error] in E1. change (nth_error (x :: y :: idx) (S i)) with (nth_error (y :: idx) i).
      change (nth_error (x :: y :: idx) (S (S i))) with (nth_error (y :: idx) (S i)).
      apply (IH (y :: idx) ltac:(cbn [length] in *; lia) N i t1 t2 E1 E2 D).
Qed.

(** Threads of different colour are different threads, so the conclusion covers them. *)
Lemma thread_eqb_colour : forall a b, thread_eqb a b = true -> rgb (t_color a) = rgb (t_color b).
Proof.
  intros a b H. apply same_rgb. unfold thread_eqb in H. repeat (apply andb_prop in H; destruct H as [H ?]).
  apply Z.eqb_eq in H. exact H.
Qed.

Example C43_case :
  build_nonrepeat_palette [Some (plain_thread 0); Some (plain_thread 0xFFFFFF)]
    [plain_thread 1; plain_thread 2; plain_thread 2; plain_thread 1]
  = Ok [Some 0%nat; Some 1%nat; Some 0%nat; Some 1%nat].
Proof. vm_compute. reflexivity. Qed.

(** C54: a thread repeated without change should keep its palette index.  It does not: after an
    index was moved away from its predecessor's, the next equal thread falls back to the nearest
    entry. *)
Definition C54_claim : Prop := forall palette threads idx i t,
  (2 <= usable palette)%nat -> build_nonrepeat_palette palette threads = Ok idx ->
  nth_error threads i = Some t -> nth_error threads (S i) = Some t -> nth_error idx i = nth_error idx (S i).

Theorem C54_equal_threads_refuted : exists palette threads idx i t,
  (2 <= usable palette)%nat /\ build_nonrepeat_palette palette threads = Ok idx /\ nth_error threads i = Some t /\ nth_error threads (S i) = Some t /\ nth_error idx i <> nth_error idx (S i).
Proof.
  exists [Some (plain_thread 0); Some (plain_thread 0xFFFFFF)],
    [plain_thread 1; plain_thread 2; plain_thread 2],
    [Some 0%nat; Some 1%nat; Some 0%nat], 1%nat, (plain_thread 2).
  split; [vm_compute; lia|]. repeat split; try (vm_compute; reflexivity). vm_compute. discriminate.
Qed.

Theorem C54_claim_false : ~ C54_claim.
Proof.
  intros H. destruct C54_equal_threads_refuted as (p & th & ix & i & t & A & B & C & D & E).
  exact (E (H p th ix i t A B C D)).
Qed.

(** What does hold: without a neighbouring pair of different threads that share their nearest
    entry, the assignment is the plain nearest-colour one, so equal threads keep their index. *)
Fixpoint no_clash (palette : list (option thread)) (threads : list thread) : Prop :=
  match threads with
  | t1 :: ((t2 :: _) as r) =>
      (thread_eqb t1 t2 = false ->
       find_nearest_color_index (t_color t1) palette <> find_nearest_color_index (t_color t2) palette)
      /\ no_clash palette r
  | _ => True
  end.

Theorem C54_equal_threads_partial : forall palette threads,
  (1 <= usable palette)%nat -> no_clash palette threads ->
  build_nonrepeat_palette palette threads = Ok (build_palette palette threads).
Proof.
  intros palette threads Hu H. unfold build_nonrepeat_palette.
  assert (S : forall threads t, no_clash palette (t :: threads) ->
     nonrepeat_loop palette (find_nearest_color_index (t_color t) palette) (Some t) threads
     = Ok (build_palette palette threads)).
  { clear threads H. induction threads as [|t2 threads IH]; intros t H; [reflexivity|].
    cbn [no_clash] in H. destruct H as [H0 H]. cbn [nonrepeat_loop].
    destruct (thread_eqb t t2) eqn:E.
    - cbn [negb]. rewrite andb_false_r. rewrite (IH t2 H). reflexivity.
    - specialize (H0 eq_refl). rewrite andb_true_r.
      destruct (oidx_eqb _ _) eqn:O.
      + exfalso. apply H0. unfold oidx_eqb in O.
        destruct (find_nearest_color_index (t_color t) palette), (find_nearest_color_index (t_color t2) palette);
          try discriminate; [|reflexivity]. apply Nat.eqb_eq in O. congruence.
      + rewrite (IH t2 H). reflexivity. }
  destruct threads as [|t threads]; [reflexivity|]. cbn [nonrepeat_loop].
  destruct (usable_some palette (t_color t) ltac:(lia)) as [i Ei].
  rewrite Ei. cbn [oidx_eqb andb]. rewrite <- Ei at 1. rewrite (S threads t H). cbn [bindr build_palette map].
  rewrite Ei. reflexivity.
Qed.

(** C44: formatting and parsing keep the components, for every integer taken as a colour. *)
Theorem C44_hex_colour : forall c, exists c',
  color_hex (hex_color c) = Ok (Some c') /\ rgb c' = rgb c /\ 0 <= c' < 16777216 /\
  (0 <= c < 16777216 -> c' = c).
Proof.
  intros c. exists (Z.land c 0xFFFFFF). split; [apply hex_round_trip|].
  rewrite BitLemmas.land_ffffff. unfold rgb. split; [f_equal; [f_equal|]; lia|]. lia.
Qed.

Example C44_case : hex_color 0xA0B1C2 = [35; 97; 48; 98; 49; 99; 50]
  /\ color_hex [35; 70; 48; 99] = Ok (Some 0xFF00CC).
Proof. split; vm_compute; reflexivity. Qed.

Print Assumptions C41_nearest_minimum.
Print Assumptions C42_unique_palette.
Print Assumptions C42_short_palette_refuted.
Print Assumptions C43_nonrepeat_palette.
Print Assumptions C44_hex_colour.
Print Assumptions C54_equal_threads_refuted.
Print Assumptions C54_equal_threads_partial.
