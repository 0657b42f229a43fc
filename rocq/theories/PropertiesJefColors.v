(** Properties C150 and C151: the colours of a JEF file. *)
From Coq Require Import Ascii String ZArith QArith List Bool Lia.
From Verif Require Import PyBase EmbConst StreamModel ThreadModel ThreadProofs PropertiesThread TextModel NumModel NumQ MatrixModel EncoderModel
  EncoderSpec EncoderColorSpec MetricSpec QuantModel JefModel JefThreads PropertiesEncoder SettingsModel PropertiesPipeline FidelitySpec
  PropertiesFidelity BlockFileSpec PropertiesBlockFiles.
Import ListNotations.
Open Scope Z_scope.

(** [u] is a thread of the table [l] and no thread of [l] is nearer to [t]. *)
Definition closest (l : list (option thread)) (t u : thread) : Prop :=
  In (Some u) l /\ forall v, In (Some v) l -> colour_distance (t_color t) (t_color u) <= colour_distance (t_color t) (t_color v).
(** The table without [w]. *)
Definition others (w : thread) : list (option thread) :=
  filter (fun o => match o with Some v => negb (t_color v =? t_color w) | None => true end) jef_threads.

(** The colours [us] a JEF file has for the threads [ts]: of each thread the closest in the table, or, where the
    block before has that and another thread, the closest of the others. *)
Record jef_colours (ts us : list thread) : Prop := {
  jc_length : List.length us = List.length ts;
  jc_closest : forall k t u, nth_error ts k = Some t -> nth_error us k = Some u ->
    closest jef_threads t u \/
    exists j t' u', k = S j /\ nth_error ts j = Some t' /\ nth_error us j = Some u' /\ thread_eqb t' t = false /\
      closest jef_threads t u' /\ closest (others u') t u;
  jc_differ : forall k t t' u u', nth_error ts k = Some t -> nth_error ts (S k) = Some t' -> thread_eqb t t' = false ->
    nth_error us k = Some u -> nth_error us (S k) = Some u' -> rgb (t_color u) <> rgb (t_color u');
  (** A thread of a colour in the table keeps its colour, unless the block before has that colour and another thread. *)
  jc_kept : forall k t u v, nth_error ts k = Some t -> nth_error us k = Some u -> In (Some v) jef_threads -> rgb (t_color v) = rgb (t_color t) ->
    (forall j t' u', k = S j -> nth_error ts j = Some t' -> nth_error us j = Some u' -> thread_eqb t' t = true \/ rgb (t_color u') <> rgb (t_color t)) ->
    u = v }.

(** ** The table *)
Lemma table_entries : List.length jef_threads = 79%nat /\ forall i u, nth_error jef_threads i = Some (Some u) -> (1 <= i <= 78)%nat.
Proof.
  split; [reflexivity|]. intros i u H. assert (L : (i < 79)%nat) by (apply (nth_error_Some jef_threads); congruence).
  destruct i; [discriminate H|lia].
Qed.
Lemma table_colours : NoDup (map (fun o => match o with Some t => t_color t | None => -1 end) jef_threads).
Proof.
  assert (G : forall l, forallb (fun i => negb (existsb (Z.eqb (nth i l 0)) (skipn (S i) l))) (seq 0 (List.length l)) = true -> NoDup l).
  { induction l as [|a l IH]; intros H; [constructor|]. cbn [List.length seq forallb] in H. apply andb_true_iff in H. destruct H as [H1 H2].
    constructor.
    - intros I. cbn [nth skipn] in H1. apply negb_true_iff in H1. assert (X : existsb (Z.eqb a) l = true); [|congruence].
      apply existsb_exists. exists a. split; [exact I|apply Z.eqb_refl].
    - apply IH. rewrite <- seq_shift, forallb_forall in H2. apply forallb_forall. intros i Ii. specialize (H2 (S i) (in_map S _ _ Ii)). exact H2. }
  apply G. vm_compute. reflexivity.
Qed.
Lemma table_small : forall u, In (Some u) jef_threads -> 0 <= t_color u < 2 ^ 24.
Proof.
  assert (H : forallb (fun o => match o with Some t => (0 <=? t_color t) && (t_color t <? 2 ^ 24) | None => true end) jef_threads = true) by (vm_compute; reflexivity).
  intros u Iu. rewrite forallb_forall in H. specialize (H _ Iu). cbn in H. lia.
Qed.

Lemma table_same : forall u v, In (Some u) jef_threads -> In (Some v) jef_threads -> t_color u = t_color v -> u = v.
Proof.
  intros u v Iu Iv E. apply In_nth_error in Iu. apply In_nth_error in Iv. destruct Iu as [i Hi]. destruct Iv as [j Hj].
  pose proof table_colours as N. rewrite NoDup_nth_error in N.
  assert (X : i = j); [|congruence]. apply N.
  - rewrite map_length. apply nth_error_Some. congruence.
  - rewrite !nth_error_map, Hi, Hj. cbn. rewrite E. reflexivity.
Qed.
Lemma table_rgb : forall u v, In (Some u) jef_threads -> In (Some v) jef_threads -> rgb (t_color u) = rgb (t_color v) -> u = v.
Proof.
  intros u v Iu Iv E. apply table_same; [exact Iu|exact Iv|]. pose proof (table_small u Iu). pose proof (table_small v Iv).
  unfold rgb in E. injection E as E1 E2 E3. change (2 ^ 24) with 16777216 in *. Z.div_mod_to_equations. lia.
Qed.

Lemma set_none_in : forall A i (l : list (option A)) v, In (Some v) (set_nth i None l) <-> exists j, j <> i /\ nth_error l j = Some (Some v).
Proof.
  intros A. induction i as [|i IH]; intros [|a l] v; cbn [set_nth].
  - split; [intros []|intros (j & _ & H); destruct j; discriminate].
  - split.
    + intros [H|H]; [discriminate|]. apply In_nth_error in H. destruct H as [j H]. exists (S j). split; [lia|exact H].
    + intros (j & Hj & H). destruct j; [congruence|]. right. exact (nth_error_In l j H).
  - split; [intros []|intros (j & _ & H); destruct j; discriminate].
  - split.
    + intros [H|H]; [exists O; split; [lia|cbn; congruence]|]. apply IH in H. destruct H as (j & Hj & H). exists (S j). split; [lia|exact H].
    + intros (j & Hj & H). destruct j; [left; cbn in H; congruence|]. right. apply IH. exists j. split; [lia|exact H].
Qed.
Lemma set_none_nth : forall A i (l : list (option A)) j v, nth_error (set_nth i None l) j = Some (Some v) -> j <> i /\ nth_error l j = Some (Some v).
Proof.
  intros A. induction i as [|i IH]; intros [|a l] j v; cbn [set_nth].
  - destruct j; discriminate.
  - destruct j; [discriminate|]. cbn. auto.
  - destruct j; discriminate.
  - destruct j; [cbn; auto|]. cbn [nth_error]. intros H. apply IH in H. destruct H. split; [lia|assumption].
Qed.
Lemma others_in : forall i w, nth_error jef_threads i = Some (Some w) -> forall v,
  In (Some v) (set_nth i None jef_threads) <-> In (Some v) (others w).
Proof.
  intros i w Hi v. rewrite set_none_in. unfold others. rewrite filter_In. split.
  - intros (j & Hj & H). split; [exact (nth_error_In _ _ H)|]. apply negb_true_iff, Z.eqb_neq. intros E. apply Hj.
    pose proof table_colours as N. rewrite NoDup_nth_error in N. apply N.
    + rewrite map_length. apply nth_error_Some. congruence.
    + rewrite !nth_error_map, Hi, H. cbn. rewrite E. reflexivity.
  - intros [H1 H2]. apply In_nth_error in H1. destruct H1 as [j H1]. exists j. split; [|exact H1]. intros ->.
    rewrite Hi in H1. injection H1 as ->. rewrite Z.eqb_refl in H2. discriminate.
Qed.

Lemma nearest_closest : forall t l i, find_nearest_color_index (t_color t) l = Some i ->
  exists u, nth_error l i = Some (Some u) /\ closest l t u.
Proof.
  intros t l i H. destruct (proj1 (proj2 (C41_nearest_minimum (t_color t) l)) i H) as (u & Eu & M). exists u. split; [exact Eu|].
  split; [exact (nth_error_In _ _ Eu)|]. intros v Iv. apply In_nth_error in Iv. destruct Iv as [j Ij]. exact (M j v Ij).
Qed.
Lemma near_spec : forall t, exists i u, jef_near t = Z.of_nat i /\ nth_error jef_threads i = Some (Some u) /\ closest jef_threads t u.
Proof.
  intros t. unfold jef_near. destruct (find_nearest_color_index (t_color t) jef_threads) as [i|] eqn:E.
  - destruct (nearest_closest _ _ _ E) as (u & H1 & H2). eauto.
  - exfalso. apply (proj1 (proj1 (C41_nearest_minimum (t_color t) jef_threads)) E 1%nat (mkT 0x000000 (Some (text_of "Black")) (Some (text_of "002")) None (Some (text_of "Jef")) (Some (text_of "Jef")) None)). reflexivity.
Qed.
Lemma near2_spec : forall t n, exists j u, jef_near2 t n = Z.of_nat j /\ nth_error jef_threads j = Some (Some u) /\ j <> Z.to_nat n /\
  closest (set_nth (Z.to_nat n) None jef_threads) t u.
Proof.
  intros t n. unfold jef_near2. destruct (find_nearest_color_index (t_color t) (set_nth (Z.to_nat n) None jef_threads)) as [i|] eqn:E.
  - destruct (nearest_closest _ _ _ E) as (u & H1 & H2). apply set_none_nth in H1. destruct H1 as [H0 H1]. exists i, u. auto.
  - exfalso. pose proof (proj1 (proj1 (C41_nearest_minimum (t_color t) (set_nth (Z.to_nat n) None jef_threads))) E) as H.
    assert (X : exists v, In (Some v) (set_nth (Z.to_nat n) None jef_threads)).
    { destruct (Nat.eq_dec 1 (Z.to_nat n)) as [e|e]; eexists; apply set_none_in; [exists 2%nat|exists 1%nat]; (split; [lia|reflexivity]). }
    destruct X as [v Iv]. apply In_nth_error in Iv. destruct Iv as [j Ij]. exact (H j v Ij).
Qed.
Lemma thread_of_entry : forall missing i u, nth_error jef_threads i = Some (Some u) -> jef_thread_of missing (Z.of_nat i) = u.
Proof.
  intros missing i u H. destruct table_entries as [L B]. specialize (B i u H). unfold jef_thread_of.
  rewrite L. rewrite Z.mod_small by lia. rewrite Nat2Z.id. rewrite (nth_error_nth _ _ None H). reflexivity.
Qed.

Local Opaque jef_threads jef_near jef_near2 jef_thread_of thread_eqb colour_distance rgb.
(** ** The numbers *)
Lemma numbers_nth : forall T teq (near : T -> Z) near2 last ts numbers, jef_numbers teq near near2 last ts numbers ->
  List.length numbers = List.length ts /\
  forall k t i, nth_error ts k = Some t -> nth_error numbers k = Some i ->
    i = match (match k with O => last | S j => match nth_error numbers j, nth_error ts j with Some n, Some u => Some (n, u) | _, _ => None end end) with
        | Some (n, u) => if (n =? near t) && negb (teq u t) then near2 t (near t) else near t
        | None => near t
        end.
Proof.
  intros T teq near near2 last ts numbers H. induction H as [|last t ts i r Hi H [IL IH]]; [split; [reflexivity|intros [|k]; discriminate]|].
  split; [cbn [List.length]; congruence|]. intros [|k] t' i' Ht Hi'; cbn [nth_error] in Ht, Hi'.
  - injection Ht as <-. injection Hi' as <-. exact Hi.
  - rewrite (IH k t' i' Ht Hi'). destruct k as [|k]; reflexivity.
Qed.

Lemma numbers_colours : forall missing ts numbers, jef_numbers thread_eqb jef_near jef_near2 None ts numbers ->
  jef_colours ts (map (jef_thread_of missing) numbers).
Proof.
  intros missing ts numbers H. destruct (numbers_nth _ _ _ _ _ _ _ H) as [L G].
  (* each number is the index of an entry, chosen as said *)
  assert (P : forall k t i, nth_error ts k = Some t -> nth_error numbers k = Some i ->
     exists n u, i = Z.of_nat n /\ nth_error jef_threads n = Some (Some u)).
  { intros k t i Ht Hi. rewrite (G k t i Ht Hi).
    destruct (near_spec t) as (n & u & E & Eu & _). destruct (near2_spec t (jef_near t)) as (n2 & u2 & E2 & Eu2 & _).
    destruct (match k with O => _ | S _ => _ end) as [[a b]|]; [destruct ((a =? jef_near t) && negb (thread_eqb b t))|]; eauto. }
  assert (Back : forall k u, nth_error (map (jef_thread_of missing) numbers) k = Some u -> exists i, nth_error numbers k = Some i /\ jef_thread_of missing i = u).
  { intros k u Hu. rewrite nth_error_map in Hu. destruct (nth_error numbers k) as [i|]; [|discriminate]. exists i. split; [reflexivity|]. cbn [option_map] in Hu. injection Hu as Hu. exact Hu. }
  assert (C : forall k t u, nth_error ts k = Some t -> nth_error (map (jef_thread_of missing) numbers) k = Some u ->
    (closest jef_threads t u /\ forall j t' u', k = S j -> nth_error ts j = Some t' -> nth_error (map (jef_thread_of missing) numbers) j = Some u' ->
        thread_eqb t' t = false -> u' <> u) \/
    exists j t' u', k = S j /\ nth_error ts j = Some t' /\ nth_error (map (jef_thread_of missing) numbers) j = Some u' /\ thread_eqb t' t = false /\
      closest jef_threads t u' /\ closest (others u') t u).
  { intros k t u Ht Hu. destruct (Back k u Hu) as (i & Hi & Eu). pose proof (G k t i Ht Hi) as Gi.
    destruct (near_spec t) as (n & w & En & Ew & Cw).
    destruct k as [|j]; [left; split; [|discriminate]; subst i; rewrite En, (thread_of_entry _ _ _ Ew) in Eu; subst u; exact Cw|].
    assert (Lj : exists t' i', nth_error ts j = Some t' /\ nth_error numbers j = Some i').
    { assert (j < List.length ts)%nat by (assert (S j < List.length ts)%nat by (apply nth_error_Some; congruence); lia).
      destruct (nth_error ts j) as [t'|] eqn:Et; [|apply nth_error_None in Et; lia].
      destruct (nth_error numbers j) as [i'|] eqn:Ei; [|apply nth_error_None in Ei; lia]. eauto. }
    destruct Lj as (t' & i' & Ht' & Hi'). rewrite Ht', Hi' in Gi. destruct (P j t' i' Ht' Hi') as (m & u' & Em & Eu').
    assert (Hu' : nth_error (map (jef_thread_of missing) numbers) j = Some u') by (rewrite nth_error_map, Hi', Em; cbn; rewrite (thread_of_entry _ _ _ Eu'); reflexivity).
    destruct (Z.eqb_spec i' (jef_near t)) as [Ei|Ei]; [destruct (thread_eqb t' t) eqn:Et|]; cbn [andb negb] in Gi.
    - left. rewrite Gi, En, (thread_of_entry _ _ _ Ew) in Eu. subst u. split; [exact Cw|]. intros j0 t0 u0 Ej T0 U0 F0. exfalso. injection Ej as <-. rewrite Ht' in T0. injection T0 as <-. rewrite Et in F0. discriminate.
    - right. exists j, t', u'. split; [reflexivity|]. split; [exact Ht'|]. split; [exact Hu'|]. split; [exact Et|].
      assert (m = n) by lia. subst m. rewrite Eu' in Ew. injection Ew as <-. split; [exact Cw|].
      destruct (near2_spec t (jef_near t)) as (n2 & u2 & E2 & Eu2 & _ & [I2 C2]). rewrite Gi, E2, (thread_of_entry _ _ _ Eu2) in Eu. subst u2.
      rewrite En, Nat2Z.id in I2, C2. split; [apply (others_in n u' Eu'); exact I2|]. intros v Iv. apply C2. apply (others_in n u' Eu'). exact Iv.
    - left. rewrite Gi, En, (thread_of_entry _ _ _ Ew) in Eu. subst u. split; [exact Cw|]. intros j0 t0 u0 Ej T0 U0 F0 X. injection Ej as <-.
      rewrite Hu' in U0. injection U0 as <-. subst u'. apply Ei. rewrite Em, En. f_equal.
      pose proof table_colours as ND. rewrite NoDup_nth_error in ND. apply ND.
      + rewrite map_length. apply nth_error_Some. congruence.
      + rewrite !nth_error_map, Eu', Ew. reflexivity. }
  constructor.
  - rewrite map_length. exact L.
  - intros k t u Ht Hu. destruct (C k t u Ht Hu) as [[A _]|A]; [left; exact A|right; exact A].
  - intros k t t' u u' Ht Ht' He Hu Hu' X.
    assert (In (Some u) jef_threads /\ In (Some u') jef_threads) as [Iu Iu'].
    { destruct (Back k u Hu) as (i & Hi & <-). destruct (P k t i Ht Hi) as (n & w & -> & Ew). destruct (Back (S k) u' Hu') as (i' & Hi' & <-).
      destruct (P (S k) t' i' Ht' Hi') as (n' & w' & -> & Ew'). rewrite (thread_of_entry _ _ _ Ew), (thread_of_entry _ _ _ Ew').
      split; eapply nth_error_In; eassumption. }
    pose proof (table_rgb u u' Iu Iu' X) as Y. subst u'.
    destruct (C (S k) t' u Ht' Hu') as [[_ A]|(j & t0 & u0 & Ej & T0 & U0 & _ & _ & [A _])].
    + exact (A k t u eq_refl Ht Hu He eq_refl).
    + injection Ej as <-. rewrite Hu in U0. injection U0 as <-. unfold others in A. rewrite filter_In, Z.eqb_refl in A. destruct A. discriminate.
  - intros k t u v Ht Hu Iv Ev Hp.
    assert (D : forall a b, 0 <= colour_distance a b /\ (colour_distance a b = 0 <-> rgb a = rgb b)) by exact (proj1 (proj2 (proj2 (C41_nearest_minimum 0 [])))).
    assert (Cl : forall w, closest jef_threads t w -> w = v).
    { intros w [Iw Mw]. apply table_rgb; [exact Iw|exact Iv|]. specialize (Mw v Iv).
      assert (colour_distance (t_color t) (t_color v) = 0) by (apply D; congruence).
      pose proof (D (t_color t) (t_color w)) as [D1 D2]. rewrite Ev. symmetry. apply D2. lia. }
    destruct (C k t u Ht Hu) as [[A _]|(j & t' & u' & Ej & Ht' & Hu' & Et & Cu & _)]; [exact (Cl u A)|].
    exfalso. specialize (Cl u' Cu). subst u'. destruct (Hp j t' v Ej Ht' Hu') as [X|X]; congruence.
Qed.

(** ** C150: the colours of a JEF file *)
Definition own (missing : thread) (r : tref) : thread := match r with Own t => t | Filler => missing end.
Lemma numbers_own : forall missing ts last numbers,
  jef_numbers (fun a b => thread_eqb (own missing a) (own missing b)) (fun r => jef_near (own missing r)) (fun r => jef_near2 (own missing r))
    (option_map (fun nu => (fst nu, Own (snd nu))) last) (map Own ts) numbers ->
  jef_numbers thread_eqb jef_near jef_near2 last ts numbers.
Proof.
  intros missing. induction ts as [|t ts IH]; intros last numbers H; inversion H as [|? ? ? i r Hi Hr]; subst; [constructor|].
  constructor; [destruct last as [[n u]|]; reflexivity|]. apply IH. destruct last as [[n u]|]; exact Hr.
Qed.

Section Files.
Variables (qcos qsin : Q -> Q) (qorient : Q -> Q -> Q -> Q -> Q -> Q * Q).
Notation N := (QNum qcos qsin qorient).
Hypothesis (Hturn : forall t, ~ (qcos t * qcos t + qsin t * qsin t == 0)%Q) (Hdir : direction_bounded qorient).

Theorem C150_jef_colours : forall missing set blocks ends trims m date w h hw hh,
  fitting qcos qsin qorient 127 set -> no_sequins qcos qsin qorient set -> design_ok blocks ends -> Z.of_nat (List.length blocks) < 2 ^ 27 ->
  List.length date = 14%nat ->
  exists out file l us, transcode N set (block_design qcos qsin qorient blocks ends) = Ok (out, map Own (map snd blocks)) /\
    jef_write qz_q (fun a b => thread_eqb (own missing a) (own missing b)) (fun r => jef_near (own missing r)) (fun r => jef_near2 (own missing r))
      trims m date w h hw hh (map Own (map snd blocks)) out = Ok file /\
    jef_read (fun i => Own (jef_thread_of missing i)) file = Ok (l, map (fun u => Some (Own u)) us) /\
    blocks_kept (map fst blocks) l /\ jef_colours (map snd blocks) us.
Proof.
  intros missing set blocks ends trims m date w h hw hh F Hq D Lb Hd.
  destruct (C149_jef qcos qsin qorient Hturn Hdir set blocks ends (fun a b => thread_eqb (own missing a) (own missing b)) (fun r => jef_near (own missing r))
    (fun r => jef_near2 (own missing r)) (fun i => Own (jef_thread_of missing i)) trims m date w h hw hh F Hq D Lb)
    as (out & file & l & numbers & E & W & R & J & K & _); [| |exact Hd|].
  - intros t. destruct (near_spec (own missing t)) as (i & u & -> & Eu & _). apply table_entries in Eu. change (2 ^ 32) with 4294967296. lia.
  - intros t i. destruct (near2_spec (own missing t) i) as (j & u & -> & Eu & _). apply table_entries in Eu. change (2 ^ 32) with 4294967296. lia.
  - exists out, file, l, (map (jef_thread_of missing) numbers). split; [exact E|]. split; [exact W|]. split; [rewrite map_map; exact R|].
    split; [exact K|]. apply numbers_colours. apply (numbers_own missing _ None). exact J.
Qed.
End Files.
Print Assumptions C150_jef_colours.

(** ** C151: one thread, one colour *)
(** False: of three blocks, the last two sewn with the same thread, the last two come back in different colours. *)
Local Transparent jef_threads jef_near jef_near2 jef_thread_of thread_eqb colour_distance rgb.
Definition c151_blocks : list (list (stitch Q) * thread) :=
  [([st_at 0 0 STITCH; st_at 20 0 STITCH], plain_thread 0xFF0000); ([st_at 20 20 STITCH], plain_thread 0xFE0000); ([st_at 0 20 STITCH], plain_thread 0xFE0000)].
Definition c151_date : list Z := repeat 48 14.
Definition c151_loaded (blocks : list (list (stitch Q) * thread)) : list Z :=
  let missing := plain_thread 0 in
  match transcode ExNum (c116_set (jef_attributes ExNum inject_Z)) (block_design ex_cos ex_sin ex_orient blocks []) with
  | Ok (out, threads) =>
      match jef_write qz_q (fun a b => thread_eqb (own missing a) (own missing b)) (fun r => jef_near (own missing r)) (fun r => jef_near2 (own missing r))
              true 3 c151_date 20 20 10 10 threads out with
      | Ok file => match jef_read (fun i => Own (jef_thread_of missing i)) file with
                   | Ok (_, us) => map (fun u => match u with Some (Own u) => t_color u | _ => -1 end) us
                   | Err _ => [] end
      | Err _ => []
      end
  | Err _ => []
  end.
Theorem C151_same_thread_refuted : exists blocks, design_ok blocks [] /\
  exists t, nth_error (map snd blocks) 1 = Some t /\ nth_error (map snd blocks) 2 = Some t /\
  exists a b, nth_error (c151_loaded blocks) 1 = Some a /\ nth_error (c151_loaded blocks) 2 = Some b /\ a <> b.
Proof.
  exists c151_blocks. split.
  - split; [discriminate|]. split; [|constructor].
    repeat (apply Forall_cons; [split; [repeat (apply Forall_cons; [left; reflexivity|]); apply Forall_nil|eexists; split; [left; reflexivity|reflexivity]]|]).
    apply Forall_nil.
  - exists (plain_thread 0xFE0000). split; [reflexivity|]. split; [reflexivity|].
    exists 15741727, 16711680. split; [vm_compute; reflexivity|]. split; [vm_compute; reflexivity|discriminate].
Qed.
Print Assumptions C151_same_thread_refuted.

(** It holds if all the colours are in the table and neighbouring blocks of different threads have different colours:
    then every block keeps its colour. *)
Local Opaque jef_threads jef_near jef_near2 jef_thread_of thread_eqb colour_distance rgb.
Theorem C151_same_thread_partial : forall ts us, jef_colours ts us ->
  Forall (fun t => exists v, In (Some v) jef_threads /\ rgb (t_color v) = rgb (t_color t)) ts ->
  (forall k t t', nth_error ts k = Some t -> nth_error ts (S k) = Some t' -> thread_eqb t t' = true \/ rgb (t_color t) <> rgb (t_color t')) ->
  forall k t u, nth_error ts k = Some t -> nth_error us k = Some u -> rgb (t_color u) = rgb (t_color t).
Proof.
  intros ts us J T H. rewrite Forall_forall in T. induction k as [|k IH]; intros t u Ht Hu; destruct (T t (nth_error_In _ _ Ht)) as (v & Iv & Ev).
  - rewrite <- Ev. f_equal. f_equal. apply (jc_kept _ _ J 0%nat t u v Ht Hu Iv Ev). intros j ? ? E. discriminate E.
  - rewrite <- Ev. f_equal. f_equal. apply (jc_kept _ _ J (S k) t u v Ht Hu Iv Ev). intros j t' u' E Ht' Hu'. injection E as <-.
    destruct (H k t' t Ht' Ht) as [A|A]; [left; exact A|right]. rewrite (IH t' u' Ht' Hu'). exact A.
Qed.
Print Assumptions C151_same_thread_partial.
Local Transparent jef_threads jef_near jef_near2 jef_thread_of thread_eqb colour_distance rgb.

(** Red, a colour near red, then olive green from the table. *)
Example C150_case : design_ok c151_blocks [] /\ c151_loaded c151_blocks = [0xFF0000; 0xF0331F; 0xFF0000] /\
  c151_loaded (map (fun bt => (fst (fst bt), plain_thread (snd bt))) (combine c151_blocks [0xFF0000; 0x237336; 0x237336])) = [0xFF0000; 0x237336; 0x237336].
Proof.
  split; [|split; vm_compute; reflexivity].
  split; [discriminate|]. split; [|constructor].
  repeat (apply Forall_cons; [split; [repeat (apply Forall_cons; [left; reflexivity|]); apply Forall_nil|eexists; split; [left; reflexivity|reflexivity]]|]).
  apply Forall_nil.
Qed.
