From Coq Require Import ZArith List Bool Lia.
From Verif Require Import PyBase EmbConst StreamModel DstModel BitLemmas StreamSpec StreamProofs DstSpec DstProofs.
Import ListNotations.
Open Scope Z_scope.

(** Event-level well-formedness. *)
Fixpoint ev_ok (sq : bool) (l : list rel) : Prop :=
  match l with
  | [] => True
  | e :: r =>
      let c := cmd_of (scmd e) in
      (   c = STITCH /\ -121 <= sx e <= 121 /\ -121 <= sy e <= 121
       \/ c = JUMP /\ sq = false /\ -121 <= sx e <= 121 /\ -121 <= sy e <= 121
       \/ c = SEQUIN_EJECT /\ sq = true /\ -121 <= sx e <= 121 /\ -121 <= sy e <= 121
       \/ (c = COLOR_CHANGE \/ c = STOP \/ c = SEQUIN_MODE \/ c = END
           \/ c = TRIM /\ sq = false) /\ sx e = 0 /\ sy e = 0)
      /\ ev_ok (if c =? SEQUIN_MODE then negb sq else sq) r
  end.

Fixpoint ev_view (t : Z) (l : list rel) : list rel :=
  match l with
  | [] => []
  | e :: r =>
      (if cmd_of (scmd e) =? TRIM then trim_events t
       else [mkS (sx e) (sy e) (dst_name (scmd e))]) ++ ev_view t r
  end.

Lemma dst_emit_read : forall t sq e r,
  ev_ok sq (e :: nil) -> 
  exists bs, dst_emit t e = Ok bs /\ bytes_ok bs /\
    (exists k, length bs = (3 * k)%nat) /\
    dst_read_loop sq (bs ++ r) =
      if cmd_of (scmd e) =? END then []
      else ev_view t [e] ++ dst_read_loop (if cmd_of (scmd e) =? SEQUIN_MODE then negb sq else sq) r.
Proof.
  intros t sq e r [H _]. unfold dst_emit. set (c := cmd_of (scmd e)) in *.
  cbn [ev_view]. fold c. unfold dst_name. fold c. rewrite app_nil_r.
  destruct H as [[Hc [Hx Hy]]|[[Hc [Hs [Hx Hy]]]|[[Hc [Hs [Hx Hy]]]|[Hc [Hx Hy]]]]].
  - rewrite Hc.
    destruct (encode_record_ok (sx e) (sy e) STITCH eq_refl Hx Hy)
      as (b0 & b1 & b2 & E & B0 & B1 & B2 & Dx & Dy & K).
    change (STITCH =? TRIM) with false. cbn iota. exists [b0; b1; b2].
    split; [exact E|]. split; [repeat (apply Forall_cons; [assumption|]); apply Forall_nil|].
    split; [exists 1%nat; reflexivity|].
    cbn [app dst_read_loop]. rewrite Dx, Dy, K. reflexivity.
  - rewrite Hc.
    destruct (encode_record_ok (sx e) (sy e) JUMP eq_refl Hx Hy)
      as (b0 & b1 & b2 & E & B0 & B1 & B2 & Dx & Dy & K).
    change (JUMP =? TRIM) with false. cbn iota. exists [b0; b1; b2].
    split; [exact E|]. split; [repeat (apply Forall_cons; [assumption|]); apply Forall_nil|].
    split; [exists 1%nat; reflexivity|].
    cbn [app dst_read_loop]. rewrite Dx, Dy, K. subst sq. reflexivity.
  - rewrite Hc.
    destruct (encode_record_ok (sx e) (sy e) SEQUIN_EJECT eq_refl Hx Hy)
      as (b0 & b1 & b2 & E & B0 & B1 & B2 & Dx & Dy & K).
    change (SEQUIN_EJECT =? TRIM) with false. cbn iota. exists [b0; b1; b2].
    split; [exact E|]. split; [repeat (apply Forall_cons; [assumption|]); apply Forall_nil|].
    split; [exists 1%nat; reflexivity|].
    cbn [app dst_read_loop]. rewrite Dx, Dy, K. subst sq. reflexivity.
  - destruct Hc as [Hc|[Hc|[Hc|[Hc|[Hc Hs]]]]]; rewrite Hc; try rewrite Hx, Hy.
    5:{ change (TRIM =? TRIM) with true. cbn iota. subst sq.
        destruct (dst_trim_ok t) as (bs & E & B & L & R). exists bs.
        split; [exact E|]. split; [exact B|]. split; [eexists; exact L|]. rewrite R. reflexivity. }
    all: eexists; split; [reflexivity|]; split;
      [unfold bytes_ok; repeat (apply Forall_cons; [unfold byte_ok; lia|]); apply Forall_nil|];
      split; [exists 1%nat; reflexivity|]; reflexivity.
Qed.

Lemma before_end_cons_ne : forall (e : rel) l, (cmd_of (scmd e) =? END) = false ->
  before_end (e :: l) = e :: before_end l.
Proof. intros e l H. cbn [before_end]. rewrite H. reflexivity. Qed.

Lemma dst_events_roundtrip : forall t l sq, ev_ok sq l ->
  exists bs, emit_all (dst_emit t) l = Ok bs /\ bytes_ok bs /\
    (exists k, length bs = (3 * k)%nat) /\
    forall r, dst_read_loop sq (bs ++ r) =
      if existsb (fun e => cmd_of (scmd e) =? END) l then ev_view t (before_end l)
      else ev_view t l ++ dst_read_loop
        (fold_left (fun q e => if cmd_of (scmd e) =? SEQUIN_MODE then negb q else q) l sq) r.
Proof.
  intros t. induction l as [|e l IH]; intros sq H.
  - exists []. cbn. split; [reflexivity|]. split; [constructor|]. split; [exists 0%nat; reflexivity|]. reflexivity.
  - destruct H as [He Hl]. destruct (IH _ Hl) as (bs & E & B & [k L] & R).
    destruct (dst_emit_read t sq e bs (conj He I)) as (hs & Eh & Bh & [kh Lh] & _).
    exists (hs ++ bs). cbn [emit_all]. rewrite Eh. cbn [bindr]. rewrite E. cbn [bindr].
    split; [reflexivity|]. split; [apply Forall_app; split; assumption|].
    split; [exists (kh + k)%nat; rewrite app_length; lia|].
    intros r. rewrite <- app_assoc.
    destruct (dst_emit_read t sq e (bs ++ r) (conj He I)) as (hs' & Eh' & _ & _ & Rh).
    rewrite Eh in Eh'. injection Eh' as <-. rewrite Rh. cbn [existsb before_end fold_left].
    destruct (cmd_of (scmd e) =? END) eqn:Ee.
    + reflexivity.
    + cbn [orb]. rewrite R. cbn [ev_view]. rewrite app_nil_r.
      destruct (existsb (fun e0 : rel => cmd_of (scmd e0) =? END) l).
      * cbn [ev_view]. reflexivity.
      * rewrite <- app_assoc. reflexivity.
Qed.

Lemma before_end_none : forall (l : list rel),
  existsb (fun e => cmd_of (scmd e) =? END) l = false -> before_end l = l.
Proof.
  induction l as [|e l IH]; cbn [existsb before_end]; [reflexivity|].
  intros H. apply orb_false_elim in H. destruct H as [He Hl]. rewrite He, IH by exact Hl. reflexivity.
Qed.

Lemma dst_events_read : forall t l, ev_ok false l ->
  exists bs, emit_all (dst_emit t) l = Ok bs /\ bytes_ok bs /\
    dst_read_loop false bs = ev_view t (before_end l).
Proof.
  intros t l H. destruct (dst_events_roundtrip t l false H) as (bs & E & B & _ & R).
  exists bs. split; [exact E|]. split; [exact B|].
  specialize (R []). rewrite app_nil_r in R. rewrite R.
  destruct (existsb (fun e : rel => cmd_of (scmd e) =? END) l) eqn:Ex; [reflexivity|].
  rewrite before_end_none by exact Ex. cbn [dst_read_loop]. rewrite app_nil_r. reflexivity.
Qed.

(** From absolute patterns to events. *)
Lemma representable_ev_ok : forall trims l sq px py,
  dst_representable trims sq px py l -> ev_ok sq (quantise qz_int px py l).
Proof.
  intros trims. induction l as [|s l IH]; intros sq px py H; cbn [quantise]; [exact I|].
  destruct H as [Hs Hl]. split.
  - cbn [scmd sx sy]. unfold step_within, qz_int in *. set (c := cmd_of (scmd s)) in *.
    destruct Hs as [Hs|[Hs|[Hs|Hs]]].
    + left. tauto.
    + right; left. tauto.
    + right; right; left. tauto.
    + right; right; right. split; [tauto|]. lia.
  - cbn [scmd]. apply IH.
    replace (px + qz_int (sx s) px) with (sx s) by (unfold qz_int; lia).
    replace (py + qz_int (sy s) py) with (sy s) by (unfold qz_int; lia). exact Hl.
Qed.

(** The absolute offsets of the trim excursion. *)
Fixpoint offsets (d : Z) (l : list rel) : list Z :=
  match l with [] => [] | e :: r => (d + sx e) :: offsets (d + sx e) r end.

Lemma apply_rel_offsets : forall l x y d, Forall (fun e => scmd e = JUMP /\ sx e = sy e) l ->
  apply_rel (x + d) (y + d) l = map (fun d => mkS (x + d) (y + d) JUMP) (offsets d l).
Proof.
  induction l as [|e l IH]; intros x y d H; cbn [apply_rel offsets map]; [reflexivity|].
  inversion H as [|? ? [H1 H2] H3]; subst. rewrite H1, <- H2. rewrite <- !Z.add_assoc.
  f_equal. apply IH; assumption.
Qed.

Lemma trim_events_diag : forall t, Forall (fun e => scmd e = JUMP /\ sx e = sy e) (trim_events t).
Proof.
  intros t. unfold trim_events. apply Forall_cons; [split; reflexivity|].
  eapply Forall_impl; [|apply trim_evs_small; lia]. cbn. tauto.
Qed.

Lemma offsets_length : forall l d, length (offsets d l) = length l.
Proof. induction l; intros; cbn [offsets length]; [reflexivity|rewrite IHl; reflexivity]. Qed.

Lemma offsets_last : forall l d, last (offsets d l) d = d + sumx l.
Proof.
  induction l as [|e l IH]; intros d; cbn [offsets sumx]; [cbn; lia|].
  specialize (IH (d + sx e)).
  destruct l as [|e' l]; [cbn [offsets last sumx] in *; lia|].
  cbn [offsets] in IH |- *. cbn [last] in *.
  replace (match offsets (d + sx e + sx e') l with [] => d + sx e + sx e' | _ :: _ => last (offsets (d + sx e + sx e') l) d end)
    with (match offsets (d + sx e + sx e') l with [] => d + sx e + sx e' | _ :: _ => last (offsets (d + sx e + sx e') l) (d + sx e) end).
  - rewrite IH. lia.
  - destruct (offsets (d + sx e + sx e') l) as [|z q] eqn:Eo; [reflexivity|].
    clear. revert z. induction q as [|z' q IH]; intros z; [reflexivity|]. cbn [last] in *. apply IH.
Qed.

Definition trim_offsets (t : Z) : list Z := offsets 0 (trim_events t).

Lemma needle_after_map : forall ex x y z, ex <> [] ->
  needle_after z y (map (fun d => mkS (x + d) (y + d) JUMP) ex) = (x + last ex 0, y + last ex 0).
Proof.
  intros ex x y. assert (G : forall ex a b, ex <> [] ->
    needle_after a b (map (fun d => mkS (x + d) (y + d) JUMP) ex) = (x + last ex 0, y + last ex 0)).
  { clear. induction ex as [|d ex IH]; intros a b H; [congruence|].
    cbn [map needle_after sx sy]. destruct ex as [|d' ex]; [reflexivity|].
    rewrite IH by discriminate. reflexivity. }
  intros z H. apply G. exact H.
Qed.

Lemma trim_offsets_facts : forall t,
  Z.of_nat (length (trim_offsets t)) = Z.max 2 t /\ last (trim_offsets t) 0 = 0 /\
  trim_offsets t <> [].
Proof.
  intros t. unfold trim_offsets. rewrite offsets_length, trim_events_length, offsets_last.
  destruct (trim_events_sum t) as [A _]. rewrite A. repeat split; try lia.
  unfold trim_events. discriminate.
Qed.

Lemma trim_evs_offsets_small : forall n delta, delta = 4 \/ delta = -4 ->
  Forall (fun d => -2 <= d <= 2) (offsets (- (delta / 2)) (trim_evs n delta)).
Proof.
  induction n; intros delta Hd; cbn [trim_evs offsets sx].
  - apply Forall_cons; [lia|apply Forall_nil].
  - apply Forall_cons; [lia|].
    replace (- (delta / 2) + delta) with (- (- delta / 2)) by (destruct Hd; subst; reflexivity).
    apply IHn. lia.
Qed.

Lemma trim_offsets_small : forall t, Forall (fun d => -2 <= d <= 2) (trim_offsets t).
Proof.
  intros t. unfold trim_offsets, trim_events. cbn [offsets sx].
  apply Forall_cons; [lia|]. apply (trim_evs_offsets_small (Z.to_nat (t - 2)) (-4)). lia.
Qed.

Lemma apply_ev_view : forall trims t l sq px py, dst_representable trims sq px py l ->
  apply_rel px py (ev_view t (quantise qz_int px py l)) = dst_view (trim_offsets t) l /\
  needle_after px py (dst_view (trim_offsets t) l) = needle_after px py l.
Proof.
  intros trims t. induction l as [|s l IH]; intros sq px py H.
  - split; reflexivity.
  - destruct H as [Hs Hl]. cbn [quantise ev_view dst_view scmd sx sy].
    replace (px + qz_int (sx s) px) with (sx s) by (unfold qz_int; lia).
    replace (py + qz_int (sy s) py) with (sy s) by (unfold qz_int; lia).
    destruct (IH _ _ _ Hl) as [IH1 IH2].
    rewrite apply_rel_app, needle_after_app.
    destruct (Z.eqb_spec (cmd_of (scmd s)) TRIM) as [Et|Et].
    + assert (Hpos : sx s = px /\ sy s = py).
      { rewrite Et in Hs. unfold TRIM, STITCH, JUMP, SEQUIN_EJECT in Hs.
        destruct Hs as [Hs|[Hs|[Hs|Hs]]]; try (exfalso; destruct Hs; lia). tauto. }
      destruct Hpos as [Hx Hy].
      pose proof (apply_rel_offsets (trim_events t) px py 0 (trim_events_diag t)) as Ho.
      rewrite !Z.add_0_r in Ho. fold (trim_offsets t) in Ho. rewrite Ho.
      destruct (trim_offsets_facts t) as (_ & Hlast & Hne).
      rewrite Hx, Hy in *. rewrite needle_after_map by exact Hne. rewrite Hlast, !Z.add_0_r.
      rewrite IH1. split; [reflexivity|]. cbn [needle_after]. rewrite Hx, Hy. exact IH2.
    + cbn [apply_rel needle_after sx sy scmd].
      replace (px + qz_int (sx s) px) with (sx s) by (unfold qz_int; lia).
      replace (py + qz_int (sy s) py) with (sy s) by (unfold qz_int; lia).
      rewrite IH1. split; [reflexivity|exact IH2].
Qed.

Lemma representable_before_end : forall trims l sq px py,
  dst_representable trims sq px py l -> dst_representable trims sq px py (before_end l).
Proof.
  intros trims. induction l as [|s l IH]; intros sq px py H; cbn [before_end]; [exact I|].
  destruct H as [Hs Hl]. destruct (cmd_of (scmd s) =? END); [exact I|].
  split; [exact Hs|]. apply IH. exact Hl.
Qed.

Lemma dst_roundtrip_gen : forall trims t l, dst_representable trims false 0 0 l ->
  exists bs, dst_body qz_int t l = Ok bs /\ bytes_ok bs /\
    dst_read_raw bs = closed (dst_view (trim_offsets t) (before_end l)).
Proof.
  intros trims t l H.
  destruct (dst_events_read t (quantise qz_int 0 0 l)) as (bs & E & B & R).
  { eapply representable_ev_ok. exact H. }
  exists bs. split; [exact E|]. split; [exact B|].
  unfold dst_read_raw. rewrite R, <- quantise_before_end, apply_rel_end.
  f_equal. eapply apply_ev_view. apply (representable_before_end trims). exact H.
Qed.

Lemma dst_view_no_trim : forall ex l sq px py, dst_representable false sq px py l ->
  dst_view ex l = relabel dst_name l.
Proof.
  intros ex. induction l as [|s l IH]; intros sq px py H; [reflexivity|].
  destruct H as [Hs Hl]. cbn [dst_view relabel map].
  destruct (Z.eqb_spec (cmd_of (scmd s)) TRIM) as [Et|Et].
  - exfalso. rewrite Et in Hs. unfold TRIM, STITCH, JUMP, SEQUIN_EJECT, COLOR_CHANGE, STOP, SEQUIN_MODE, END in Hs.
    destruct Hs as [Hs|[Hs|[Hs|[[Hs|[Hs|[Hs|[Hs|(_ & Hs & _)]]]] _]]]]; try lia; discriminate.
  - cbn [app]. f_equal. eapply IH. exact Hl.
Qed.

Lemma dst_roundtrip : forall t l, dst_representable false false 0 0 l ->
  exists bs, dst_body qz_int t l = Ok bs /\ bytes_ok bs /\
    dst_read_raw bs = closed (relabel dst_name (before_end l)).
Proof.
  intros t l H. destruct (dst_roundtrip_gen false t l H) as (bs & E & B & R).
  exists bs. split; [exact E|]. split; [exact B|]. rewrite R. f_equal.
  eapply dst_view_no_trim. apply (representable_before_end false). exact H.
Qed.

(** ** Truncation *)
Lemma dst_read_prefix : forall k s n sq, (length s <= k)%nat ->
  prefix_of (dst_read_loop sq (firstn n s)) (dst_read_loop sq s).
Proof.
  induction k as [|k IH]; intros s n sq Hk.
  - destruct s; [|cbn in Hk; lia]. rewrite firstn_nil. apply prefix_refl.
  - destruct s as [|b0 [|b1 [|b2 r]]]; destruct n as [|[|[|n]]]; cbn [firstn];
      try apply prefix_nil; try apply prefix_refl.
    cbn [dst_read_loop]. destruct (dst_kind sq b2) as [c|]; [|apply prefix_refl].
    apply prefix_cons. apply IH. cbn [length] in Hk. lia.
Qed.
