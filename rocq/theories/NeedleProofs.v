(** The needles the encoder gives to thread changes. *)
From Coq Require Import ZArith List Bool Lia.
From Verif Require Import PyBase EmbConst FunctionsModel FunctionsProofs ThreadModel NumModel MatrixModel EncoderModel FormatSpec
  BitLemmas EncoderProofs EncoderPlanProofs EncoderSpec EncoderFlowProofs EncoderSewProofs EncoderThreadProofs PropertiesEncoder.
Import ListNotations.
Open Scope Z_scope.

Lemma dict_set_forall : forall A (P : A -> Prop) k a (d : dict A), P a -> Forall (fun e => P (snd e)) d -> Forall (fun e => P (snd e)) (dict_set k a d).
Proof.
  intros A P k a d Ha. induction d as [|[k' a'] d IH]; intros H; cbn [dict_set]; [constructor; [exact Ha|constructor]|].
  inversion H as [|? ? H1 H2]; subst. destruct (k' =? k); constructor; auto.
Qed.
Lemma dict_get_forall : forall A (P : A -> Prop) k a d, Forall (fun e => P (snd e)) d -> dict_get k d = Some a -> P a.
Proof.
  intros A P k a d H. induction H as [|[k' a'] d Hd _ IH]; cbn [dict_get]; [discriminate|]. destruct (k' =? k); [|exact IH].
  intros E. injection E as <-. exact Hd.
Qed.
Lemma dict_set_length : forall A k (a : A) d, (length (dict_set k a d) <= S (length d))%nat.
Proof. intros A k a. induction d as [|[k' a'] d IH]; cbn [dict_set length]; [lia|]. destruct (k' =? k); cbn [length]; lia. Qed.

Section Plan.
(** [Pt], [Pn]: the threads and needles that are asked for. *)
Context (Pt Pn : Z -> Prop).
Definition draft_asked (d : draft) : Prop :=
  (forall t, d_thread d = Some t -> Pt t) /\ (forall n, d_needle d = Some n -> Pn n).
Definition event_asked (e : event) : Prop :=
  (forall t, e_thread e = Some t -> Pt t) /\ (forall n, e_needle e = Some n -> Pn n).

Lemma fill_asked : forall threads e d, event_asked e -> draft_asked d -> draft_asked (fill_draft threads e d).
Proof.
  intros threads e d [E1 E2] [D1 D2]. unfold fill_draft. destruct (e_thread e) as [t|] eqn:Et; split; cbn [d_thread d_needle].
  - intros t' H. injection H as <-. apply E1. reflexivity.
  - destruct (e_needle e); [intros n' H; injection H as <-; apply E2; reflexivity|exact D2].
  - exact D1.
  - destruct (e_needle e); [intros n' H; injection H as <-; apply E2; reflexivity|exact D2].
Qed.
Lemma plan_asked : forall threads evs la d, Forall event_asked evs -> Forall (fun e => draft_asked (snd e)) d ->
  Forall (fun e => draft_asked (snd e)) (plan_events threads la d evs) /\
  (length (plan_events threads la d evs) <= length d + length evs)%nat.
Proof.
  intros threads. induction evs as [|e evs IH]; intros la d H Hd; cbn [plan_events length]; [split; [exact Hd|lia]|].
  inversion H as [|? ? He Hr]; subst.
  destruct (match e_index e with None => _ | Some i => _ end) as [key la'].
  match goal with |- context [dict_set key ?x d] => set (dr := x) end.
  destruct (IH la' (dict_set key dr d) Hr) as [I1 I2].
  - apply (dict_set_forall _ draft_asked); [|exact Hd]. apply fill_asked; [exact He|].
    destruct (dict_get key d) as [c|] eqn:Ec; [exact (dict_get_forall _ _ _ _ _ Hd Ec)|]. split; discriminate.
  - split; [exact I1|]. pose proof (dict_set_length _ key dr d). lia.
Qed.
Lemma finish_asked : forall threads tcc lim d ti ni q, 1 <= lim -> 1 <= ni -> 0 <= ti -> Forall (fun e => draft_asked (snd e)) d ->
  finish_plan threads tcc lim ti ni d = Ok q ->
  Forall (fun e => (Pn (c_needle (snd e)) \/ 1 <= c_needle (snd e) <= lim) /\
                   (Pt (c_thread (snd e)) \/ 0 <= c_thread (snd e) < ti + Z.of_nat (length d))) q.
Proof.
  intros threads tcc lim. induction d as [|[order s] d IH]; intros ti ni q Hl Hn Ht H E; cbn [finish_plan] in E.
  - injection E as <-. constructor.
  - inversion H as [|? ? [H1 H2] Hr]; subst. cbn [snd] in H1, H2.
    assert (Et : exists th ti', match d_thread s with Some t => (t, ti) | None => (ti, ti + 1) end = (th, ti') /\ 0 <= ti' <= ti + 1 /\
      (Pt th \/ 0 <= th < ti + 1)).
    { destruct (d_thread s) as [t|]; eexists; eexists; (split; [reflexivity|]); (split; [lia|]); [left; apply H1; reflexivity|right; lia]. }
    destruct Et as (th & ti' & Eth & Bt & Pth). rewrite Eth in E.
    assert (En : exists nd ni', match d_needle s with
        | Some n => Ok (n, ni)
        | None => if lim <? ni then if lim =? 0 then Err ZeroDivisionError else Ok ((ni - 1) mod lim + 1, ni + 1) else Ok (ni, ni + 1)
        end = Ok (nd, ni') /\ 1 <= ni' /\ (Pn nd \/ 1 <= nd <= lim)).
    { destruct (d_needle s) as [n|]; [eexists; eexists; split; [reflexivity|]; split; [lia|left; apply H2; reflexivity]|].
      destruct (Z.ltb_spec lim ni); [|eexists; eexists; split; [reflexivity|]; split; [lia|right; lia]].
      destruct (Z.eqb_spec lim 0); [lia|]. eexists; eexists; split; [reflexivity|]. split; [lia|right].
      pose proof (Z.mod_pos_bound (ni - 1) lim ltac:(lia)). lia. }
    destruct En as (nd & ni' & End & Bn & Pnd). rewrite End in E. cbn [bindr] in E.
    destruct (finish_plan threads tcc lim ti' ni' d) as [q'|] eqn:E'; [|discriminate E]. cbn [bindr] in E. injection E as <-.
    constructor; cbn [snd c_needle c_thread length].
    + split; [exact Pnd|]. destruct Pth as [P|P]; [left; exact P|right; lia].
    + specialize (IH _ _ _ Hl Bn (proj1 Bt) Hr E'). eapply Forall_impl; [|exact IH]. cbn beta. intros e [A B]. split; [exact A|].
      destruct B as [B|B]; [left; exact B|right; lia].
Qed.
End Plan.

(** Commands whose thread and needle numbers the plan looks at. *)
Definition sets_thread (c : Z) : bool :=
  (cmd_of c =? SET_CHANGE_SEQUENCE) || (cmd_of c =? NEEDLE_SET) || (cmd_of c =? COLOR_CHANGE) || (cmd_of c =? COLOR_BREAK).
Definition thread_of_cmd (c : Z) : option Z := let '(_, t, _, _) := decode_embroidery_command c in t.
Definition asked_thread (cmds : list Z) (t : Z) : Prop := exists c, In c cmds /\ sets_thread c = true /\ thread_of_cmd c = Some t.
Definition asked_needle (cmds : list Z) (n : Z) : Prop := exists c, In c cmds /\ sets_thread c = true /\ needle_of c = Some n.

Lemma events_asked : forall (Pt Pn : Z -> Prop) cmds i,
  (forall c t, In c cmds -> sets_thread c = true -> thread_of_cmd c = Some t -> Pt t) ->
  (forall c n, In c cmds -> sets_thread c = true -> needle_of c = Some n -> Pn n) ->
  Forall (event_asked Pt Pn) (thread_change_events i cmds) /\
  (length (thread_change_events i cmds) <= length (filter sets_thread cmds))%nat.
Proof.
  intros Pt Pn. induction cmds as [|c cmds IH]; intros i H1 H2; cbn [thread_change_events filter]; [split; [constructor|cbn; lia]|].
  assert (G1 : forall c0 t, In c0 cmds -> sets_thread c0 = true -> thread_of_cmd c0 = Some t -> Pt t) by (intros; eapply H1; [right|..]; eassumption).
  assert (G2 : forall c0 t, In c0 cmds -> sets_thread c0 = true -> needle_of c0 = Some t -> Pn t) by (intros; eapply H2; [right|..]; eassumption).
  assert (K : fst (fst (fst (decode_embroidery_command c))) = cmd_of c) by reflexivity.
  assert (E : sets_thread c = true -> event_asked Pt Pn (mkE (cmd_of c) (thread_of_cmd c) (needle_of c) (snd (decode_embroidery_command c)) None)).
  { intros Hs. split; cbn [e_thread e_needle]; intros t Et; [eapply H1|eapply H2]; try eassumption; left; reflexivity. }
  unfold thread_of_cmd, needle_of in E. destruct (decode_embroidery_command c) as [[[flags thread] needle] order]. cbn [fst snd] in *. subst flags.
  set (i' := if _ && _ then 1 else i). unfold sets_thread in E |- *. fold sets_thread.
  destruct (cmd_of c =? SET_CHANGE_SEQUENCE) eqn:Es.
  { cbn [orb] in *. destruct (IH i' G1 G2) as [I1 I2]. split; [constructor; [exact (E eq_refl)|exact I1]|cbn [length]; lia]. }
  destruct (cmd_of c =? NEEDLE_SET) eqn:En; [|destruct (cmd_of c =? COLOR_CHANGE) eqn:Ec; [|destruct (cmd_of c =? COLOR_BREAK) eqn:Eb]]; cbn [orb] in *.
  all: try (destruct (IH (i' + 1) G1 G2) as [I1 I2]; split; [constructor; [exact (E eq_refl)|exact I1]|cbn [length]; lia]).
  apply IH; assumption.
Qed.

(** ** The packed needle *)
Lemma needle_carry : forall n, 0 <= n <= 254 ->
  match needle_of (encode_thread_change NEEDLE_SET (Some 255) (Some n) None) with Some n' => 0 <= n' <= 254 | None => False end.
Proof.
  intros n H.
  assert (F : forallb (fun k => match needle_of (encode_thread_change NEEDLE_SET (Some 255) (Some (Z.of_nat k)) None) with
    Some n' => (0 <=? n') && (n' <=? 254) | None => false end) (seq 0 255) = true) by (vm_compute; reflexivity).
  rewrite forallb_forall in F. specialize (F (Z.to_nat n)). rewrite Z2Nat.id in F by lia.
  assert (I : In (Z.to_nat n) (seq 0 255)) by (apply in_seq; lia). specialize (F I).
  destruct (needle_of _) as [n'|]; [|discriminate F]. apply andb_true_iff in F as [F1 F2]. lia.
Qed.
Lemma needle_packed : forall t n, 0 <= n <= 254 ->
  exists n', needle_of (encode_thread_change NEEDLE_SET (Some t) (Some n) None) = Some n' /\ 0 <= n' <= 254 /\ (0 <= t <= 254 -> n' = n).
Proof.
  intros t n H.
  assert (E : encode_thread_change NEEDLE_SET (Some t) (Some n) None = encode_thread_change NEEDLE_SET (Some (Z.land t 255)) (Some n) None).
  { unfold encode_thread_change, enc_field. rewrite <- Z.land_assoc, Z.land_diag. reflexivity. }
  destruct (Z.eq_dec (Z.land t 255) 255) as [D|D].
  - rewrite E, D. pose proof (needle_carry n H) as K. destruct (needle_of _) as [n'|]; [|contradiction]. exists n'. split; [reflexivity|].
    split; [exact K|]. intros Ht. rewrite land_ff in D. lia.
  - exists n. rewrite E. split; [|split; [exact H|reflexivity]]. unfold needle_of.
    rewrite decode_encode; [cbn [field_low option_map]; rewrite Z.mod_small by lia; reflexivity| | |]; unfold field_fits; try rewrite land_ff in *; try lia; exact I.
Qed.
Lemma field_value : forall c m k v, 0 <= k -> 0 <= Z.land c m < 256 * 2 ^ k -> dec_field c m k = Some v -> 0 <= v <= 254.
Proof.
  intros c m k v Hk H E. unfold dec_field in E. rewrite Z.shiftr_div_pow2 in E by exact Hk.
  pose proof (Z.div_pos (Z.land c m) (2 ^ k) ltac:(lia) ltac:(apply Z.pow_pos_nonneg; lia)) as A.
  assert (B : Z.land c m / 2 ^ k < 256) by (apply Z.div_lt_upper_bound; [apply Z.pow_pos_nonneg; lia|lia]).
  set (w := Z.land c m / 2 ^ k) in *. clearbody w. destruct (Z.eqb_spec (w - 1) (-1)); [discriminate E|]. injection E as <-. lia.
Qed.
Lemma land_below : forall c m, 0 <= m -> 0 <= Z.land c m <= m.
Proof.
  intros c m H. split; [apply Z.land_nonneg; right; exact H|].
  destruct (Z.eq_dec m 0) as [->|N]; [rewrite Z.land_0_r; lia|].
  apply Z.ldiff_le; [exact H|]. apply Z.bits_inj'. intros k Hk. rewrite Z.ldiff_spec, Z.land_spec, Z.bits_0. destruct (Z.testbit m k), (Z.testbit c k); reflexivity.
Qed.
Lemma explicit_needle : forall c n, needle_of c = Some n -> 0 <= n <= 254.
Proof.
  intros c n H. unfold needle_of, decode_embroidery_command in H. eapply field_value; [|  |exact H]; [lia|].
  pose proof (land_below c NEEDLE_MASK ltac:(unfold NEEDLE_MASK; lia)). unfold NEEDLE_MASK in *. change (256 * 2 ^ 16) with 16777216. lia.
Qed.
Lemma explicit_thread : forall c n, thread_of_cmd c = Some n -> 0 <= n <= 254.
Proof.
  intros c n H. unfold thread_of_cmd, decode_embroidery_command in H. eapply field_value; [|  |exact H]; [lia|].
  pose proof (land_below c THREAD_MASK ltac:(unfold THREAD_MASK; lia)). unfold THREAD_MASK in *. change (256 * 2 ^ 8) with 65536. lia.
Qed.

(** ** The whole encoder *)
Lemma filter_needles : forall C seqs speeds (l : list (stitch C)) m m',
  mrun NEEDLE_SET seqs speeds m (map scmd l) = Some m' ->
  m_changes m' = m_changes m ++ map scmd (filter (is_cmd NEEDLE_SET) l).
Proof.
  intros C seqs speeds l. induction l as [|a l IH]; intros m m' E; cbn [map mrun filter] in *.
  - injection E as <-. rewrite app_nil_r. reflexivity.
  - destruct (mstep NEEDLE_SET seqs speeds m (scmd a)) as [m1|] eqn:E1; [|discriminate].
    rewrite (IH _ _ E). change (is_cmd NEEDLE_SET a) with (cmd_of (scmd a) =? NEEDLE_SET).
    unfold mstep in E1. cbv zeta in E1.
    repeat match type of E1 with
    | (if cmd_of (scmd a) =? ?k then _ else _) = _ => destruct (Z.eqb_spec (cmd_of (scmd a)) k) as [Hq|]
    | (if (cmd_of (scmd a) =? SLOW) || _ then _ else _) = _ =>
        destruct ((cmd_of (scmd a) =? SLOW) || (cmd_of (scmd a) =? FAST)) eqn:Hsp
    | (if NEEDLE_SET =? ?k then _ else _) = _ => destruct (Z.eqb_spec NEEDLE_SET k) as [Hkind|]
    | (if ?b then _ else _) = _ => destruct b
    end; try discriminate E1; try discriminate Hkind; injection E1 as <-; cbn [m_changes];
    try (rewrite Hq; reflexivity); try reflexivity; try congruence.
    all: cbn [map]; try (rewrite <- app_assoc; reflexivity).
    all: destruct (Z.eqb_spec (cmd_of (scmd a)) NEEDLE_SET) as [Hq'|]; [|reflexivity]; rewrite Hq' in Hsp; discriminate Hsp.
Qed.

Section Whole.
Context (N : Num).
Lemma transcode_needles : forall (set : settings N) p o ths, transcode N set p = Ok (o, ths) ->
  requested_change set = NEEDLE_SET -> needle_count (init_config N set) <= 254 ->
  let cmds := map scmd (p_stitches N p) in
  ths = map Own (p_threads N p) /\
  Forall (fun a => is_cmd NEEDLE_SET a = true -> exists n, needle_of (scmd a) = Some n /\ 0 <= n <= 254 /\
    ((length (filter sets_thread cmds) < 255)%nat -> asked_needle cmds n \/ 1 <= n <= needle_count (init_config N set))) o.
Proof.
  intros set p o ths E Hk Hn cmds.
  destruct (transcode_inv N set p o ths E) as (sq & body & e & s1 & m & B & Eo & He & Hi & Ob & Et).
  rewrite requested_ok, Hk in B.
  assert (Hc : 1 <= needle_count (init_config N set)).
  { clear - Hk. unfold requested_change in Hk. cbn [init_config needle_count]. unfold get.
    destruct (s_thread_change_command N set) as [k|]; [|discriminate Hk].
    destruct (s_needle_count N set) as [n|]; [|lia]. destruct (Z.leb_spec n 1); [|lia].
    destruct (k =? NEEDLE_SET) eqn:Ek; [discriminate Hk|]. cbn [andb] in Hk. rewrite Hk in Ek. discriminate Ek. }
  destruct (events_asked (asked_thread cmds) (asked_needle cmds) cmds 0) as [Ea El].
  { intros c t I1 I2 I3. exists c. auto. }
  { intros c t I1 I2 I3. exists c. auto. }
  destruct (plan_asked _ _ (p_threads N p) _ 0 [(0, no_draft)] Ea) as [Pa Pl].
  { constructor; [split; discriminate|constructor]. }
  pose proof (finish_asked _ _ _ _ _ _ _ _ _ Hc (Z.le_refl 1) (Z.le_refl 0) Pa B) as Fa.
  destruct (i_plan _ _ _ _ _ _ _ _ Hi) as (chs & L & G & _ & P2 & _).
  rewrite requested_ok in P2. specialize (P2 Hk). destruct P2 as [T1 C1].
  split.
  { rewrite Et, T1. unfold start_threads. rewrite requested_ok, Hk. reflexivity. }
  pose proof (i_run _ _ _ _ _ _ _ _ Hi) as Run. unfold EncoderProofs.cmds in Run. rewrite requested_ok, Hk, Ob in Run.
  pose proof (filter_needles _ _ _ _ _ _ Run) as Fc. cbn [mon0 m_changes app] in Fc. rewrite C1 in Fc.
  rewrite Forall_forall. intros a Ia Ha. rewrite Eo in Ia. apply in_app_or in Ia as [Ia|[<-|[]]].
  2:{ exfalso. unfold is_cmd in *. apply Z.eqb_eq in Ha, He. rewrite Ha in He. discriminate He. }
  assert (In (scmd a) (map (enc NEEDLE_SET) chs)) as Ic.
  { rewrite Fc. apply in_map. apply filter_In. split; assumption. }
  apply in_map_iff in Ic as (ch & <- & Ich). apply In_nth_error in Ich as (k & Hk'). specialize (G k ch Hk').
  pose proof (dict_get_forall _ (fun ch => (asked_needle cmds (c_needle ch) \/ 1 <= c_needle ch <= needle_count (init_config N set)) /\
                   (asked_thread cmds (c_thread ch) \/ 0 <= c_thread ch < 0 + Z.of_nat (length (plan_events (p_threads N p) 0 [(0, no_draft)] (thread_change_events 0 (map scmd (p_stitches N p)))))))
    _ _ _ Fa G) as [Q1 Q2].
  assert (Bn : 0 <= c_needle ch <= 254).
  { destruct Q1 as [(c & _ & _ & Q1)|Q1]; [exact (explicit_needle _ _ Q1)|lia]. }
  unfold enc. destruct (needle_packed (c_thread ch) (c_needle ch) Bn) as (n' & E1 & E2 & E3).
  exists n'. split; [exact E1|]. split; [exact E2|]. intros Hlen.
  assert (n' = c_needle ch) as ->; [|exact Q1]. apply E3. destruct Q2 as [(c & _ & _ & Q2)|Q2]; [exact (explicit_thread _ _ Q2)|].
  fold cmds in Q2. change (length [(0, no_draft)]) with 1%nat in Pl. lia.
Qed.
End Whole.
