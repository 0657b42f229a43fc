(** Thread numbers: when the planning pass and the encoding pass stay in step. *)
From Coq Require Import ZArith List Bool Lia.
From Verif Require Import PyBase EmbConst FunctionsModel ThreadModel NumModel MatrixModel EncoderModel
  BitLemmas EncoderProofs EncoderPlanProofs EncoderSpec EncoderFlowProofs EncoderSewProofs.
Import ListNotations.
Open Scope Z_scope.

(** ** What the plan holds at the index of an event *)
Lemma dict_get_set_same : forall A k (a : A) d, dict_get k (dict_set k a d) = Some a.
Proof.
  intros A k a. induction d as [|[k' a'] d IH]; cbn [dict_set dict_get].
  - rewrite Z.eqb_refl. reflexivity.
  - destruct (Z.eqb_spec k' k) as [->|Hk]; cbn [dict_get].
    + rewrite Z.eqb_refl. reflexivity.
    + rewrite (proj2 (Z.eqb_neq _ _) Hk). exact IH.
Qed.

Lemma dict_get_set_other : forall A k k0 (a : A) d, k <> k0 -> dict_get k (dict_set k0 a d) = dict_get k d.
Proof.
  intros A k k0 a d Hk. induction d as [|[k' a'] d IH]; cbn [dict_set dict_get].
  - destruct (Z.eqb_spec k0 k); [congruence|reflexivity].
  - destruct (Z.eqb_spec k' k0) as [->|Hk']; cbn [dict_get].
    + destruct (Z.eqb_spec k0 k); [congruence|reflexivity].
    + destruct (k' =? k); [reflexivity|exact IH].
Qed.

Definition only_indexed (evs : list event) : Prop := Forall (fun e => e_index e <> None) evs.
Definition above (i : Z) (evs : list event) : Prop :=
  Forall (fun e => forall j, e_index e = Some j -> i < j) evs.

Lemma plan_events_above : forall threads evs i la d, only_indexed evs -> above i evs ->
  dict_get i (plan_events threads la d evs) = dict_get i d.
Proof.
  intros threads. induction evs as [|e evs IH]; intros i la d Ho Ha; cbn [plan_events]; [reflexivity|].
  apply Forall_cons_iff in Ho. destruct Ho as [Ho Ho']. apply Forall_cons_iff in Ha. destruct Ha as [Ha Ha'].
  destruct (e_index e) as [j|]; [|congruence]. rewrite IH by assumption.
  apply dict_get_set_other. specialize (Ha j eq_refl). lia.
Qed.

Fixpoint increasing (evs : list event) : Prop :=
  match evs with
  | [] => True
  | e :: r => (forall i, e_index e = Some i -> above i r) /\ increasing r
  end.

Lemma plan_events_thread : forall threads evs la d e i t, only_indexed evs -> increasing evs ->
  In e evs -> e_index e = Some i -> e_thread e = Some t ->
  exists dr, dict_get i (plan_events threads la d evs) = Some dr /\ d_thread dr = Some t /\
    d_obj dr = Some (get_thread_or_filler threads t).
Proof.
  intros threads. induction evs as [|e0 evs IH]; intros la d e i t Ho Hi Hin Ei Et; [contradiction|].
  apply Forall_cons_iff in Ho. destruct Ho as [Ho Ho']. destruct Hi as [Hi Hi']. cbn [plan_events].
  destruct Hin as [->|Hin].
  - rewrite Ei. rewrite plan_events_above; [|exact Ho'|apply Hi; exact Ei].
    rewrite dict_get_set_same. eexists. split; [reflexivity|]. unfold fill_draft. rewrite Et. split; reflexivity.
  - destruct (e_index e0) as [j|]; [|congruence]. eapply IH; eassumption.
Qed.

Lemma finish_get : forall threads tcc lim d t n q k dr, finish_plan threads tcc lim t n d = Ok q ->
  dict_get k d = Some dr ->
  exists ch, dict_get k q = Some ch /\ (forall v, d_thread dr = Some v -> c_thread ch = v) /\
    (forall o, d_obj dr = Some o -> c_obj ch = o).
Proof.
  intros threads tcc lim.
  induction d as [|[k' s] d IH]; intros t n q k dr E H; cbn [finish_plan] in E; [discriminate|].
  destruct (match d_thread s with Some t0 => (t0, t) | None => _ end) as [th t'] eqn:Eth.
  destruct (match d_needle s with Some n0 => _ | None => _ end) as [[nd n']|]; [|discriminate].
  cbn [bindr] in E. destruct (finish_plan threads tcc lim t' n' d) as [q'|] eqn:E'; [|discriminate].
  cbn [bindr] in E. injection E as <-. cbn [dict_get] in *. destruct (k' =? k).
  - injection H as ->. eexists. split; [reflexivity|]. cbn [c_thread c_obj]. split.
    + intros v Hv. rewrite Hv in Eth. injection Eth as <- _. reflexivity.
    + intros o Hv. rewrite Hv. reflexivity.
  - eapply IH; eassumption.
Qed.

Lemma events_indexed : forall cs ci, Forall (fun c => cmd_of c <> SET_CHANGE_SEQUENCE) cs ->
  only_indexed (thread_change_events ci cs).
Proof.
  induction cs as [|c cs IH]; intros ci H; [constructor|]. apply Forall_cons_iff in H. destruct H as [H H'].
  rewrite events_cons. cbv zeta. destruct (decode_embroidery_command c) as [[[f t] n] o].
  rewrite (proj2 (Z.eqb_neq _ _) H). destruct (is_change (cmd_of c)); [|apply IH; exact H'].
  constructor; [discriminate|apply IH; exact H'].
Qed.

Lemma bump_ge : forall ci f, ci <= bump ci f.
Proof. intros ci f. unfold bump. destruct (Z.eqb_spec ci 0); cbn [andb]; [|lia]. destruct (is_sewing f); lia. Qed.

Lemma events_from : forall cs ci e j, In e (thread_change_events ci cs) -> e_index e = Some j -> ci <= j.
Proof.
  induction cs as [|c cs IH]; intros ci e j Hin Ej; [contradiction|].
  rewrite events_cons in Hin. cbv zeta in Hin. destruct (decode_embroidery_command c) as [[[f t] n] o].
  pose proof (bump_ge ci (cmd_of c)) as B.
  destruct (cmd_of c =? SET_CHANGE_SEQUENCE); [|destruct (is_change (cmd_of c))].
  - destruct Hin as [<-|Hin]; [discriminate|]. specialize (IH _ _ _ Hin Ej). lia.
  - destruct Hin as [<-|Hin]; [cbn in Ej; injection Ej as <-; lia|]. specialize (IH _ _ _ Hin Ej). lia.
  - specialize (IH _ _ _ Hin Ej). lia.
Qed.

Lemma events_increasing : forall cs ci, increasing (thread_change_events ci cs).
Proof.
  induction cs as [|c cs IH]; intros ci; [exact I|].
  rewrite events_cons. cbv zeta. destruct (decode_embroidery_command c) as [[[f t] n] o].
  destruct (cmd_of c =? SET_CHANGE_SEQUENCE); [|destruct (is_change (cmd_of c))].
  - split; [discriminate|apply IH].
  - split; [|apply IH]. intros i Ei. cbn in Ei. injection Ei as <-. apply Forall_forall. intros e He j Ej.
    pose proof (events_from _ _ _ _ He Ej). lia.
  - apply IH.
Qed.

(** The promise of the plan: the entry at the index of each event has the event's thread. *)
Definition honours (threads : list thread) (seq : dict change) (ci : Z) (cs : list Z) : Prop :=
  forall e i t, In e (thread_change_events ci cs) -> e_index e = Some i -> e_thread e = Some t ->
  exists ch, dict_get i seq = Some ch /\ c_thread ch = t /\ c_obj ch = get_thread_or_filler threads t.

Lemma plan_honours : forall tcc nc threads cs seq,
  Forall (fun c => cmd_of c <> SET_CHANGE_SEQUENCE) cs ->
  build_thread_change_sequence tcc nc threads cs = Ok seq -> honours threads seq 0 cs.
Proof.
  intros tcc nc threads cs seq Hs E e i t He Ei Et. unfold build_thread_change_sequence in E.
  destruct (plan_events_thread threads _ 0 [(0, no_draft)] e i t (events_indexed _ _ Hs) (events_increasing _ _) He Ei Et)
    as (dr & D1 & D2 & D3).
  destruct (finish_get _ _ _ _ _ _ _ _ _ E D1) as (ch & C1 & C2 & C3).
  exists ch. split; [exact C1|]. split; [apply C2; exact D2|apply C3; exact D3].
Qed.

(** ** Decoding the emitted command *)
Lemma thread_number_dec : forall c : Z,
  dec_field c THREAD_MASK 8 = (let v := (c / 256) mod 256 in if v =? 0 then None else Some (v - 1)).
Proof.
  intros c. unfold dec_field. cbv zeta.
  assert (E : Z.shiftr (Z.land c THREAD_MASK) 8 = (c / 256) mod 256).
  { rewrite Z.shiftr_land. change (Z.shiftr THREAD_MASK 8) with 255. rewrite land_ff.
    rewrite Z.shiftr_div_pow2 by lia. reflexivity. }
  rewrite E. destruct (Z.eqb_spec ((c / 256) mod 256) 0) as [->|H]; [reflexivity|].
  destruct (Z.eqb_spec ((c / 256) mod 256 - 1) (-1)); [lia|reflexivity].
Qed.

Lemma thread_of_enc : forall C k ch (a : stitch C), 0 <= k < 256 -> 0 <= c_thread ch < 255 ->
  scmd a = enc k ch -> thread_number a = Some (c_thread ch).
Proof.
  intros C k ch a Hk Ht Ea. unfold thread_number. rewrite Ea. unfold enc, encode_thread_change.
  set (n := enc_field (Some (c_needle ch))). set (v := enc_field (Some (c_thread ch))).
  assert (Ev : v = c_thread ch + 1).
  { unfold v, enc_field. rewrite land_ff, (Z.mod_small (c_thread ch)) by lia. reflexivity. }
  clearbody v. subst v. cbn [enc_field].
  change (Z.shiftl 0 24) with 0. rewrite Z.lor_0_r.
  unfold COMMAND_MASK. rewrite land_ff, (Z.mod_small k) by lia.
  assert (E : Z.lor (Z.lor k (Z.shiftl n 16)) (Z.shiftl (c_thread ch + 1) 8) / 256 mod 256 = c_thread ch + 1).
  { rewrite <- land_ff. change 256 with (2 ^ 8). rewrite <- Z.shiftr_div_pow2 by lia.
    rewrite !Z.shiftr_lor. rewrite (Z.shiftr_shiftl_l n 16 8), (Z.shiftr_shiftl_l (c_thread ch + 1) 8 8) by lia.
    change (16 - 8) with 8. change (8 - 8) with 0. rewrite Z.shiftl_0_r.
    rewrite (Z.shiftr_div_pow2 k 8) by lia. change (2 ^ 8) with 256. rewrite (Z.div_small k 256) by lia.
    rewrite Z.lor_0_l, Z.land_lor_distr_l. rewrite cmd_shiftl by lia. rewrite Z.lor_0_l, land_ff.
    apply Z.mod_small. lia. }
  cbv zeta. rewrite E. destruct (Z.eqb_spec (c_thread ch + 1) 0); [lia|]. f_equal. lia.
Qed.

Section Threads.
Context (N : Num).
Notation F := (F N).
Notation st := (st N).
Variables (c : config) (seq : dict change) (base : list tref) (threads : list thread).
Hypothesis K0 : has_key 0 seq.

(** ** Source commands *)
Definition plain_cmd (k : Z) (a : stitch F) : Prop := is_cmd k a = true -> scmd a = k.
(** Commands that sew, tie or end carry no numbers. *)
Definition plain_sewing (a : stitch F) : Prop :=
  plain_cmd STITCH a /\ plain_cmd NEEDLE_AT a /\ plain_cmd SEW_TO a /\ plain_cmd SEQUIN_EJECT a /\
  plain_cmd TIE_ON a /\ plain_cmd END a.

Lemma is_cmd_k : forall k (a : stitch F), is_cmd k a = (cmd_of (scmd a) =? k).
Proof. reflexivity. Qed.

Lemma plain_eq : forall k (a : stitch F), plain_cmd k a -> 0 <= k < 256 -> (scmd a =? k) = is_cmd k a.
Proof.
  intros k a H Hk. destruct (Z.eqb_spec (scmd a) k) as [E|E].
  - rewrite is_cmd_k, E. unfold cmd_of, COMMAND_MASK. rewrite land_ff, Z.mod_small by exact Hk. symmetry. apply Z.eqb_refl.
  - destruct (is_cmd k a) eqn:X; [|reflexivity]. exfalso. apply E, H, X.
Qed.

Lemma lookahead_spec : forall l, Forall plain_sewing l -> lookahead_stitch N l = later_sewing l.
Proof.
  unfold later_sewing. induction l as [|a l IH]; intros H; [reflexivity|].
  apply Forall_cons_iff in H. destruct H as [(P1 & P2 & P3 & P4 & P5 & P6) H'].
  cbn [lookahead_stitch until_end].
  rewrite (plain_eq STITCH a P1), (plain_eq NEEDLE_AT a P2), (plain_eq SEW_TO a P3), (plain_eq SEQUIN_EJECT a P4),
    (plain_eq TIE_ON a P5), (plain_eq END a P6) by (unfold STITCH, NEEDLE_AT, SEW_TO, SEQUIN_EJECT, TIE_ON, END; lia).
  destruct (is_cmd END a) eqn:Ee.
  - assert (X : forall k, k <> END -> is_cmd k a = false).
    { intros k Hk. rewrite is_cmd_k in *. apply Z.eqb_eq in Ee. rewrite Ee. apply Z.eqb_neq. congruence. }
    rewrite !X by discriminate. reflexivity.
  - cbn [existsb]. unfold sews_any, sews_src. rewrite IH by exact H'.
    destruct (is_cmd STITCH a), (is_cmd NEEDLE_AT a), (is_cmd SEW_TO a), (is_cmd TIE_ON a), (is_cmd SEQUIN_EJECT a); reflexivity.
Qed.

Lemma sews_flags : forall a : stitch F, is_sewing (cmd_of (scmd a)) = sews_any a.
Proof.
  intros a. unfold is_sewing, sews_any, sews_src. rewrite !is_cmd_k.
  destruct (cmd_of (scmd a) =? STITCH), (cmd_of (scmd a) =? SEW_TO), (cmd_of (scmd a) =? NEEDLE_AT); reflexivity.
Qed.

Lemma change_flags : forall a : stitch F, is_change (cmd_of (scmd a)) = changes_thread a.
Proof.
  intros a. unfold is_change, changes_thread, explicit_change, is_break. rewrite !is_cmd_k.
  destruct (cmd_of (scmd a) =? NEEDLE_SET), (cmd_of (scmd a) =? COLOR_CHANGE); reflexivity.
Qed.

Lemma classify_explicit : forall a : stitch F,
  explicit_change a = true <-> classify (cmd_of (scmd a)) = OpThreadChange.
Proof.
  intros a. change (explicit_change a) with ((cmd_of (scmd a) =? COLOR_CHANGE) || (cmd_of (scmd a) =? NEEDLE_SET)).
  generalize (cmd_of (scmd a)). intros k. split.
  - intros X. apply orb_prop in X. destruct X as [X|X]; apply Z.eqb_eq in X; rewrite X; reflexivity.
  - unfold classify. intros X.
    repeat match type of X with
    | (if ?p =? ?q then _ else _) = _ => let Hq := fresh in destruct (Z.eqb_spec p q) as [Hq|]; [first [discriminate X|reflexivity|rewrite Hq; reflexivity]|]
    end. discriminate X.
Qed.

Lemma classify_break : forall a : stitch F, is_break a = true <-> classify (cmd_of (scmd a)) = OpColorBreak.
Proof.
  intros a. change (is_break a) with (cmd_of (scmd a) =? COLOR_BREAK).
  generalize (cmd_of (scmd a)). intros k. split.
  - intros X. apply Z.eqb_eq in X; rewrite X; reflexivity.
  - unfold classify. intros X.
    repeat match type of X with
    | (if ?p =? ?q then _ else _) = _ => let Hq := fresh in destruct (Z.eqb_spec p q) as [Hq|]; [first [discriminate X|reflexivity|rewrite Hq; reflexivity]|]
    end. discriminate X.
Qed.

(** ** One step *)
Lemma next_order : forall s s', next_change_sequence N c seq s = Ok s' -> order_index N s' = order_index N s + 1.
Proof.
  intros s s' E. unfold next_change_sequence in E.
  destruct (dict_get _ seq) as [ch|]; [|discriminate]. injection E as <-.
  destruct (_ =? COLOR_CHANGE); [destruct (negb _); reflexivity|].
  destruct (_ =? NEEDLE_SET); [reflexivity|]. destruct (_ =? STOP); reflexivity.
Qed.

Lemma break_order : forall src pos rest s s', color_break N c seq src pos rest s = Ok s' ->
  order_index N s' = if (0 <=? order_index N s) && lookahead_stitch N rest then order_index N s + 1 else order_index N s.
Proof.
  intros src pos rest s s' E. unfold color_break in E.
  destruct (Z.ltb_spec (order_index N s) 0); destruct (Z.leb_spec 0 (order_index N s)); try lia; cbn [andb].
  - injection E as <-. reflexivity.
  - cbv zeta in E. destruct (lookahead_stitch N rest); cbn [negb] in E.
    + destruct (next_change_sequence N c seq _) as [s2|] eqn:E2; [|discriminate]. cbn [bindr] in E. injection E as <-.
      cbn. rewrite (next_order _ _ E2). rewrite close_order. reflexivity.
    + injection E as <-. apply close_order.
Qed.

(** How one command that is not END moves the order index. *)
Definition step_order (a : stitch F) (rest : list (stitch F)) (o : Z) : Z :=
  if sews_any a then Z.max 0 o
  else if explicit_change a then o + 1
  else if is_break a && (0 <=? o) && later_sewing rest then o + 1 else o.

Lemma later_break : forall (a : stitch F) rest, plain_sewing a -> is_break a = true -> later_sewing (a :: rest) = later_sewing rest.
Proof.
  intros a rest _ Hb. unfold later_sewing. cbn [until_end]. unfold is_break in Hb. rewrite is_cmd_k in Hb.
  apply Z.eqb_eq in Hb. unfold sews_any, sews_src. rewrite !is_cmd_k, Hb. cbn.
  unfold sews_any, sews_src. rewrite !is_cmd_k, Hb. reflexivity.
Qed.

Lemma loop_order : forall src pos a rest x y s s1 m,
  Inv N c seq base true true s m -> open_ok N s m -> Forall plain_sewing (a :: rest) -> is_cmd END a = false ->
  exec N c seq src pos (a :: rest) a x y (classify (cmd_of (scmd a))) s = Ok s1 ->
  exists m1, Inv N c seq base true true s1 m1 /\ open_ok N s1 m1 /\
    order_index N s1 = step_order a rest (order_index N s).
Proof.
  intros src pos a rest x y s s1 m H Ho Hp Hend E.
  assert (Hop : op_ok true true (classify (cmd_of (scmd a)))).
  { destruct (classify (cmd_of (scmd a))) eqn:Ec; cbn; auto. apply classify_end in Ec.
    rewrite is_cmd_k, Ec in Hend. discriminate. }
  destruct (exec_inv N c seq base true true _ _ _ _ _ _ _ _ _ _ H Ho Hop E) as (m1 & H1 & O1 & St).
  exists m1. split; [exact H1|]. split; [exact O1|].
  unfold step_order.
  destruct (classify_step (cmd_of (scmd a))) as [G1 G2].
  rewrite sews_flags in G2. rewrite change_flags in G1.
  assert (Ex : explicit_change a = true <-> classify (cmd_of (scmd a)) = OpThreadChange) by apply classify_explicit.
  assert (Br : is_break a = true <-> classify (cmd_of (scmd a)) = OpColorBreak) by apply classify_break.
  destruct (sews_any a) eqn:Es.
  - pose proof (proj2 G2 eq_refl) as D. destruct D as [D|[D|[D|D]]]; rewrite D in St; exact St.
  - assert (D : forall o, (o = OpStitch \/ o = OpNeedleAt \/ o = OpSewTo \/ o = OpSequinEject) ->
       classify (cmd_of (scmd a)) <> o).
    { intros o Hor X. assert (false = true); [|discriminate]. apply G2. rewrite X. tauto. }
    destruct (explicit_change a) eqn:Ee.
    + rewrite (proj1 Ex eq_refl) in St. exact St.
    + destruct (is_break a) eqn:Eb; cbn [andb].
      * pose proof (proj1 Br eq_refl) as Ec. rewrite Ec in E. cbn [exec] in E.
        rewrite (break_order _ _ _ _ _ E), lookahead_spec by exact Hp.
        rewrite later_break; [reflexivity| |exact Eb]. apply Forall_inv in Hp. exact Hp.
      * destruct (classify (cmd_of (scmd a))) eqn:Ec; cbn [order_step] in St; try exact St;
          try (exfalso; eapply D; [|reflexivity]; tauto).
Qed.

(** ** Following the plan *)
Lemma honours_step : forall ci a r, honours threads seq ci (a :: r) ->
  (is_change (cmd_of a) = true -> cmd_of a <> SET_CHANGE_SEQUENCE ->
   forall t, dec_field a THREAD_MASK 8 = Some t ->
   exists ch, dict_get (bump ci (cmd_of a)) seq = Some ch /\ c_thread ch = t /\
     c_obj ch = get_thread_or_filler threads t) /\
  honours threads seq (if is_change (cmd_of a) then bump ci (cmd_of a) + 1 else bump ci (cmd_of a)) r.
Proof.
  intros ci a r H. unfold honours in H. rewrite events_cons in H. cbv zeta in H.
  unfold decode_embroidery_command in H.
  destruct (Z.eqb_spec (cmd_of a) SET_CHANGE_SEQUENCE) as [Es|Es].
  - rewrite Es in *. cbn [is_change] in *. split; [intros; contradiction|].
    intros e i t He. apply H. right. exact He.
  - destruct (is_change (cmd_of a)).
    + split.
      * intros _ _ t Ht. eapply H; [left; reflexivity|reflexivity|exact Ht].
      * intros e i t He. apply H. right. exact He.
    + split; [discriminate|]. exact H.
Qed.

(** Commands that change nothing about threads. *)
Lemma loop_quiet : forall src rest pos s s' m, Inv N c seq base true true s m -> open_ok N s m ->
  Forall plain_sewing rest -> later_sewing rest = false -> no_more_changes rest = true ->
  main_loop N c seq src pos rest s = Ok s' -> order_index N s' = order_index N s.
Proof.
  intros src. induction rest as [|a rest IH]; intros pos s s' m H Ho Hp Hl Hn E; cbn [main_loop] in E.
  - injection E as <-. reflexivity.
  - destruct (placed N c s a) as [[x y]|]; [|discriminate]. cbn [bindr] in E.
    pose proof (inv_high _ _ _ _ _ _ s m (scmd a) H) as H1.
    set (s0 := set_high N s (Z.land (scmd a) FLAGS_MASK)) in *.
    destruct (exec N c seq src pos (a :: rest) a x y _ s0) as [s1|] eqn:E1; [|discriminate].
    cbn [bindr] in E. destruct (Z.eqb_spec (cmd_of (scmd a)) END) as [Ee|Ee].
    + rewrite Ee in E1. change (classify END) with OpEnd in E1. cbn [exec] in E1. injection E1 as <-. injection E as <-.
      reflexivity.
    + assert (Hend : is_cmd END a = false) by (rewrite is_cmd_k; apply Z.eqb_neq; exact Ee).
      destruct (loop_order src pos a rest x y s0 s1 m H1 Ho Hp Hend E1) as (m1 & H2 & O2 & St).
      unfold later_sewing, no_more_changes in Hl, Hn. cbn [until_end] in Hl, Hn. rewrite Hend in Hl, Hn.
      cbn [existsb forallb] in Hl, Hn. apply orb_false_iff in Hl. destruct Hl as [Hl Hl'].
      apply orb_false_iff in Hl. destruct Hl as [Hs _]. apply andb_prop in Hn. destruct Hn as [Hc Hn'].
      apply negb_true_iff in Hc. unfold changes_thread in Hc. apply orb_false_iff in Hc. destruct Hc as [Hx Hb].
      apply Forall_inv_tail in Hp.
      rewrite (IH _ _ _ _ H2 O2 Hp Hl' Hn' E), St. unfold step_order. rewrite Hs, Hx, Hb. reflexivity.
Qed.

Lemma quiet_asks : forall (l : list (stitch F)) seen, no_more_changes l = true -> asked_threads seen l = [].
Proof.
  induction l as [|a l IH]; intros seen H; [reflexivity|]. cbn [asked_threads].
  unfold no_more_changes in H. cbn [until_end] in H. destruct (is_cmd END a); [reflexivity|].
  cbn [forallb] in H. apply andb_prop in H. destruct H as [H1 H2]. apply negb_true_iff in H1.
  unfold changes_thread in H1. apply orb_false_iff in H1. destruct H1 as [X Y]. rewrite X, Y. cbn [orb andb].
  destruct (sews_any a); apply IH; exact H2.
Qed.

(** In step: the next index of the planning pass is the next order index; or a first break was
    counted and the first stitch is still to come. *)
Definition in_step (o ci : Z) (rest : list (stitch F)) : Prop :=
  o + 1 = ci \/ (o = -1 /\ ci = 1 /\ sews_next rest = true).

Definition numbered (l : list (stitch F)) : Prop :=
  Forall (fun a => changes_thread a = true -> thread_number a <> None) l.

Definition follows (o : Z) (o' : Z) (asked : list (option Z)) : Prop :=
  (o = -1 /\ o' = -1 /\ asked = []) \/
  (o' = Z.max 0 o + Z.of_nat (length asked) /\
   forall j t, nth_error asked j = Some t -> exists ch n,
     dict_get (Z.max 0 o + 1 + Z.of_nat j) seq = Some ch /\ t = Some n /\ c_thread ch = n /\ 0 <= n < 255 /\
     c_obj ch = get_thread_or_filler threads n).

Lemma thread_number_range : forall (a : stitch F) n, thread_number a = Some n -> 0 <= n < 255.
Proof.
  intros a n H. unfold thread_number in H. cbv zeta in H.
  pose proof (Z.mod_pos_bound (scmd a / 256) 256 ltac:(lia)).
  destruct (Z.eqb_spec ((scmd a / 256) mod 256) 0); [discriminate|]. injection H as <-. lia.
Qed.

Lemma loop_follows : forall src rest pos s s' m ci seen, Inv N c seq base true true s m -> open_ok N s m ->
  Forall plain_sewing rest -> numbered rest -> breaks_effective seen rest = true ->
  honours threads seq ci (map scmd rest) -> in_step (order_index N s) ci rest -> -1 <= order_index N s ->
  (seen = true <-> (0 <= order_index N s \/ ci = 1 /\ order_index N s = -1)) ->
  main_loop N c seq src pos rest s = Ok s' ->
  follows (order_index N s) (order_index N s') (asked_threads seen rest).
Proof.
  intros src. induction rest as [|a rest IH]; intros pos s s' m ci seen H Ho Hp Hn Hb Hh Hi Hlow Hseen E; cbn [main_loop] in E.
  - injection E as <-. cbn [asked_threads]. change (order_index N (end_here N s)) with (order_index N s).
    unfold follows. destruct (Z.eq_dec (order_index N s) (-1)) as [X|X]; [left; auto|].
    right. split; [cbn; lia|]. intros j t Hj. destruct j; discriminate.
  - destruct (placed N c s a) as [[x y]|]; [|discriminate]. cbn [bindr] in E.
    pose proof (inv_high _ _ _ _ _ _ s m (scmd a) H) as H1.
    set (s0 := set_high N s (Z.land (scmd a) FLAGS_MASK)) in *.
    destruct (exec N c seq src pos (a :: rest) a x y _ s0) as [s1|] eqn:E1; [|discriminate].
    cbn [bindr] in E. cbn [asked_threads breaks_effective] in *.
    destruct (is_cmd END a) eqn:Hend.
    + rewrite is_cmd_k in Hend. rewrite Hend in E. apply Z.eqb_eq in Hend. rewrite Hend in E1.
      change (classify END) with OpEnd in E1. cbn [exec] in E1. injection E1 as <-. injection E as <-.
      change (order_index N (end_here N s0)) with (order_index N s).
      unfold follows. destruct (Z.eq_dec (order_index N s) (-1)) as [X|X]; [left; auto|].
      right. split; [cbn; lia|]. intros j t Hj. destruct j; discriminate.
    + assert (Ee : cmd_of (scmd a) =? END = false) by exact Hend. rewrite Ee in E.
      destruct (loop_order src pos a rest x y s0 s1 m H1 Ho Hp Hend E1) as (m1 & H2 & O2 & St).
      change (order_index N s0) with (order_index N s) in St.
      cbn [map] in Hh. destruct (honours_step _ _ _ Hh) as [Hhere Hh'].
      rewrite change_flags in Hh', Hhere.
      assert (Bump : bump ci (cmd_of (scmd a)) = if (ci =? 0) && sews_any a then 1 else ci).
      { unfold bump. rewrite sews_flags. reflexivity. }
      rewrite Bump in Hh', Hhere. pose proof (Forall_inv Hp) as Pa. apply Forall_inv_tail in Hp.
      pose proof (Forall_inv Hn) as Na. apply Forall_inv_tail in Hn. cbv beta in Na.
      unfold step_order in St. unfold in_step in Hi. cbn [sews_next] in Hi.
      assert (Excl : sews_any a = true -> changes_thread a = false).
      { rewrite <- sews_flags, <- change_flags. unfold is_sewing, is_change.
        intros X. repeat rewrite orb_true_iff in X. destruct X as [[[X|X]|X]|X]; apply Z.eqb_eq in X; rewrite X; reflexivity. }
      assert (NotSeq : changes_thread a = true -> cmd_of (scmd a) <> SET_CHANGE_SEQUENCE).
      { rewrite <- change_flags. intros X Y. rewrite Y in X. discriminate. }
      destruct (sews_any a) eqn:Es.
      * (* sewing *)
        rewrite (Excl eq_refl) in Hh'. cbn [orb] in Hb.
        assert (Hi' : Z.max 0 (order_index N s) + 1 = if ci =? 0 then 1 else ci).
        { destruct (Z.eqb_spec ci 0); lia. }
        rewrite andb_true_r in Hh'.
        assert (F1 : follows (order_index N s1) (order_index N s') (asked_threads true rest)).
        { eapply IH; [exact H2|exact O2|exact Hp|exact Hn|exact Hb|exact Hh'|left; rewrite St; exact Hi'| | |exact E].
          - rewrite St. lia.
          - rewrite St. split; [lia|auto]. }
        rewrite St in F1. unfold follows in *. destruct F1 as [F1|[F1 F2]]; [lia|]. right.
        replace (Z.max 0 (Z.max 0 (order_index N s))) with (Z.max 0 (order_index N s)) in * by lia. auto.
      * (* a change? *)
        rewrite andb_false_r in Hh', Hhere. cbn [orb] in Hb.
        destruct (explicit_change a) eqn:Ex.
        -- (* explicit change: the pending case is impossible *)
           assert (Ct : changes_thread a = true) by (unfold changes_thread; rewrite Ex; reflexivity).
           rewrite Ct in Hi, Hh', Hhere. cbn [orb] in Hi |- *.
           destruct Hi as [Hi|[_ [_ Hi]]]; [|discriminate].
           assert (F1 : follows (order_index N s1) (order_index N s') (asked_threads true rest)).
           { eapply IH; [exact H2|exact O2|exact Hp|exact Hn|exact Hb|exact Hh'|left; rewrite St; lia| | |exact E].
             - rewrite St. lia.
             - rewrite St. split; [intros _; left; lia|auto]. }
           rewrite St in F1.
           destruct (Z.eq_dec (order_index N s) (-1)) as [Hneg|Hneg].
           ++ (* chooses the first thread *)
              assert (seen = false) as ->.
              { destruct seen; [|reflexivity]. destruct (proj1 Hseen eq_refl); lia. }
              rewrite Hneg in *. unfold follows in *. cbn in *. destruct F1 as [F1|F1]; [lia|]. right. exact F1.
           ++ assert (seen = true) as -> by (apply Hseen; lia).
              destruct (thread_number a) as [n|] eqn:En; [|exfalso; exact (Na Ct eq_refl)].
              assert (Dec : dec_field (scmd a) THREAD_MASK 8 = Some n) by (rewrite thread_number_dec; exact En).
              destruct (Hhere eq_refl (NotSeq Ct) n Dec) as (ch & C1 & C2 & C3).
              unfold follows in *. destruct F1 as [F1|[F1 F2]]; [lia|]. right. cbn [length]. split; [lia|].
              intros [|j] t Hj; cbn [nth_error] in Hj.
              ** injection Hj as <-. exists ch, n.
                 replace (Z.max 0 (order_index N s) + 1 + Z.of_nat 0) with ci by lia.
                 pose proof (thread_number_range _ _ En). auto.
              ** destruct (F2 j t Hj) as (ch' & n' & D). exists ch', n'.
                 replace (Z.max 0 (order_index N s) + 1 + Z.of_nat (S j))
                   with (Z.max 0 (order_index N s + 1) + 1 + Z.of_nat j) by lia. exact D.
        -- cbn [orb] in *. destruct (is_break a) eqn:Eb.
           ++ assert (Ct : changes_thread a = true) by (unfold changes_thread; rewrite Eb; apply orb_true_r).
              rewrite Ct in Hi, Hh', Hhere. cbn [orb] in Hi. cbn [andb].
              destruct Hi as [Hi|[_ [_ Hi]]]; [|discriminate].
              destruct (later_sewing rest) eqn:El.
              ** rewrite andb_true_r in St. cbn [andb] in St.
                 apply andb_prop in Hb. destruct Hb as [Hb1 Hb].
                 destruct (Z.eq_dec (order_index N s) (-1)) as [Hneg|Hneg].
                 --- (* a leading break *)
                     assert (seen = false) as ->.
                     { destruct seen; [|reflexivity]. destruct (proj1 Hseen eq_refl); lia. }
                     cbn [orb] in Hb1. destruct (Z.leb_spec 0 (order_index N s)); [lia|].
                     assert (F1 : follows (order_index N s1) (order_index N s') (asked_threads true rest)).
                     { eapply IH; [exact H2|exact O2|exact Hp|exact Hn|exact Hb|exact Hh'| | | |exact E].
                       - right. rewrite St. split; [lia|]. split; [lia|exact Hb1].
                       - rewrite St. lia.
                       - rewrite St. split; [intros _; right; lia|auto]. }
                     rewrite St in F1. exact F1.
                 --- assert (seen = true) as -> by (apply Hseen; lia).
                     destruct (Z.leb_spec 0 (order_index N s)); [|lia].
                     assert (F1 : follows (order_index N s1) (order_index N s') (asked_threads true rest)).
                     { eapply IH; [exact H2|exact O2|exact Hp|exact Hn|exact Hb|exact Hh'|left; rewrite St; lia| | |exact E].
                       - rewrite St. lia.
                       - rewrite St. split; [intros _; left; lia|auto]. }
                     rewrite St in F1.
                     destruct (thread_number a) as [n|] eqn:En; [|exfalso; exact (Na Ct eq_refl)].
                     assert (Dec : dec_field (scmd a) THREAD_MASK 8 = Some n) by (rewrite thread_number_dec; exact En).
                     destruct (Hhere eq_refl (NotSeq Ct) n Dec) as (ch & C1 & C2 & C3).
                     unfold follows in *. destruct F1 as [F1|[F1 F2]]; [lia|]. right. cbn [length]. split; [lia|].
                     intros [|j] t Hj; cbn [nth_error] in Hj.
                     +++ injection Hj as <-. exists ch, n.
                         replace (Z.max 0 (order_index N s) + 1 + Z.of_nat 0) with ci by lia.
                         pose proof (thread_number_range _ _ En). auto.
                     +++ destruct (F2 j t Hj) as (ch' & n' & D). exists ch', n'.
                         replace (Z.max 0 (order_index N s) + 1 + Z.of_nat (S j))
                           with (Z.max 0 (order_index N s + 1) + 1 + Z.of_nat j) by lia. exact D.
              ** (* a trailing break *)
                 rewrite andb_false_r in St. rewrite (quiet_asks _ _ Hb).
                 rewrite (loop_quiet _ _ _ _ _ _ H2 O2 Hp El Hb E), St.
                 unfold follows. destruct (Z.eq_dec (order_index N s) (-1)) as [X|X]; [left; auto|].
                 right. split; [cbn; lia|]. intros j t Hj. destruct j; discriminate.
           ++ (* no change *)
              assert (Ct : changes_thread a = false) by (unfold changes_thread; rewrite Ex, Eb; reflexivity).
              rewrite Ct in Hi, Hh'. cbn [andb orb] in *. rewrite Hend in Hi.
              assert (F1 : follows (order_index N s1) (order_index N s') (asked_threads seen rest)).
              { eapply IH; [exact H2|exact O2|exact Hp|exact Hn|exact Hb|exact Hh'|rewrite St; exact Hi| | |exact E].
                - rewrite St. exact Hlow.
                - rewrite St. exact Hseen. }
              rewrite St in F1. exact F1.
Qed.
End Threads.

(** ** The whole encoder *)
Lemma filter_changes : forall C kind seqs speeds (l : list (stitch C)) m m', kind = COLOR_CHANGE ->
  mrun kind seqs speeds m (map scmd l) = Some m' ->
  m_changes m' = m_changes m ++ map scmd (filter (is_cmd COLOR_CHANGE) l).
Proof.
  intros C kind seqs speeds l. induction l as [|a l IH]; intros m m' Hk E; cbn [map mrun filter] in *.
  - injection E as <-. rewrite app_nil_r. reflexivity.
  - destruct (mstep kind seqs speeds m (scmd a)) as [m1|] eqn:E1; [|discriminate].
    rewrite (IH _ _ Hk E). change (is_cmd COLOR_CHANGE a) with (cmd_of (scmd a) =? COLOR_CHANGE).
    unfold mstep in E1. cbv zeta in E1.
    repeat match type of E1 with
    | (if cmd_of (scmd a) =? ?k then _ else _) = _ => destruct (Z.eqb_spec (cmd_of (scmd a)) k) as [Hq|]
    | (if (cmd_of (scmd a) =? SLOW) || _ then _ else _) = _ =>
        destruct ((cmd_of (scmd a) =? SLOW) || (cmd_of (scmd a) =? FAST)) eqn:Hsp
    | (if kind =? ?k then _ else _) = _ => destruct (Z.eqb_spec kind k) as [Hkind|]
    | (if ?b then _ else _) = _ => destruct b
    end; try discriminate E1; injection E1 as <-; cbn [m_changes];
    try (rewrite Hq; reflexivity); try reflexivity.
    + cbn [map]. rewrite <- app_assoc. reflexivity.
    + exfalso. rewrite Hkind in Hk. discriminate Hk.
Qed.

Section Whole.
Context (N : Num).
Notation F := (F N).

Lemma source_any : forall l, source_ok N true true l.
Proof.
  intros l. apply Forall_forall. intros a _.
  destruct (classify (cmd_of (scmd a))); cbn; auto.
Qed.

Lemma transcode_threads : forall set p o ths, transcode N set p = Ok (o, ths) ->
  thread_change_command (init_config N set) = COLOR_CHANGE ->
  Forall (plain_sewing N) (p_stitches N p) -> numbered N (p_stitches N p) ->
  Forall (fun a => is_cmd SET_CHANGE_SEQUENCE a = false) (p_stitches N p) ->
  breaks_effective false (p_stitches N p) = true ->
  map thread_number (filter (is_cmd COLOR_CHANGE) o) = asked_threads false (p_stitches N p) /\
  map Some (tl ths) = map (option_map (get_thread_or_filler (p_threads N p))) (asked_threads false (p_stitches N p)).
Proof.
  intros set p o ths E Hk Hp Hn Hs Hb. rewrite transcode_unfold in E.
  destruct (build_thread_change_sequence _ _ _ _) as [seq|] eqn:Eb; [|discriminate]. cbn [bindr] in E.
  destruct (main_loop _ _ _ _ _ _ _) as [s|] eqn:Em; [|discriminate]. cbn [bindr] in E. injection E as <- <-.
  set (s0 := start N set (p_threads N p)) in *.
  assert (Hi : Inv N (init_config N set) seq (start_threads N set (p_threads N p)) true true s0 mon0)
    by (apply start_inv; auto).
  assert (Os : order_index N s0 = -1).
  { unfold s0, start. destruct (_ =? _); reflexivity. }
  destruct (plan_covers _ _ _ _ _ Eb) as [K0 _].
  assert (Hs' : Forall (fun c => cmd_of c <> SET_CHANGE_SEQUENCE) (map scmd (p_stitches N p))).
  { apply Forall_map. eapply Forall_impl; [|exact Hs]. intros a Ha. apply Z.eqb_neq. exact Ha. }
  pose proof (plan_honours _ _ _ _ _ Hs' Eb) as Hh.
  assert (Fo : follows seq (p_threads N p) (order_index N s0) (order_index N s) (asked_threads false (p_stitches N p))).
  { eapply loop_follows with (m := mon0) (ci := 0); try eassumption.
    - apply start_open.
    - left. lia.
    - lia.
    - split; [discriminate|lia]. }
  destruct (main_loop_inv _ _ _ _ _ _ _ _ _ _ _ _ Hi (start_open _ _ _) (source_any _) Em)
    as (body & e & s1 & m1 & A & B & D & O & T & R).
  rewrite A, filter_app. cbn [filter].
  assert (Ce : is_cmd COLOR_CHANGE e = false).
  { unfold is_cmd. change (cmd_of (scmd e) =? COLOR_CHANGE = false). rewrite B. reflexivity. }
  rewrite Ce, app_nil_r.
  pose proof (i_run _ _ _ _ _ _ _ _ D) as Run. unfold cmds in Run. rewrite O in Run.
  pose proof (filter_changes _ _ _ _ _ _ _ Hk Run) as Fc. cbn [mon0 m_changes app] in Fc.
  destruct (i_plan _ _ _ _ _ _ _ _ D) as (chs & L & G & P1 & _). destruct (P1 Hk) as [T1 C1].
  assert (Bs : start_threads N set (p_threads N p) = []).
  { unfold start_threads. rewrite Hk. reflexivity. }
  rewrite Bs in T1. cbn [app] in T1. rewrite T, T1. rewrite C1 in Fc.
  rewrite R in Fo. rewrite Os in Fo.
  set (asked := asked_threads false (p_stitches N p)) in *.
  destruct Fo as [(_ & F1 & F2)|[F1 F2]].
  - rewrite F1 in L. assert (chs = []) as -> by (destruct chs; [reflexivity|cbn [length] in L; lia]).
    cbn in Fc. rewrite F2. cbn. destruct (filter (is_cmd COLOR_CHANGE) body); [|discriminate Fc]. split; reflexivity.
  - cbn [Z.max] in F1, F2.
    destruct chs as [|c0 chs]; [cbn [length] in L; lia|]. cbn [length tl map] in *.
    assert (Len : length chs = length asked) by lia.
    assert (Pt : forall j ch, nth_error chs j = Some ch -> exists n, nth_error asked j = Some (Some n) /\
       c_thread ch = n /\ 0 <= n < 255 /\ c_obj ch = get_thread_or_filler (p_threads N p) n).
    { intros j ch Hj. assert (Hl : (j < length asked)%nat) by (rewrite <- Len; apply nth_error_Some; congruence).
      destruct (nth_error asked j) as [t|] eqn:Ea; [|apply nth_error_None in Ea; lia].
      destruct (F2 j t Ea) as (ch' & n & X1 & -> & X3 & X4 & X5).
      specialize (G (S j) ch Hj).
      replace (Z.of_nat (S j)) with (0 + 1 + Z.of_nat j) in G by lia.
      change (Z.max 0 (-1)) with 0 in X1. rewrite X1 in G. injection G as ->. exists n. auto. }
    clear - Pt Len Fc.
    revert Fc. generalize (filter (is_cmd COLOR_CHANGE) body) as fl. revert chs Len Pt.
    induction asked as [|t asked IH]; intros chs Len Pt fl Fc.
    + destruct chs; [|discriminate]. cbn in Fc. destruct fl; [|discriminate Fc]. split; reflexivity.
    + destruct chs as [|ch chs]; [discriminate|]. cbn [map length] in *. destruct fl as [|a fl]; [discriminate|].
      cbn [map] in Fc. injection Fc as Fa Fc.
      destruct (Pt O ch eq_refl) as (n & X1 & X2 & X3 & X4). cbn in X1. injection X1 as ->.
      destruct (IH chs ltac:(lia) (fun j ch Hj => Pt (S j) ch Hj) fl Fc) as [I1 I2].
      cbn [map]. rewrite I1, I2, X4. cbn [option_map]. split; [|reflexivity]. f_equal.
      rewrite (thread_of_enc _ COLOR_CHANGE ch a); [congruence|unfold COLOR_CHANGE; lia|lia|congruence].
Qed.
End Whole.
