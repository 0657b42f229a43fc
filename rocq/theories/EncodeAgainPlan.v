(** The thread plans of the first and of the second encoding. *)
From Coq Require Import ZArith List Bool Lia ZifyBool.
From Verif Require Import PyBase EmbConst BitLemmas FunctionsModel FunctionsProofs ThreadModel NumModel MatrixModel EncoderModel
  EncoderProofs EncoderSpec EncoderFlowProofs EncodeAgainSpec.
Import ListNotations.
Open Scope Z_scope.

Lemma decode_parts c : exists t n o, decode_embroidery_command c = (cmd_of c, t, n, o).
Proof. unfold decode_embroidery_command, cmd_of. eauto. Qed.
Lemma needle_range c f t n o : decode_embroidery_command c = (f, t, Some n, o) -> 0 <= n <= 254.
Proof.
  unfold decode_embroidery_command. intros H. injection H as _ _ H _. unfold dec_field in H.
  change NEEDLE_MASK with (Z.shiftl 0xFF 16) in H. rewrite shiftr_mask in H by lia.
  destruct (_ =? _) eqn:E in H; [discriminate|]. injection H as <-.
  pose proof (Z.mod_pos_bound (c / 2 ^ 16) 256 ltac:(lia)). apply Z.eqb_neq in E. lia.
Qed.

(** ** The first plan: numbers in order *)
Definition open_event (e : event) : Prop := e_thread e = None /\ match e_needle e with Some n => 0 <= n <= 254 | None => True end.
Fixpoint indexed (i : Z) (evs : list event) : Prop :=
  match evs with
  | [] => True
  | e :: r => (e_index e = Some i \/ i = 0 /\ e_index e = Some 1) /\ open_event e /\
              match e_index e with Some j => indexed (j + 1) r | None => False end
  end.
Lemma events_indexed {C} : forall (l : list (stitch C)) i, 0 <= i -> leaves_threads_open l ->
  indexed i (thread_change_events i (map scmd l)).
Proof.
  induction l as [|a l IH]; intros i Hi F; [exact I|]. cbn [map thread_change_events].
  destruct (decode_parts (scmd a)) as (t & n & o & D). rewrite D. inversion F as [|? ? [F1 F2] Fr]; subst.
  change (is_cmd SET_CHANGE_SEQUENCE a) with (cmd_of (scmd a) =? SET_CHANGE_SEQUENCE) in F1. rewrite F1.
  rewrite D in F2.
  set (j := if (i =? 0) && is_sewing (cmd_of (scmd a)) then 1 else i).
  assert (J : j = i \/ i = 0 /\ j = 1) by (unfold j; destruct (Z.eqb_spec i 0), (is_sewing (cmd_of (scmd a))); cbn [andb]; auto).
  destruct ((cmd_of (scmd a) =? NEEDLE_SET) || (cmd_of (scmd a) =? COLOR_CHANGE) || (cmd_of (scmd a) =? COLOR_BREAK)) eqn:Ec.
  - cbn [indexed e_index e_thread e_needle open_event]. split; [destruct J as [-> | [-> ->]]; auto|]. split.
    + split; cbn [e_thread e_needle].
      * apply F2. rewrite !orb_true_iff in Ec.
        change (is_cmd COLOR_CHANGE a) with (cmd_of (scmd a) =? COLOR_CHANGE).
        change (is_cmd NEEDLE_SET a) with (cmd_of (scmd a) =? NEEDLE_SET).
        change (is_cmd COLOR_BREAK a) with (cmd_of (scmd a) =? COLOR_BREAK). tauto.
      * destruct n as [n|]; [|exact I]. eapply needle_range; exact D.
    + apply IH; [lia|exact Fr].
  - destruct J as [-> | [-> ->]].
    + apply IH; assumption.
    + pose proof (IH 1 ltac:(lia) Fr) as H. destruct (thread_change_events 1 (map scmd l)) as [|e r]; [exact I|].
      cbn [indexed] in *. destruct H as ([H|[H _]] & H2 & H3); [|discriminate]. split; [right; auto|]. split; assumption.
Qed.

Definition open_draft (d : draft) : Prop := d_thread d = None /\ match d_needle d with Some n => 0 <= n <= 254 | None => True end.
(** Keys 0, 1, 2, ... in this order. *)
Fixpoint keyed {A} (P : A -> Prop) (k : Z) (d : dict A) : Prop :=
  match d with [] => True | (k', a) :: r => k' = k /\ P a /\ keyed P (k + 1) r end.
Lemma keyed_snoc {A} (P : A -> Prop) a : forall d k, keyed P k d -> P a ->
  keyed P k (dict_set (k + Z.of_nat (length d)) a d) /\ length (dict_set (k + Z.of_nat (length d)) a d) = S (length d).
Proof.
  induction d as [|[k' b] d IH]; intros k H Pa; cbn [dict_set keyed length] in *.
  - split; [split; [lia|split; [exact Pa|exact I]]|reflexivity].
  - destruct H as (-> & Pb & H). destruct (Z.eqb_spec k (k + Z.of_nat (S (length d)))); [lia|].
    replace (k + Z.of_nat (S (length d))) with (k + 1 + Z.of_nat (length d)) by lia.
    destruct (IH (k + 1) H Pa) as [A1 A2]. cbn [keyed length]. split; [auto|congruence].
Qed.
Lemma keyed_none {A} (P : A -> Prop) : forall d k j, keyed P k d -> k + Z.of_nat (length d) <= j -> dict_get j d = None.
Proof.
  induction d as [|[k' b] d IH]; intros k j H L; [reflexivity|]. cbn [dict_get keyed length] in *. destruct H as (-> & _ & H).
  destruct (Z.eqb_spec k j); [lia|]. apply (IH (k + 1)); [exact H|lia].
Qed.
Lemma fill_open threads e d : open_event e -> open_draft d -> open_draft (fill_draft threads e d).
Proof.
  intros [H1 H2] [D1 D2]. unfold fill_draft. rewrite H1. split; cbn [d_thread d_needle]; [exact D1|].
  destruct (e_needle e); assumption.
Qed.
Lemma plan_open threads : forall evs i la d, indexed i evs -> keyed open_draft 0 d -> (0 < length d)%nat ->
  i = Z.of_nat (length d) \/ i = 0 /\ length d = 1%nat ->
  keyed open_draft 0 (plan_events threads la d evs).
Proof.
  induction evs as [|e evs IH]; intros i la d H K L Hi; [exact K|]. cbn [plan_events indexed] in *.
  destruct H as (Hx & He & Hr). destruct (e_index e) as [j|] eqn:Ej; [|contradiction].
  assert (J : j = Z.of_nat (length d) \/ j = 0 /\ length d = 1%nat).
  { destruct Hx as [E|[-> E]]; injection E as ->; [exact Hi|]. left. destruct Hi as [Hi|[_ ->]]; [lia|reflexivity]. }
  cbv beta iota zeta. destruct J as [-> | [-> L1]].
  - rewrite (keyed_none _ d 0 _ K) by lia.
    destruct (keyed_snoc open_draft (fill_draft threads e no_draft) d 0 K) as [K' L'].
    { apply fill_open; [exact He|split; [reflexivity|exact I]]. }
    cbn [Z.add] in K', L'. eapply IH; [exact Hr|exact K'|rewrite L'; lia|left; rewrite L'; lia].
  - destruct d as [|[k b] [|]]; try discriminate L1. cbn [keyed] in K. destruct K as (-> & Pb & _).
    cbn [dict_get dict_set Z.eqb]. eapply IH; [exact Hr| |cbn; lia|left; reflexivity].
    cbn [keyed]. split; [reflexivity|]. split; [apply fill_open; assumption|exact I].
Qed.
Definition numbered_change (k : Z) (ch : change) : Prop := c_thread ch = k /\ 0 <= c_needle ch <= 254.
Lemma finish_numbered threads tcc limit : 1 <= limit <= 254 -> forall d k ni seq, 1 <= ni -> keyed open_draft k d ->
  finish_plan threads tcc limit k ni d = Ok seq -> forall j ch, dict_get j seq = Some ch -> numbered_change j ch.
Proof.
  intros Hl. induction d as [|[k' dr] d IH]; intros k ni seq Hn K E j ch G; cbn [finish_plan keyed] in *.
  - injection E as <-. discriminate.
  - destruct K as (-> & [D1 D2] & K). rewrite D1 in E.
    assert (Nd : exists nd ni', match d_needle dr with
        | Some n => Ok (n, ni)
        | None => if limit <? ni then if limit =? 0 then Err ZeroDivisionError else Ok ((ni - 1) mod limit + 1, ni + 1) else Ok (ni, ni + 1)
        end = Ok (nd, ni') /\ 0 <= nd <= 254 /\ 1 <= ni').
    { destruct (d_needle dr) as [n|]; [exists n, ni; auto|]. destruct (Z.ltb_spec limit ni).
      - destruct (Z.eqb_spec limit 0); [lia|]. eexists _, _. split; [reflexivity|]. pose proof (Z.mod_pos_bound (ni - 1) limit ltac:(lia)). lia.
      - eexists _, _. split; [reflexivity|]. lia. }
    destruct Nd as (nd & ni' & En & Rn & Hn'). rewrite En in E. cbn [bindr] in E.
    destruct (finish_plan threads tcc limit (k + 1) ni' d) as [q|] eqn:Eq; [|discriminate]. injection E as <-.
    cbn [dict_get] in G. destruct (Z.eqb_spec k j) as [->|].
    + injection G as <-. split; [reflexivity|exact Rn].
    + eapply IH; [exact Hn'|exact K|exact Eq|exact G].
Qed.
Lemma first_plan {C} tcc limit threads (l : list (stitch C)) seq : 1 <= limit <= 254 -> leaves_threads_open l ->
  build_thread_change_sequence tcc limit threads (map scmd l) = Ok seq ->
  forall j ch, dict_get j seq = Some ch -> numbered_change j ch.
Proof.
  intros Hl F E. unfold build_thread_change_sequence in E. eapply finish_numbered; [exact Hl| | |exact E]; [lia|].
  eapply plan_open; [apply events_indexed; [|exact F]; lia| |cbn; lia|right; split; reflexivity].
  cbn [keyed]. split; [reflexivity|]. split; [split; [reflexivity|exact I]|exact I].
Qed.

(** ** The second plan *)
(** The colour changes carry the numbers k, k + 1, ... *)
Fixpoint numbered (k : Z) (ccs : list Z) : Prop :=
  match ccs with
  | [] => True
  | c :: r => (exists n, 0 <= n <= 254 /\ c = encode_thread_change COLOR_CHANGE (Some k) (Some n) None) /\ numbered (k + 1) r
  end.
Definition is_cc (c : Z) : bool := cmd_of c =? COLOR_CHANGE.
Fixpoint events_from (i : Z) (ccs : list Z) : list event :=
  match ccs with
  | [] => []
  | c :: r => (let '(f, t, n, o) := decode_embroidery_command c in mkE f t n o (Some i)) :: events_from (i + 1) r
  end.
Definition tame (c : Z) : Prop :=
  cmd_of c <> SET_CHANGE_SEQUENCE /\ cmd_of c <> NEEDLE_SET /\ cmd_of c <> COLOR_BREAK.
Lemma events_later : forall cmds i, 1 <= i -> Forall tame cmds -> thread_change_events i cmds = events_from i (filter is_cc cmds).
Proof.
  induction cmds as [|c cmds IH]; intros i Hi F; [reflexivity|]. inversion F as [|? ? [T1 [T2 T3]] Fr]; subst.
  cbn [thread_change_events filter]. destruct (decode_parts c) as (t & n & o & D). rewrite D.
  destruct (Z.eqb_spec i 0); [lia|]. cbn [andb]. destruct (Z.eqb_spec (cmd_of c) SET_CHANGE_SEQUENCE); [congruence|].
  destruct (Z.eqb_spec (cmd_of c) NEEDLE_SET); [congruence|]. destruct (Z.eqb_spec (cmd_of c) COLOR_BREAK); [congruence|].
  rewrite orb_false_r. cbn [orb]. unfold is_cc at 1. destruct (Z.eqb_spec (cmd_of c) COLOR_CHANGE).
  - cbn [events_from]. rewrite D. f_equal. apply IH; [lia|exact Fr].
  - apply IH; assumption.
Qed.
Lemma events_again : forall pre a post, Forall tame (pre ++ a :: post) -> cmd_of a = STITCH -> Forall (fun c => cmd_of c <> COLOR_CHANGE) pre ->
  thread_change_events 0 (pre ++ a :: post) = events_from 1 (filter is_cc (pre ++ a :: post)).
Proof.
  induction pre as [|c pre IH]; intros a post F Ha Fc; cbn [app].
  - inversion F as [|? ? T Fr]; subst. cbn [thread_change_events filter]. destruct (decode_parts a) as (t & n & o & D). rewrite D.
    unfold is_cc at 1. rewrite Ha. cbn [Z.eqb andb is_sewing]. change (thread_change_events 1 post = events_from 1 (filter is_cc post)).
    apply events_later; [lia|exact Fr].
  - inversion F as [|? ? T Fr]; subst. inversion Fc as [|? ? N Fc']; subst. pose proof T as (T1 & T2 & T3).
    cbn [thread_change_events filter]. destruct (decode_parts c) as (t & n & o & D). rewrite D.
    destruct (Z.eqb_spec (cmd_of c) SET_CHANGE_SEQUENCE); [congruence|].
    destruct (Z.eqb_spec (cmd_of c) NEEDLE_SET); [congruence|]. destruct (Z.eqb_spec (cmd_of c) COLOR_BREAK); [congruence|].
    unfold is_cc at 1. destruct (Z.eqb_spec (cmd_of c) COLOR_CHANGE); [congruence|]. cbn [orb].
    destruct (is_sewing (cmd_of c)); cbn [andb Z.eqb].
    + apply events_later; [lia|exact Fr].
    + apply IH; assumption.
Qed.
Lemma events_tail : forall l i, length (events_from i l) = length l.
Proof. induction l as [|c l IH]; intros i; [reflexivity|]. cbn [events_from length]. rewrite IH. reflexivity. Qed.

Fixpoint drafts_from (threads : list thread) (i : Z) (ccs : list Z) : dict draft :=
  match ccs with
  | [] => []
  | c :: r => (i, let '(f, t, n, o) := decode_embroidery_command c in fill_draft threads (mkE f t n o (Some i)) no_draft)
              :: drafts_from threads (i + 1) r
  end.
Lemma dict_set_new {A} (P : A -> Prop) (a : A) : forall d k j, keyed P k d -> k + Z.of_nat (length d) <= j -> dict_set j a d = d ++ [(j, a)].
Proof.
  induction d as [|[k' b] d IH]; intros k j K L; cbn [dict_set app keyed length] in *; [reflexivity|].
  destruct K as (-> & _ & K). destruct (Z.eqb_spec k j); [lia|]. f_equal. apply (IH (k + 1)); [exact K|lia].
Qed.
Lemma keyed_app {A} (P : A -> Prop) j a : forall d k, keyed P k d -> P a -> j = k + Z.of_nat (length d) -> keyed P k (d ++ [(j, a)]).
Proof.
  induction d as [|[k' b] d IH]; intros k K Pa ->; cbn [app keyed length] in *; [split; [lia|auto]|].
  destruct K as (-> & Pb & K). split; [reflexivity|]. split; [exact Pb|]. apply IH; [exact K|exact Pa|lia].
Qed.
Lemma plan_again threads : forall ccs i la d, keyed (fun _ => True) 0 d -> i = Z.of_nat (length d) ->
  plan_events threads la d (events_from i ccs) = d ++ drafts_from threads i ccs.
Proof.
  induction ccs as [|c ccs IH]; intros i la d K Hi; cbn [events_from plan_events drafts_from]; [rewrite app_nil_r; reflexivity|].
  destruct (decode_parts c) as (t & n & o & D). rewrite D. cbn [e_index]. cbv beta iota zeta.
  rewrite (keyed_none _ d 0 i K) by lia. rewrite (dict_set_new (fun _ => True) _ d 0 i K) by lia.
  rewrite IH.
  - rewrite <- app_assoc. reflexivity.
  - apply keyed_app; [exact K|exact I|lia].
  - rewrite app_length. cbn [length]. lia.
Qed.

(** What the second plan must give: the threads in order, and each colour change as it is. *)
Definition plan_same (threads : list thread) (k : Z) (ch : change) (cc : option Z) : Prop :=
  c_obj ch = get_thread_or_filler threads k /\
  match cc with Some c => encode_thread_change COLOR_CHANGE (Some (c_thread ch)) (Some (c_needle ch)) None = c | None => True end.
Lemma finish_again threads tcc limit : forall ccs k ti ni, 0 <= k -> k + Z.of_nat (length ccs) <= 255 -> numbered k ccs ->
  exists seq, finish_plan threads tcc limit ti ni (drafts_from threads k ccs) = Ok seq /\
    forall j c, nth_error ccs j = Some c -> exists ch, dict_get (k + Z.of_nat j) seq = Some ch /\ plan_same threads (k + Z.of_nat j) ch (Some c).
Proof.
  induction ccs as [|c ccs IH]; intros k ti ni Hk L H; cbn [drafts_from finish_plan numbered length] in *.
  - exists []. split; [reflexivity|]. intros j c E. destruct j; discriminate.
  - destruct H as [(n & Rn & Ec) H]. destruct (IH (k + 1) ti ni ltac:(lia) ltac:(lia) H) as (seq & Es & G).
    assert (D : decode_embroidery_command c = (COLOR_CHANGE, Some k, Some n, None)).
    { rewrite Ec. rewrite decode_encode; [|unfold field_fits; rewrite Z.mod_small by lia; lia|unfold field_fits; rewrite Z.mod_small by lia; lia|exact I]. cbn [field_low option_map].
      rewrite (Z.mod_small k), (Z.mod_small n) by lia. reflexivity. }
    rewrite D. cbn [fill_draft e_flags e_thread e_needle d_cmd d_thread d_needle d_obj bindr]. rewrite Es. cbn [bindr].
    eexists. split; [reflexivity|]. intros [|j] c' E; cbn [nth_error] in E; cbn [dict_get].
    + injection E as <-. replace (k + Z.of_nat 0) with k by lia. rewrite Z.eqb_refl. eexists. split; [reflexivity|].
      split; [reflexivity|]. cbn [c_thread c_needle]. symmetry. exact Ec.
    + destruct (Z.eqb_spec k (k + Z.of_nat (S j))); [lia|]. replace (k + Z.of_nat (S j)) with (k + 1 + Z.of_nat j) by lia.
      apply G. exact E.
Qed.
Lemma second_plan tcc limit threads cmds pre a post : 1 <= limit -> cmds = pre ++ a :: post -> Forall tame cmds ->
  cmd_of a = STITCH -> Forall (fun c => cmd_of c <> COLOR_CHANGE) pre ->
  numbered 1 (filter is_cc cmds) -> Z.of_nat (length (filter is_cc cmds)) <= 254 ->
  exists seq, build_thread_change_sequence tcc limit threads cmds = Ok seq /\
    (exists ch, dict_get 0 seq = Some ch /\ plan_same threads 0 ch None) /\
    forall j c, nth_error (filter is_cc cmds) j = Some c ->
      exists ch, dict_get (1 + Z.of_nat j) seq = Some ch /\ plan_same threads (1 + Z.of_nat j) ch (Some c).
Proof.
  intros Hl E F Ha Hp Hn L. unfold build_thread_change_sequence. rewrite E in F |- *. rewrite events_again by assumption. rewrite <- E.
  rewrite (plan_again threads _ 1 0 [(0, no_draft)]); [|split; [reflexivity|split; exact I]|reflexivity].
  cbn [app finish_plan no_draft d_cmd d_thread d_needle d_obj]. destruct (Z.ltb_spec limit 1); [lia|]. cbn [bindr].
  destruct (finish_again threads tcc limit (filter is_cc cmds) 1 (0 + 1) (1 + 1) ltac:(lia) ltac:(lia) Hn) as (seq & Es & G).
  rewrite Es. cbn [bindr]. eexists. split; [reflexivity|]. split.
  - cbn [dict_get Z.eqb]. eexists. split; [reflexivity|]. split; [reflexivity|exact I].
  - intros j c Ej. cbn [dict_get]. destruct (Z.eqb_spec 0 (1 + Z.of_nat j)); [lia|]. apply G. exact Ej.
Qed.
