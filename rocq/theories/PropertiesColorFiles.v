(** C240: the thread of every stitch in EXP, DST and XXX files. *)
From Coq Require Import Ascii String ZArith QArith List Bool Lia.
From Verif Require Import PyBase EmbConst PatternModel FunctionsModel StreamModel StreamSpec StreamProofs ThreadModel NumModel NumQ MatrixModel EncoderModel
  EncoderProofs EncoderSpec EncoderColorSpec QuantModel QuantProofs MetricSpec SettingsModel HelperModel ExpModel XxxModel FormatSpec WholeModel WholeSpec DstModel DstSpec DstFileModel DstFileSpec DstWholeProofs DstAnyProofs PropertiesDstFile
  PropertiesEncoder PropertiesSettings PropertiesPipeline FidelitySpec FidelityProofs PropertiesFidelity PropertiesColor PropertiesMachines
  PropertiesWork PropertiesWorkFile PropertiesWorkFiles PropertiesWorkU01 PropertiesWorkXxx PropertiesColorGcode.
Import ListNotations.
Open Scope Z_scope.

(** Of a list of commands: for each stitch, the number of colour changes before it. *)
Fixpoint sections (n : nat) (ks : list Z) : list nat :=
  match ks with
  | [] => []
  | k :: r => if k =? COLOR_CHANGE then sections (S n) r else if k =? STITCH then n :: sections n r else sections n r
  end.
Lemma sections_soc ks : forall n, sections n (only_sewn_or_changed ks) = sections n ks.
Proof.
  unfold only_sewn_or_changed. induction ks as [|k r IH]; intros n; [reflexivity|]. cbn [filter sections].
  destruct (k =? STITCH) eqn:E1; destruct (k =? COLOR_CHANGE) eqn:E2; cbn [orb sections]; rewrite ?E1, ?E2, ?IH; reflexivity.
Qed.
Lemma sections_work C (l : list (stitch C)) : forall n, sections n (work l) = sections n (commands l).
Proof.
  induction l as [|a r IH]; intros n; [reflexivity|]. unfold work, commands. cbn [map filter]. set (k := Z.land (scmd a) 255).
  destruct (is_work k) eqn:W; cbn [sections]; [change (filter is_work (map (fun a => Z.land (scmd a) 255) r)) with (work r); rewrite !IH; reflexivity|].
  destruct (Z.eqb_spec k COLOR_CHANGE) as [E|_]; [rewrite E in W; discriminate W|]. destruct (Z.eqb_spec k STITCH) as [E|_]; [rewrite E in W; discriminate W|]. apply IH.
Qed.
Lemma sections_coloured C (l : list (stitch C)) : forall n, map fst (coloured n l) = sections n (commands l) /\ map snd (coloured n l) = needle_points l.
Proof.
  induction l as [|a r IH]; intros n; [split; reflexivity|]. unfold commands, needle_points. cbn [coloured map sections filter].
  change (Z.land (scmd a) 255 =? COLOR_CHANGE) with (is_cmd COLOR_CHANGE a). change (Z.land (scmd a) 255 =? STITCH) with (is_cmd STITCH a).
  destruct (is_cmd COLOR_CHANGE a) eqn:E.
  - assert (E2 : is_cmd STITCH a = false) by (unfold is_cmd in *; apply Z.eqb_eq in E; rewrite E; reflexivity). rewrite E2. apply IH.
  - destruct (is_cmd STITCH a); [|apply IH]. cbn [map fst snd]. destruct (IH n) as [-> ->]. split; reflexivity.
Qed.
Lemma threaded_stitches (l : list (stitch Q)) : forall n, map snd (threaded n l) = design_stitches l.
Proof.
  unfold design_stitches. induction l as [|a r IH]; intros n; [reflexivity|]. cbn [threaded until_end]. destruct (is_cmd END a); [reflexivity|]. cbn [filter]. rewrite map_app, IH.
  destruct (sews_src a) eqn:S1.
  - unfold take_thread at 1. unfold sews_any. rewrite S1. reflexivity.
  - destruct (take_thread n a r); reflexivity.
Qed.
Lemma pairs_related A B C (P : B -> C -> Prop) (l : list (A * B)) : forall (k : list (A * C)), map fst l = map fst k -> Forall2 P (map snd l) (map snd k) ->
  Forall2 (fun a b => fst a = fst b /\ P (snd a) (snd b)) l k.
Proof.
  induction l as [|a l IH]; intros [|b k] H1 H2; cbn [map] in *; try discriminate; constructor.
  - injection H1 as H1 _. inversion H2; subst. auto.
  - injection H1 as _ H1. inversion H2; subst. apply IH; assumption.
Qed.
Lemma no_stops_left ks : ~ In STOP ks -> map without_stops ks = ks.
Proof.
  induction ks as [|k r IH]; intros H; [reflexivity|]. cbn [map]. rewrite IH by (intros X; apply H; right; exact X). unfold without_stops.
  destruct (Z.eqb_spec k STOP) as [->|_]; [exfalso; apply H; left; reflexivity|reflexivity].
Qed.

(** Thread changes are not numbered and not rearranged. *)
Record threads_in_order {C} (src : list (stitch C)) : Prop := {
  to_bare : Forall bare_sewing src;
  to_sequence : Forall (fun a => is_cmd SET_CHANGE_SEQUENCE a = false) src;
  to_numbers : Forall (fun a => changes_thread a = true -> thread_number a = None) src
}.
(** The stitches of the design come back in order, each within half a unit of its place and after as many colour changes
    as the number of its thread. *)
Definition threads_kept (src : list (stitch Q)) (l : list (nat * (Z * Z))) : Prop :=
  Forall2 (fun ka kz => fst ka = fst kz /\ half_unit (snd ka) (snd kz)) (threaded None src) l.

Section ColorFiles.
Variables (qcos qsin : Q -> Q) (qorient : Q -> Q -> Q -> Q -> Q -> Q * Q).
Notation N := (QNum qcos qsin qorient).
Hypothesis (Hturn : forall t, ~ (qcos t * qcos t + qsin t * qsin t == 0)%Q).
Hypothesis (Hdir : direction_bounded qorient).

Lemma asked_sections m set (p : pattern N) out ths : savable qcos qsin qorient m set (p_stitches N p) ->
  plain_settings set -> requested_change set = COLOR_CHANGE -> Forall (fun a => has_command left_out a = false) (until_end (p_stitches N p)) -> breaks_clear (p_stitches N p) ->
  threads_in_order (p_stitches N p) -> never_stops (p_stitches N p) -> transcode N set p = Ok (out, ths) ->
  let asks := all_asked COLOR_CHANGE true (mkAsk (match s_explicit_trim N set with Some b => b | None => false end) false false) (until_end (p_stitches N p)) in
  map fst (threaded None (p_stitches N p)) = sections 0 asks /\ map without_stops asks = asks /\
  forall k t, nth_error ths k = Some t -> t = get_thread_or_filler (p_threads N p) (Z.of_nat k).
Proof.
  intros V Hp Hc Hl Hb [B1 B2 B3] Hst E asks. pose proof (v_matrix _ _ _ _ _ _ V) as Hm.
  assert (D : Forall (fun a => has_command (matrix_commands ++ stitching_commands) a = false) (until_end (p_stitches N p))).
  { rewrite Forall_forall in Hm, Hl |- *. intros a Ha. specialize (Hm a Ha). specialize (Hl a Ha). unfold has_command, left_out in *. rewrite existsb_app in *.
    apply orb_false_iff in Hl. apply orb_false_iff. split; [exact Hm|exact (proj1 Hl)]. }
  destruct (colours_of_transcode N set p out ths E Hc Hm B1 B2 B3) as (_ & _ & Gt & qs & Qs & _ & _ & Ex). specialize (Ex Hp D).
  pose proof (C229_work N set p out ths E Hp ltac:(rewrite Hc; left; reflexivity) Hl Hb) as W. rewrite Hc in W.
  rewrite asked_without_speeds in W; [|apply Forall_forall; intros a Ha; pose proof (v_speeds _ _ _ _ _ _ V) as S0; unfold no_speeds in S0; rewrite Forall_forall in S0; apply S0; exact (until_end_in _ _ Ha)].
  split; [|split].
  - transitivity (map fst qs).
    + clear - Qs. induction Qs as [|a b l k [H _] _ IH]; [reflexivity|]. cbn [map]. f_equal; assumption.
    + rewrite <- Ex. destruct (sections_coloured _ out 0) as [X _]. rewrite X, <- sections_work, W. reflexivity.
  - apply no_stops_left. apply no_stop_asked. exact Hst.
  - exact Gt.
Qed.

Theorem C240_exp : forall (set : settings N) (p : pattern N),
  savable qcos qsin qorient 127 set (p_stitches N p) -> ~ sequins_requested set (p_stitches N p) ->
  plain_settings set -> requested_change set = COLOR_CHANGE ->
  Forall (fun a => has_command left_out a = false) (until_end (p_stitches N p)) -> breaks_clear (p_stitches N p) ->
  threads_in_order (p_stitches N p) -> never_stops (p_stitches N p) ->
  exists out threads, transcode N set p = Ok (out, threads) /\ threads_kept (p_stitches N p) (coloured 0 (exp_read (exp_write qz_q out))).
Proof.
  intros set p V Hq Hp Hc Hl Hb Ho Hs. destruct (C230_exp qcos qsin qorient Hturn Hdir set p V Hq Hp Hc Hl Hb) as (out & ths & E & St & W). exists out, ths. split; [exact E|].
  destruct (asked_sections _ _ _ _ _ V Hp Hc Hl Hb Ho Hs E) as (T & Ns & _). unfold threads_kept.
  destruct (sections_coloured _ (exp_read (exp_write qz_q out)) 0) as [C1 C2]. apply pairs_related.
  - rewrite C1, <- sections_work. change (F N) with Q in *. rewrite W, Ns. exact T.
  - rewrite C2, threaded_stitches. exact St.
Qed.

Theorem C240_xxx : forall (set : settings N) (p : pattern N),
  savable qcos qsin qorient 123 set (p_stitches N p) -> ~ sequins_requested set (p_stitches N p) ->
  plain_settings set -> requested_change set = COLOR_CHANGE ->
  Forall (fun a => has_command left_out a = false) (until_end (p_stitches N p)) -> breaks_clear (p_stitches N p) ->
  threads_in_order (p_stitches N p) -> never_stops (p_stitches N p) ->
  exists out threads, transcode N set p = Ok (out, threads) /\
  (forall colors, Forall2 colored threads colors -> Forall (fun c => 0 <= c < 2 ^ 24) colors -> zlen colors < 65536 ->
   exists file l, xxx_write colors out = Ok file /\ xxx_read_file file = Ok (l, colors) /\ threads_kept (p_stitches N p) (coloured 0 l) /\
     forall k c, nth_error colors k = Some c -> colored (get_thread_or_filler (p_threads N p) (Z.of_nat k)) c).
Proof.
  intros set p V Hq Hp Hc Hl Hb Ho Hs. destruct (C233_xxx qcos qsin qorient Hturn Hdir set p V Hq Hp Hc Hl Hb) as (out & ths & E & X). exists out, ths. split; [exact E|].
  intros colors H1 H2 H3. destruct (X colors H1 H2 H3) as (file & l & Wf & Rf & St & W). exists file, l. split; [exact Wf|]. split; [exact Rf|].
  destruct (asked_sections _ _ _ _ _ V Hp Hc Hl Hb Ho Hs E) as (T & Ns & G). split.
  - unfold threads_kept. destruct (sections_coloured _ l 0) as [C1 C2]. apply pairs_related.
    + rewrite C1, <- sections_work. change (F N) with Q in *. rewrite W, Ns. exact T.
    + rewrite C2, threaded_stitches. exact St.
  - intros k c Hk. clear - H1 Hk G. revert colors k H1 Hk G. generalize (get_thread_or_filler (p_threads N p)). intros g colors k H1. revert k.
    assert (A : forall k c, nth_error colors k = Some c -> exists t, nth_error ths k = Some t /\ colored t c).
    { induction H1 as [|t c0 l cs H _ IH]; intros [|k] c1 Hk; try discriminate; cbn [nth_error] in *; [injection Hk as <-; exists t; auto|apply IH; exact Hk]. }
    intros k Hk G. destruct (A k c Hk) as (t & Ht & Hc). rewrite <- (G k t Ht). exact Hc.
Qed.

Theorem C240_dst : forall extended trim_at info (set : settings N) (p : pattern N),
  savable qcos qsin qorient 121 set (p_stitches N p) -> info_ok extended info -> header_room extended info ->
  plain_settings set -> requested_change set = COLOR_CHANGE ->
  Forall (fun a => has_command left_out a = false) (until_end (p_stitches N p)) -> breaks_clear (p_stitches N p) ->
  threads_in_order (p_stitches N p) -> never_stops (p_stitches N p) ->
  exists out threads, transcode N set p = Ok (out, threads) /\
  (small out -> exists file loaded, dst_write extended trim_at info out = Ok file /\
    forall count distance clipping fuel, (List.length file < fuel)%nat ->
    exists l points, dst_read count distance clipping fuel file = Ok (l, loaded) /\
      coloured 0 l = map (fun kz => (fst kz, exact_point (snd kz))) points /\ threads_kept (p_stitches N p) points).
Proof.
  intros extended t info set p V Hi Hr Hp Hc Hl Hb Ho Hs. destruct (C231_dst qcos qsin qorient Hturn Hdir extended t info set p V Hi Hr Hp Hc Hl Hb) as (out & ths & E & X). exists out, ths. split; [exact E|].
  intros Sm. destruct (X Sm) as (file & h & Wf & R). exists file, h. split; [exact Wf|]. intros count distance clipping fuel Hf. destruct (R count distance clipping fuel Hf) as (l & pts & Rl & Np & St & W).
  destruct (asked_sections _ _ _ _ _ V Hp Hc Hl Hb Ho Hs E) as (T & Ns & _). destruct (sections_coloured _ l 0) as [C1 C2].
  assert (Sx : map fst (coloured 0 l) = map fst (threaded None (p_stitches N p))).
  { rewrite C1, <- sections_soc, W. unfold sewn_or_changed. rewrite Ns, sections_soc. symmetry. exact T. }
  assert (Ln : List.length (map fst (threaded None (p_stitches N p))) = List.length pts).
  { rewrite <- Sx, map_length, <- (map_length snd), C2, Np, map_length. reflexivity. }
  exists l, (combine (map fst (threaded None (p_stitches N p))) pts). split; [exact Rl|].
  assert (Cf : forall A B (a : list A) (b : list B), List.length a = List.length b -> map fst (combine a b) = a /\ map snd (combine a b) = b).
  { induction a as [|x a IH]; intros [|y b] H; try discriminate; [split; reflexivity|]. injection H as H. cbn [combine map fst snd]. destruct (IH b H) as [-> ->]. split; reflexivity. }
  destruct (Cf _ _ _ _ Ln) as [F1 F2]. split.
  - assert (Up : forall A B (u v : list (A * B)), map fst u = map fst v -> map snd u = map snd v -> u = v).
    { induction u as [|[a b] u IH]; intros [|[c d] v] H1 H2; try discriminate; [reflexivity|]. cbn [map fst snd] in *. injection H1 as -> H1. injection H2 as -> H2. f_equal. apply IH; assumption. }
    apply Up.
    + rewrite Sx, map_map. etransitivity; [symmetry; exact F1|]. apply map_ext. reflexivity.
    + rewrite C2, Np, map_map. etransitivity; [symmetry; exact (f_equal (map exact_point) F2)|]. rewrite map_map. apply map_ext. reflexivity.
  - unfold threads_kept. apply pairs_related; [symmetry; exact F1|]. rewrite F2, threaded_stitches. exact St.
Qed.
End ColorFiles.
Print Assumptions C240_exp.
Print Assumptions C240_xxx.
Print Assumptions C240_dst.

(** The design of C230 without its stop, with another change of colour. *)
Definition c240_design : list (stitch Q) :=
  [mkS (21 # 2) 0 STITCH; mkS 300 0 STITCH; mkS 300 0 TRIM; mkS 9 0 COLOR_CHANGE; mkS 9 0 STITCH; mkS 9 9 STITCH; mkS 9 9 COLOR_BREAK; mkS 6 6 STITCH; mkS 6 6 END]%Q.
Definition exp_set : settings ExNum := c116_set (exp_attributes ExNum inject_Z).
Definition dst_set : settings ExNum := c116_set (dst_attributes ExNum inject_Z).
Definition loaded_exp (src : list (stitch Q)) : list nat :=
  match transcode ExNum exp_set (mkP ExNum src []) with Ok (out, _) => map fst (coloured 0 (exp_read (exp_write qz_q out))) | Err _ => [] end.
Example C240_case : threads_in_order c240_design /\ never_stops c240_design /\
  savable ex_cos ex_sin ex_orient 127 exp_set c240_design /\ savable ex_cos ex_sin ex_orient 121 dst_set c240_design /\
  savable ex_cos ex_sin ex_orient 123 c125_set c240_design /\
  Forall (fun a => has_command left_out a = false) (until_end c240_design) /\ breaks_clear c240_design /\
  map fst (threaded None c240_design) = [0; 0; 1; 1; 2]%nat /\ loaded_exp c240_design = [0; 0; 1; 1; 2]%nat.
Proof.
  split; [|split; [|split; [|split; [|split; [|split; [|split; [|split]]]]]]].
  - split.
    + repeat (apply Forall_cons; [vm_compute; intros; first [discriminate|split; [intros; discriminate|reflexivity]]|]); apply Forall_nil.
    + each.
    + repeat (constructor; [vm_compute; reflexivity|]); constructor.
  - each.
  - eapply (C116_default_settings ex_cos ex_sin ex_orient [] c240_design); [each|each|each|each|each].
  - eapply (C116_default_settings ex_cos ex_sin ex_orient [] c240_design); [each|each|each|each|each].
  - constructor; [|repeat split|discriminate|discriminate|each|each|each].
    split; [reflexivity|]. split; [eexists; split; [reflexivity|split; vm_compute; congruence]|].
    split; [eexists; split; [reflexivity|split; vm_compute; congruence]|]. split; left; reflexivity.
  - each.
  - left. repeat constructor.
  - reflexivity.
  - vm_compute. reflexivity.
Qed.
(** After a stop, the stitches of an EXP file have the next thread. *)
Theorem C240_stop_shifts_threads : exists src, savable ex_cos ex_sin ex_orient 127 exp_set src /\ threads_in_order src /\
  Forall (fun a => has_command left_out a = false) (until_end src) /\
  map fst (threaded None src) = [0; 0; 1]%nat /\ loaded_exp src = [0; 1; 2]%nat.
Proof.
  exists stopped_design. split; [|split; [|split; [|split]]].
  - eapply (C116_default_settings ex_cos ex_sin ex_orient [] stopped_design); [each|each|each|each|each].
  - split.
    + repeat (apply Forall_cons; [vm_compute; intros; first [discriminate|split; [intros; discriminate|reflexivity]]|]); apply Forall_nil.
    + each.
    + repeat (constructor; [vm_compute; reflexivity|]); constructor.
  - each.
  - reflexivity.
  - vm_compute. reflexivity.
Qed.
Print Assumptions C240_stop_shifts_threads.
