(** PEC files: what is read back. *)
From Coq Require Import Ascii String ZArith QArith List Bool Lia.
From Verif Require Import PyBase EmbConst StreamModel StreamSpec StreamProofs HelperModel HelperProofs NumQ QuantModel QuantProofs
  BitLemmas ThreadModel ThreadProofs Utf8Model Utf8Proofs TextModel TextProofs PatternModel PatternSpec PatternProofs
  Vp3Model Vp3Proofs ColorFileModel PecModel PecSpec PecProofs PecFileModel PecFileSpec PecGraphicsProofs.
Import ListNotations.
Open Scope Z_scope.

(** ** Stops *)
Definition cc {C} : stitch C -> stitch C := conv COLOR_CHANGE.
Lemma cc_pos {C} (s : stitch C) : sx (cc s) = sx s /\ sy (cc s) = sy s.
Proof. unfold cc, conv. destruct (cmd_of (scmd s) =? STOP); auto. Qed.
Lemma cc_stop {C} (s : stitch C) : cmd_of (scmd s) = STOP -> cc s = mkS (sx s) (sy s) COLOR_CHANGE.
Proof. unfold cc, conv. intros ->. reflexivity. Qed.
Lemma cc_other {C} (s : stitch C) : cmd_of (scmd s) <> STOP -> cc s = s.
Proof. unfold cc, conv. intros H. apply Z.eqb_neq in H. rewrite H. reflexivity. Qed.
Lemma cc_cmd {C} (s : stitch C) : cmd_of (scmd (cc s)) = if cmd_of (scmd s) =? STOP then COLOR_CHANGE else cmd_of (scmd s).
Proof. unfold cc, conv. destruct (cmd_of (scmd s) =? STOP) eqn:E; reflexivity. Qed.

Lemma view_cc : forall l jumped first px py,
  pec_view jumped first px py (map cc l) = map cc (pec_file_view jumped first px py l).
Proof.
  induction l as [|s r IH]; intros jumped first px py; [reflexivity|]. cbn [map pec_view pec_file_view].
  rewrite cc_cmd. destruct (cc_pos s) as [-> ->].
  destruct (Z.eqb_spec (cmd_of (scmd s)) STOP) as [E|E].
  - rewrite E. change (COLOR_CHANGE =? STITCH) with false. change (COLOR_CHANGE =? JUMP) with false.
    change (COLOR_CHANGE =? COLOR_CHANGE) with true. change (STOP =? STITCH) with false. change (STOP =? JUMP) with false.
    change (STOP =? COLOR_CHANGE) with false. cbn [orb].
    rewrite map_app. cbn [map]. rewrite IH. f_equal. destruct jumped; reflexivity.
  - destruct (Z.eqb_spec (cmd_of (scmd s)) STITCH) as [E1|E1].
    { rewrite map_app. cbn [map]. rewrite IH. f_equal. destruct (jumped && _); reflexivity. }
    destruct (Z.eqb_spec (cmd_of (scmd s)) JUMP) as [E2|E2].
    { rewrite map_app. cbn [map]. rewrite IH. f_equal. destruct first; reflexivity. }
    destruct (Z.eqb_spec (cmd_of (scmd s)) COLOR_CHANGE) as [E3|E3].
    { cbn [orb]. rewrite map_app. cbn [map]. rewrite IH. rewrite E3. f_equal. destruct jumped; reflexivity. }
    cbn [orb]. apply IH.
Qed.

Lemma quantise_cc : forall (l : list (stitch Q)) xx yy,
  quantise qz_q xx yy (map cc l) = map cc (quantise qz_q xx yy l).
Proof.
  induction l as [|s r IH]; intros xx yy; [reflexivity|]. cbn [map quantise].
  destruct (cc_pos s) as [-> ->]. rewrite IH. f_equal. unfold cc, conv. cbn [scmd sx sy].
  destruct (cmd_of (scmd s) =? STOP); reflexivity.
Qed.
Lemma apply_cc : forall l px py, apply_rel px py (map cc l) = map cc (apply_rel px py l).
Proof.
  induction l as [|s r IH]; intros px py; [reflexivity|]. cbn [map apply_rel].
  destruct (cc_pos s) as [-> ->]. rewrite IH. f_equal. unfold cc, conv. cbn [scmd sx sy].
  destruct (cmd_of (scmd s) =? STOP); reflexivity.
Qed.
Lemma written_cc l : written (map cc l) = map cc (written l).
Proof. unfold written. rewrite quantise_cc, apply_cc. reflexivity. Qed.

Lemma written_cmds : forall l : list (stitch Q), map scmd (written l) = map scmd l.
Proof.
  unfold written. intros l. generalize 0 at 2 4. generalize 0. induction l as [|s r IH]; intros a b; [reflexivity|].
  cbn [quantise apply_rel map scmd sx sy]. rewrite IH. reflexivity.
Qed.
Lemma encode_written (l : list (stitch Q)) : pec_encode qz_q l = pec_encode qz_int (written l).
Proof. unfold pec_encode, written. rewrite quantise_snap. reflexivity. Qed.

Lemma before_end_cc {C} : forall l : list (stitch C), before_end (map cc l) = map cc (before_end l).
Proof.
  induction l as [|s r IH]; [reflexivity|]. cbn [map before_end]. rewrite cc_cmd, IH.
  destruct (Z.eqb_spec (cmd_of (scmd s)) STOP) as [E|E]; [rewrite E; reflexivity|].
  destruct (cmd_of (scmd s) =? END); reflexivity.
Qed.
Lemma needle_after_cc : forall l x y, needle_after x y (map cc l) = needle_after x y l.
Proof.
  induction l as [|s r IH]; intros x y; [reflexivity|]. cbn [map needle_after].
  destruct (cc_pos s) as [-> ->]. apply IH.
Qed.
Lemma closed_cc l : closed (map cc l) = map cc (closed l).
Proof.
  unfold closed. rewrite needle_after_cc. destruct (needle_after 0 0 l) as [x y]. rewrite map_app. reflexivity.
Qed.
Lemma representable_cc : forall l px py,
  representable 2047 [STITCH; JUMP] [COLOR_CHANGE; STOP; TRIM; END] px py l ->
  representable 2047 [STITCH; JUMP] [COLOR_CHANGE; STOP; TRIM; END] px py (map cc l).
Proof.
  induction l as [|s r IH]; intros px py H; [exact I|]. cbn [map representable] in *. destruct H as [H R].
  rewrite cc_cmd. destruct (cc_pos s) as [-> ->]. split; [|apply IH, R].
  destruct (Z.eqb_spec (cmd_of (scmd s)) STOP) as [E|E]; [|exact H].
  rewrite E in H. destruct H as [[H _]|[_ H]]; [cbn in H; intuition discriminate|].
  right. split; [left; reflexivity|exact H].
Qed.

(** ** Thread lists *)
Section Expand.
Context {T U C : Type}.
Implicit Types (l : list (stitch C)) (ts : list T).
Lemma expand_map (f : T -> U) : forall l ts, expand (map f ts) l = map f (expand ts l).
Proof.
  induction l as [|s r IH]; intros ts; [reflexivity|]. cbn [expand].
  destruct (changes (scmd s)); [destruct ts; cbn [map]; [reflexivity|]; rewrite IH; reflexivity|].
  destruct (cmd_of (scmd s) =? STOP); [|apply IH].
  destruct ts; cbn [map]; [reflexivity|]. rewrite <- IH. reflexivity.
Qed.
Lemma expand_incl : forall l ts, incl (expand ts l) ts.
Proof.
  induction l as [|s r IH]; intros ts; [apply incl_refl|]. cbn [expand].
  destruct (changes (scmd s)).
  { destruct ts; [apply incl_refl|]. apply incl_cons; [left; reflexivity|apply incl_tl, IH]. }
  destruct (cmd_of (scmd s) =? STOP); [|apply IH].
  destruct ts; [apply incl_refl|]. apply incl_cons; [left; reflexivity|apply IH].
Qed.
Lemma stops_cons s l : stops (s :: l) = ((if Z.eqb (cmd_of (scmd s)) STOP then 1 else 0) + stops l)%nat.
Proof. unfold stops. cbn [filter]. destruct (cmd_of (scmd s) =? STOP); reflexivity. Qed.
Lemma expand_length : forall l ts, (thread_changes l < length ts)%nat ->
  length (expand ts l) = (length ts + stops l)%nat.
Proof.
  induction l as [|s r IH]; intros ts H; [cbn; lia|]. cbn [expand]. rewrite thread_changes_cons in H.
  rewrite stops_cons. destruct (changes (scmd s)) eqn:E.
  { rewrite (changes_not_stop _ E). destruct ts as [|t ts]; [cbn in H; lia|]. cbn [length] in *. rewrite IH by lia. lia. }
  destruct (cmd_of (scmd s) =? STOP).
  - destruct ts as [|t ts]; [cbn in H; lia|]. cbn [length] in *. rewrite IH by (cbn [length]; lia). cbn [length]. lia.
  - rewrite IH by lia. lia.
Qed.
End Expand.

(** Only the changes and stops matter. *)
Definition edges {C} (l : list (stitch C)) : list bool :=
  flat_map (fun s => if changes (scmd s) then [true] else if cmd_of (scmd s) =? STOP then [false] else []) l.
Fixpoint expand_edges {T} (ts : list T) (e : list bool) : list T :=
  match e with
  | [] => ts
  | true :: e => match ts with t :: ts => t :: expand_edges ts e | [] => [] end
  | false :: e => match ts with t :: _ => t :: expand_edges ts e | [] => [] end
  end.
Lemma expand_of_edges {T C} : forall (l : list (stitch C)) (ts : list T), expand ts l = expand_edges ts (edges l).
Proof.
  induction l as [|s r IH]; intros ts; [reflexivity|]. cbn [expand edges flat_map]. fold (edges r).
  destruct (changes (scmd s)); [cbn [app expand_edges]; destruct ts; [|rewrite IH]; reflexivity|].
  destruct (cmd_of (scmd s) =? STOP); [cbn [app expand_edges]; destruct ts; [|rewrite IH]; reflexivity|]. apply IH.
Qed.
Lemma edges_app {C} (a b : list (stitch C)) : edges (a ++ b) = edges a ++ edges b.
Proof. apply flat_map_app. Qed.
Lemma edges_cons {C} (s : stitch C) r : edges (s :: r) = edges [s] ++ edges r.
Proof. apply (edges_app [s] r). Qed.
Lemma edges_cmds {C D} : forall (a : list (stitch C)) (b : list (stitch D)), map scmd a = map scmd b -> edges a = edges b.
Proof.
  induction a as [|s a IH]; intros [|t b] E; try discriminate; [reflexivity|]. injection E as E1 E2.
  cbn [edges flat_map]. fold (edges a) (edges b). rewrite E1, (IH b E2). reflexivity.
Qed.
Lemma changes_of_edges {C} (l : list (stitch C)) : thread_changes l = length (filter id (edges l)).
Proof.
  induction l as [|s r IH]; [reflexivity|]. rewrite thread_changes_cons, IH. cbn [edges flat_map]. fold (edges r).
  destruct (changes (scmd s)); [reflexivity|]. destruct (cmd_of (scmd s) =? STOP); reflexivity.
Qed.
Lemma edges_view : forall l jumped first px py,
  representable 2047 [STITCH; JUMP] [COLOR_CHANGE; STOP; TRIM; END] px py l ->
  edges (pec_file_view jumped first px py l) = edges l.
Proof.
  induction l as [|s r IH]; intros jumped first px py H; [reflexivity|]. destruct H as [H R].
  cbn [pec_file_view]. rewrite (edges_cons s r).
  assert (Hc : In (cmd_of (scmd s)) [STITCH; JUMP; COLOR_CHANGE; STOP; TRIM; END]).
  { destruct H as [[H _]|[H _]]; cbn [In] in *; tauto. }
  assert (Es : edges [s] = if cmd_of (scmd s) =? COLOR_CHANGE then [true] else if cmd_of (scmd s) =? STOP then [false] else []).
  { cbn [edges flat_map]. rewrite app_nil_r. unfold changes. cbn [In] in Hc.
    destruct Hc as [E|[E|[E|[E|[E|[E|[]]]]]]]; rewrite <- E; reflexivity. }
  rewrite Es. cbn [In] in Hc. destruct Hc as [E|[E|[E|[E|[E|[E|[]]]]]]]; rewrite <- E.
  - change (STITCH =? STITCH) with true. cbn iota. rewrite edges_app, edges_cons, (IH _ _ _ _ R). destruct (jumped && _); reflexivity.
  - change (JUMP =? STITCH) with false. change (JUMP =? JUMP) with true. cbn iota. rewrite edges_app, edges_cons, (IH _ _ _ _ R). destruct first; reflexivity.
  - change (COLOR_CHANGE =? STITCH) with false. change (COLOR_CHANGE =? JUMP) with false.
    change ((COLOR_CHANGE =? COLOR_CHANGE) || (COLOR_CHANGE =? STOP)) with true. cbn iota. rewrite edges_app, edges_cons, (IH _ _ _ _ R). destruct jumped; reflexivity.
  - change (STOP =? STITCH) with false. change (STOP =? JUMP) with false.
    change ((STOP =? COLOR_CHANGE) || (STOP =? STOP)) with true. cbn iota. rewrite edges_app, edges_cons, (IH _ _ _ _ R). destruct jumped; reflexivity.
  - change (TRIM =? STITCH) with false. change (TRIM =? JUMP) with false.
    change ((TRIM =? COLOR_CHANGE) || (TRIM =? STOP)) with false. cbn iota. apply (IH _ _ _ _ R).
  - change (END =? STITCH) with false. change (END =? JUMP) with false.
    change ((END =? COLOR_CHANGE) || (END =? STOP)) with false. cbn iota. apply (IH _ _ _ _ R).
Qed.

(** ** Sections of the view *)
Lemma is_sewing_stitch {C} x y : @is_sewing C (mkS x y STITCH).
Proof. left. reflexivity. Qed.
Lemma sections_any {C} b (l : list (stitch C)) : sections_sewn false l -> sections_sewn b l.
Proof. destruct b; [apply sections_false_any|auto]. Qed.
Lemma plain_cmd {C} (s : stitch C) c : cmd_of (scmd s) = c -> In c [JUMP; TRIM; END] ->
  ~ is_sewing s /\ ~ is_change s /\ ~ is_stop s.
Proof.
  unfold is_sewing, is_change, is_stop. intros E H. rewrite E. cbn [In] in H.
  destruct H as [<-|[<-|[<-|[]]]]; repeat split; intros H; cbn [In] in H;
    repeat (destruct H as [H|H]; [discriminate H|]); try contradiction; discriminate H.
Qed.
Lemma sections_view : forall l b jumped first px py,
  representable 2047 [STITCH; JUMP] [COLOR_CHANGE; STOP; TRIM; END] px py l ->
  sections_sewn b l -> sections_sewn b (pec_file_view jumped first px py l).
Proof.
  induction l as [|s r IH]; intros b jumped first px py H S; [exact S|]. destruct H as [H R].
  cbn [pec_file_view].
  assert (Hc : In (cmd_of (scmd s)) [STITCH; JUMP; COLOR_CHANGE; STOP; TRIM; END]).
  { destruct H as [[H _]|[H _]]; cbn [In] in *; tauto. }
  destruct (Z.eqb_spec (cmd_of (scmd s)) STITCH) as [E1|E1].
  { assert (S' : sections_sewn true r).
    { apply sections_cons in S. destruct S as [[_ S]|[(_ & [He|He] & _)|(N & _)]]; [exact S| | |].
      - exfalso. unfold is_change in He. rewrite E1 in He. cbn [In] in He. intuition discriminate.
      - exfalso. unfold is_stop in He. rewrite E1 in He. discriminate He.
      - exfalso. apply N. unfold is_sewing. rewrite E1. left. reflexivity. }
    destruct (jumped && _); cbn [app]; repeat (apply sections_sew; [apply is_sewing_stitch|]); apply IH; assumption. }
  destruct (Z.eqb_spec (cmd_of (scmd s)) JUMP) as [E2|E2].
  { destruct (plain_cmd s JUMP E2 ltac:(cbn; tauto)) as (N1 & N2 & N3).
    apply sections_cons in S. destruct S as [[S _]|[(_ & [S|S] & _)|(_ & _ & _ & S)]]; try contradiction.
    assert (J : sections_sewn b (mkS (sx s) (sy s) JUMP :: pec_file_view true false (sx s) (sy s) r)).
    { destruct (plain_cmd (mkS (sx s) (sy s) JUMP) JUMP eq_refl ltac:(cbn; tauto)) as (M1 & M2 & M3).
      apply sections_other; try assumption. apply IH; assumption. }
    destruct first; [exact J|]. cbn [app].
    destruct (plain_cmd (mkS px py TRIM) TRIM eq_refl ltac:(cbn; tauto)) as (M1 & M2 & M3).
    apply sections_other; assumption. }
  destruct (Z.eqb_spec (cmd_of (scmd s)) COLOR_CHANGE) as [E3|E3].
  { cbn [orb]. apply sections_cons in S. destruct S as [[S _]|[(-> & _ & S)|(_ & N & _)]].
    - exfalso. unfold is_sewing in S. rewrite E3 in S. cbn [In] in S. intuition discriminate.
    - assert (J : sections_sewn true (mkS (sx s) (sy s) (cmd_of (scmd s)) :: pec_file_view false false (sx s) (sy s) r)).
      { rewrite E3. apply sections_edge; [left; left; reflexivity|]. apply IH; assumption. }
      destruct jumped; cbn [app]; [apply sections_sew; [apply is_sewing_stitch|]|]; exact J.
    - exfalso. apply N. unfold is_change. rewrite E3. left. reflexivity. }
  destruct (Z.eqb_spec (cmd_of (scmd s)) STOP) as [E4|E4].
  { cbn [orb]. apply sections_cons in S. destruct S as [[S _]|[(-> & _ & S)|(_ & _ & N & _)]].
    - exfalso. unfold is_sewing in S. rewrite E4 in S. cbn [In] in S. intuition discriminate.
    - assert (J : sections_sewn true (mkS (sx s) (sy s) (cmd_of (scmd s)) :: pec_file_view false false (sx s) (sy s) r)).
      { rewrite E4. apply sections_edge; [right; reflexivity|]. apply IH; assumption. }
      destruct jumped; cbn [app]; [apply sections_sew; [apply is_sewing_stitch|]|]; exact J.
    - exfalso. apply N. exact E4. }
  cbn [orb].
  assert (Hp : In (cmd_of (scmd s)) [JUMP; TRIM; END]) by (cbn [In] in *; intuition congruence).
  destruct (plain_cmd s _ eq_refl Hp) as (N1 & N2 & N3).
  apply sections_cons in S. destruct S as [[S _]|[(_ & [S|S] & _)|(_ & _ & _ & S)]]; try contradiction.
  apply IH; assumption.
Qed.
Lemma sections_snoc {C} : forall (l : list (stitch C)) b s, ~ is_sewing s -> ~ is_change s -> ~ is_stop s ->
  sections_sewn b l -> sections_sewn b (l ++ [s]).
Proof.
  intros l b s N1 N2 N3 S. induction S; cbn [app].
  - apply sections_other; auto. apply sections_end.
  - apply sections_sew; auto.
  - apply sections_edge; auto.
  - apply sections_other; auto.
Qed.
Lemma sections_closed b l : sections_sewn b l -> sections_sewn b (closed l).
Proof.
  intros S. unfold closed. destruct (needle_after 0 0 l) as [x y].
  destruct (plain_cmd (mkS x y END) END eq_refl ltac:(cbn; tauto)) as (N1 & N2 & N3). apply sections_snoc; assumption.
Qed.
Lemma edges_closed l : edges (closed l) = edges l.
Proof. unfold closed. destruct (needle_after 0 0 l). rewrite edges_app. apply app_nil_r. Qed.
Lemma view_plain_stops : forall l jumped first px py, plain_stops (pec_file_view jumped first px py l).
Proof.
  induction l as [|s r IH]; intros jumped first px py; [constructor|]. cbn [pec_file_view].
  assert (A : forall a b x y c, (c = STOP \/ cmd_of c <> STOP) -> Forall (fun s => @is_stop Z s -> scmd s = STOP) a ->
    plain_stops b -> plain_stops (a ++ mkS x y c :: b)).
  { intros a b x y c Hc Fa Fb. apply Forall_app. split; [exact Fa|]. constructor; [|exact Fb].
    unfold is_stop. cbn [scmd]. intuition. }
  assert (One : forall (t : bool) x y c, cmd_of c <> STOP -> Forall (fun s => @is_stop Z s -> scmd s = STOP) (if t then [mkS x y c] else [])).
  { intros t x y c Hc. destruct t; repeat constructor. unfold is_stop. cbn [scmd]. intuition. }
  assert (One' : forall (t : bool) x y c, cmd_of c <> STOP -> Forall (fun s => @is_stop Z s -> scmd s = STOP) (if t then [] else [mkS x y c])).
  { intros t x y c Hc. destruct t; repeat constructor. unfold is_stop. cbn [scmd]. intuition. }
  destruct (Z.eqb_spec (cmd_of (scmd s)) STITCH); [apply A; [right; discriminate|apply One; discriminate|apply IH]|].
  destruct (Z.eqb_spec (cmd_of (scmd s)) JUMP); [apply A; [right; discriminate|apply One'; discriminate|apply IH]|].
  destruct (Z.eqb_spec (cmd_of (scmd s)) COLOR_CHANGE) as [E|E].
  { cbn [orb]. apply A; [right; rewrite E; discriminate|apply One; discriminate|apply IH]. }
  destruct (Z.eqb_spec (cmd_of (scmd s)) STOP) as [E'|E'].
  { cbn [orb]. apply A; [left; exact E'|apply One; discriminate|apply IH]. }
  cbn [orb]. apply IH.
Qed.
Lemma closed_plain_stops l : plain_stops l -> plain_stops (closed l).
Proof.
  intros H. unfold closed. destruct (needle_after 0 0 l). apply Forall_app. split; [exact H|].
  repeat constructor. unfold is_stop. cbn. discriminate.
Qed.

(** The reader's last step restores the stops of a view. *)
Lemma restore {T} (teq : T -> T -> bool) (v : list (stitch Z)) (ts : list T) :
  (forall t, teq t t = true) -> sections_sewn false v -> plain_stops v -> (thread_changes v < length ts)%nat ->
  neighbours_differ teq ts ->
  interpolate_duplicate_color_as_stop teq (map cc v) (expand ts v) = (v, ts).
Proof.
  intros Hr S P Hn Nd. destruct ts as [|t ts]; [cbn in Hn; lia|]. cbn [length] in Hn.
  rewrite expand_head. unfold interpolate_duplicate_color_as_stop.
  exact (duplicate_as_stop_start teq COLOR_CHANGE Hr eq_refl v [] t ts S P ltac:(lia) Nd).
Qed.

(** ** The palette *)
Lemma fill_chart_entries : forall order palette chart i t,
  nth_error (fill_chart order palette chart) i = Some (Some t) ->
  nth_error chart i = Some (Some t) \/ exists p, nth_error palette i = Some (Some p).
Proof.
  induction order as [|o order IH]; intros palette chart i t H; cbn [fill_chart] in H; [auto|].
  destruct (find_nearest_color_index (t_color o) palette) as [k|] eqn:Ek; [|auto].
  destruct (nearest_some _ _ _ Ek) as (pt & Hpt & _).
  destruct (IH _ _ _ _ H) as [Hc|(p & Hp)].
  - destruct (Nat.eq_dec k i) as [<-|N]; [right; eauto|]. rewrite set_nth_other in Hc by exact N. auto.
  - destruct (Nat.eq_dec k i) as [<-|N]; [right; eauto|]. rewrite set_nth_other in Hp by exact N. eauto.
Qed.

(** The palette entry that stands for a thread. *)
Definition palette_index (order : list thread) (t : thread) : nat :=
  match find_nearest_color_index (t_color t) (fill_chart order pec_threads (repeat None (List.length pec_threads))) with
  | Some i => i | None => O end.
Definition palette_thread (order : list thread) (t : thread) : thread := added (nth (palette_index order t) pec_threads None).

Lemma thread_eqb_same_color a b : thread_eqb a b = true -> same_color (t_color a) (t_color b).
Proof. unfold thread_eqb, same_color. rewrite !andb_true_iff, Z.eqb_eq. tauto. Qed.

Lemma Some_inj {A} (a b : A) : Some a = Some b -> a = b.
Proof. congruence. Qed.
Lemma palette_index_ok order threads : (List.length order <= 64)%nat ->
  (forall t, In t threads -> exists t', In t' order /\ thread_eqb t' t = true) ->
  build_unique_palette order pec_threads threads = map (fun t => Some (palette_index order t)) threads /\
  (forall t, In t threads -> (palette_index order t < 65)%nat /\
     nth_error pec_threads (palette_index order t) = Some (Some (palette_thread order t))) /\
  (forall a b, In a threads -> In b threads ->
     (palette_index order a = palette_index order b <-> same_color (t_color a) (t_color b))).
Proof.
  intros Hu Hc.
  assert (Hc' : forall t, In t threads -> exists t', In t' order /\ same_color (t_color t') (t_color t)).
  { intros t Ht. destruct (Hc t Ht) as (t' & H1 & H2). exists t'. split; [exact H1|]. apply thread_eqb_same_color, H2. }
  destruct (unique_palette order pec_threads threads Hu Hc') as [L H].
  assert (Each : forall t, In t threads -> find_nearest_color_index (t_color t)
     (fill_chart order pec_threads (repeat None (List.length pec_threads))) = Some (palette_index order t)).
  { intros t Ht. apply In_nth_error in Ht. destruct Ht as [n Hn].
    destruct (H n n t t Hn Hn) as (p & _ & Hp & _). unfold build_unique_palette in Hp. rewrite nth_error_map, Hn in Hp.
    cbn [option_map] in Hp. apply Some_inj in Hp. unfold palette_index. rewrite Hp. reflexivity. }
  split; [|split].
  - unfold build_unique_palette. apply map_ext_in. exact Each.
  - intros t Ht. pose proof (Each t Ht) as E. destruct (nearest_some _ _ _ E) as (tc & Htc & _).
    destruct (fill_chart_entries _ _ _ _ _ Htc) as [Hr|(p & Hp)].
    { apply nth_error_In in Hr. apply repeat_spec in Hr. discriminate. }
    assert (Hl : (palette_index order t < 65)%nat).
    { change 65%nat with (List.length pec_threads). apply nth_error_Some. rewrite Hp. discriminate. }
    split; [exact Hl|]. unfold palette_thread. rewrite (nth_error_nth _ _ None Hp). exact Hp.
  - intros a b Ha Hb. pose proof (Each a Ha) as Ea. pose proof (Each b Hb) as Eb.
    apply In_nth_error in Ha. destruct Ha as [na Ha]. apply In_nth_error in Hb. destruct Hb as [nb Hb].
    destruct (H na nb a b Ha Hb) as (pa & pb & Hpa & Hpb & _ & Hiff). unfold build_unique_palette in *.
    rewrite nth_error_map, Ha in Hpa. rewrite nth_error_map, Hb in Hpb. cbn [option_map] in *.
    apply Some_inj in Hpa. apply Some_inj in Hpb. rewrite Ea in Hpa. rewrite Eb in Hpb.
    apply Some_inj in Hpa. apply Some_inj in Hpb. rewrite Hpa, Hpb. exact Hiff.
Qed.

(** The entries carry their position as catalog number. *)
Lemma pec_catalog : forallb (fun i => match nth i pec_threads None with
    | Some t => otext_eqb (t_catalog t) (Some (str_of_int (Z.of_nat i))) | None => false end) (seq 1 64) = true.
Proof. vm_compute. reflexivity. Qed.
Lemma otext_eqb_eq a b : otext_eqb a b = true -> a = b.
Proof.
  destruct a as [a|], b as [b|]; cbn [otext_eqb]; try discriminate; [|reflexivity].
  intros H. f_equal. revert b H. induction a as [|x a IH]; intros [|y b]; cbn [text_eqb]; try discriminate; [reflexivity|].
  rewrite andb_true_iff, Z.eqb_eq. intros [-> H]. f_equal. apply IH, H.
Qed.
Lemma pec_threads_differ i j a b : nth_error pec_threads i = Some (Some a) -> nth_error pec_threads j = Some (Some b) ->
  thread_eqb a b = true -> i = j.
Proof.
  assert (A : forall i a, nth_error pec_threads i = Some (Some a) -> t_catalog a = Some (str_of_int (Z.of_nat i))).
  { intros k t H. pose proof pec_catalog as P. rewrite forallb_forall in P.
    assert (Hk : (k < 65)%nat) by (change 65%nat with (List.length pec_threads); apply nth_error_Some; rewrite H; discriminate).
    destruct k as [|k]; [discriminate H|]. specialize (P (S k) ltac:(apply in_seq; lia)).
    rewrite (nth_error_nth _ _ None H) in P. apply otext_eqb_eq, P. }
  intros Ha Hb E. apply A in Ha. apply A in Hb. unfold thread_eqb in E. rewrite !andb_true_iff in E.
  destruct E as ((((((_ & _) & E) & _) & _) & _) & _). apply otext_eqb_eq in E. rewrite Ha, Hb in E. injection E as E.
  pose proof (int_of_str_0 (Z.of_nat i)) as P. rewrite E, int_of_str_0 in P. injection P as P. lia.
Qed.

(** ** The header *)
Lemma index_bytes_of (l : list nat) : Forall (fun i => (i < 256)%nat) l ->
  index_bytes (map Some l) = Ok (map Z.of_nat l).
Proof.
  induction 1 as [|i l Hi _ IH]; [reflexivity|]. cbn [map index_bytes].
  destruct (Z.ltb_spec 255 (Z.of_nat i)); [lia|]. rewrite IH. reflexivity.
Qed.
Definition label_of (name : option text) : text := firstn 8 (match name with Some n => n | None => untitled end).
Definition header_mid : list Z := 13 :: repeat 32 12 ++ [0xFF; 0x00].
Definition header_spaces : list Z := repeat 32 12.
Definition header_bytes (label : text) (idx : list nat) : list Z :=
  text_of "LA:" ++ pad16 label ++ header_mid ++ 6 :: 38 :: header_spaces
  ++ (zlen idx - 1) :: map Z.of_nat idx ++ repeat 32 (Z.to_nat (463 - zlen idx)).

Lemma pad16_length t : (List.length t <= 16)%nat -> List.length (pad16 t) = 16%nat.
Proof. intros H. unfold pad16. rewrite app_length, repeat_length. lia. Qed.
Lemma pad16_ascii t : Forall ascii t -> Forall ascii (pad16 t).
Proof.
  intros H. apply Forall_app. split; [exact H|]. apply Forall_forall. intros c Hc. apply repeat_spec in Hc. subst.
  unfold ascii. lia.
Qed.

Lemma header_of order name threads : Forall ascii (label_of name) ->
  threads <> [] -> (List.length threads <= 255)%nat ->
  build_unique_palette (order threads) pec_threads threads
  = map (fun t => Some (palette_index (order threads) t)) threads ->
  (forall t, In t threads -> (palette_index (order threads) t < 65)%nat) ->
  let idx := map (palette_index (order threads)) threads in
  write_pec_header order name threads
  = Ok (header_bytes (label_of name) idx, (zlen idx - 1) :: map Z.of_nat idx).
Proof.
  intros Ha Hne Hl Hp Hlt idx. unfold write_pec_header. cbv zeta.
  destruct (utf8_ascii (text_of "LA:" ++ pad16 (label_of name) ++ [13])) as [E _].
  { apply Forall_app. split; [repeat constructor; unfold ascii; cbn; lia|]. apply Forall_app.
    split; [apply pad16_ascii, Ha|]. repeat constructor; unfold ascii; lia. }
  match goal with |- context [utf8_encode ?x] =>
    change (utf8_encode x) with (utf8_encode (text_of "LA:" ++ pad16 (label_of name) ++ [13])) end.
  rewrite E. cbn [bindr]. rewrite Hp.
  assert (Ei : map (fun t => Some (palette_index (order threads) t)) threads = map Some idx).
  { unfold idx. rewrite map_map. reflexivity. }
  rewrite Ei. assert (Lz : zlen (map Some idx) = zlen idx) by (unfold zlen; rewrite map_length; reflexivity).
  assert (Lt : zlen idx = Z.of_nat (List.length threads)) by (unfold idx, zlen; rewrite map_length; reflexivity).
  rewrite Lz. assert (0 < zlen idx <= 255) by (rewrite Lt; destruct threads; [congruence|cbn [List.length] in *; lia]).
  destruct (Z.eqb_spec (zlen idx) 0); [lia|]. cbn [negb]. destruct (Z.ltb_spec (zlen idx - 1) 255); [|lia]. cbn [negb].
  rewrite index_bytes_of.
  2: { apply Forall_forall. intros i Hi. unfold idx in Hi. apply in_map_iff in Hi. destruct Hi as (t & <- & Ht).
       specialize (Hlt t Ht). lia. }
  cbn [bindr]. f_equal. f_equal. unfold header_bytes. rewrite <- !app_assoc. reflexivity.
Qed.

(** ** Reading *)
Lemma skipn_zapp {A} (a b : list A) : skipn (Z.to_nat (zlen a)) (a ++ b) = b.
Proof. unfold zlen. rewrite Nat2Z.id, skipn_app, skipn_all, Nat.sub_diag. reflexivity. Qed.

Lemma s_24le pos v rest : s_int read_int_24le (pos, write_int_24le v ++ rest) = (Some (v mod 2 ^ 24), (pos + 3, rest)).
Proof. exact (s_int_of _ _ _ pos rest (rw_24le v rest)). Qed.
Lemma zlen_repeat {A} (a : A) n : 0 <= n -> zlen (repeat a (Z.to_nat n)) = n.
Proof. intros H. unfold zlen. rewrite repeat_length. lia. Qed.

(** The eleven bytes between the length and the stitches. *)
Definition block_fixed (e : box) : list Z :=
  let '(x0, y0, x1, y1) := e in
  [0x31; 0xff; 0xf0] ++ write_int_16le (q_round (x1 - x0)) ++ write_int_16le (q_round (y1 - y0))
  ++ write_int_16le 0x1E0 ++ write_int_16le 0x1B0.
Lemma block_fixed_length e : zlen (block_fixed e) = 11.
Proof. destruct e as [[[x0 y0] x1] y1]. reflexivity. Qed.
Lemma block_of e l : write_pec_block (Some e) l
  = Ok ([0; 0] ++ write_int_24le (16 + zlen (pec_encode qz_q l)) ++ block_fixed e ++ pec_encode qz_q l).
Proof.
  destruct e as [[[x0 y0] x1] y1]. unfold write_pec_block, block_fixed. f_equal. f_equal. rewrite <- !app_assoc.
  f_equal. f_equal. zlens. change (zlen (write_int_16le (q_round (x1 - x0)))) with 2.
  change (zlen (write_int_16le (q_round (y1 - y0)))) with 2. change (zlen (write_int_16le 480)) with 2.
  change (zlen (write_int_16le 432)) with 2. lia.
Qed.

Lemma read_graphics_total : forall n i size stride values f,
  0 <= i -> i + Z.of_nat n <= zlen values -> exists m, read_pec_graphics n i size stride values f = Ok m.
Proof.
  induction n as [|n IH]; intros i size stride values f Hi Hn; cbn [read_pec_graphics]; [eauto|].
  destruct (s_read size f) as [g f'].
  assert (E : exists t, py_index i values = Ok t).
  { unfold py_index, zlen in *. destruct (Z.ltb_spec i 0); [lia|].
    destruct (nth_error values (Z.to_nat i)) eqn:E; [destruct (Z.ltb_spec i 0); [lia|]; eauto|].
    apply nth_error_None in E. lia. }
  destruct E as [t ->]. cbn [bindr]. destruct (IH (i + 1) size stride values f' ltac:(lia) ltac:(lia)) as [m ->].
  cbn [bindr]. eauto.
Qed.

Lemma map_pec_colors_length bytes chart : zlen bytes <= zlen (map_pec_colors bytes chart).
Proof.
  unfold map_pec_colors. destruct chart as [|c chart].
  - unfold process_pec_colors, zlen. rewrite map_length. lia.
  - destruct (Z.leb_spec (zlen bytes) (zlen (c :: chart))).
    + unfold zlen in *. rewrite map_length. exact H.
    + clear H. generalize (@nil (Z * option thread)). generalize (c :: chart) as ch. clear c chart.
      induction bytes as [|b r IH]; intros ch known; cbn [process_pec_table]; [unfold zlen; cbn; lia|].
      destruct (find _ known) as [[k [t|]]|].
      * rewrite !zlen_cons. specialize (IH ch known). lia.
      * destruct ch as [|c ch]; rewrite !zlen_cons; match goal with |- context [process_pec_table r ?x ?y] => specialize (IH x y) end; lia.
      * destruct ch as [|c ch]; rewrite !zlen_cons; match goal with |- context [process_pec_table r ?x ?y] => specialize (IH x y) end; lia.
Qed.

Definition name_entry (label : text) : metadata := [(text_of "Name", Meta_text (strip (pad16 label)))].

Lemma read_pec_of pre post label idx e l chart q :
  Forall ascii label -> (List.length label <= 16)%nat -> 0 < zlen idx <= 255 ->
  zlen (pec_encode qz_q l) + 16 < 2 ^ 24 ->
  let bytes := header_bytes label idx ++ ([0; 0] ++ write_int_24le (16 + zlen (pec_encode qz_q l)) ++ block_fixed e
                 ++ pec_encode qz_q l) ++ q in
  exists pictures,
  read_pec (pre ++ bytes ++ post) (zlen pre, bytes ++ post) chart
  = Ok (pec_read (pec_encode qz_q l ++ q ++ post), map added (map_pec_colors (map Z.of_nat idx) chart),
        name_entry label ++ pictures) /\
  read_pec_graphics (Z.to_nat (zlen idx + 1)) 0 228 6 (None :: map_pec_colors (map Z.of_nat idx) chart)
    (zlen pre + zlen bytes - zlen q, q ++ post) = Ok pictures.
Proof.
  intros Ha Hl Hi Hlen bytes.
  set (enc := pec_encode qz_q l) in *.
  set (colours := map Z.of_nat idx) in *.
  assert (Lc : zlen colours = zlen idx) by (unfold colours, zlen; rewrite map_length; reflexivity).
  set (pad := repeat 32 (Z.to_nat (463 - zlen idx)) ++ [0; 0]).
  assert (Lp : zlen pad = 465 - zlen idx) by (unfold pad; rewrite zlen_app, zlen_repeat by lia; change (zlen [0; 0]) with 2; lia).
  assert (Eb : forall x, bytes ++ x = text_of "LA:" ++ pad16 label ++ header_mid ++ 6 :: 38 :: header_spaces
    ++ (zlen idx - 1) :: colours ++ pad ++ write_int_24le (16 + zlen enc) ++ block_fixed e ++ enc ++ q ++ x).
  { intros x. unfold bytes, header_bytes, pad. repeat (rewrite <- !app_assoc; cbn [app]). reflexivity. }
  assert (L16 : zlen (pad16 label) = 16) by (unfold zlen; rewrite pad16_length by exact Hl; reflexivity).
  assert (Lb : zlen bytes = 3 + 16 + 15 + 2 + 12 + 1 + zlen idx + (465 - zlen idx) + 3 + 11 + zlen enc + zlen q).
  { pose proof (Eb []) as E0. rewrite !app_nil_r in E0. rewrite E0.
    rewrite !zlen_app, !zlen_cons, !zlen_app, zlen_cons, !zlen_app. rewrite L16, Lc, Lp, block_fixed_length.
    change (zlen (text_of "LA:")) with 3. change (zlen header_mid) with 15. change (zlen header_spaces) with 12.
    change (zlen (write_int_24le (16 + zlen enc))) with 3. lia. }
  unfold read_pec. rewrite (Eb post).
  rewrite (s_seek_app (zlen pre) (text_of "LA:") _ 3) by reflexivity.
  unfold read_string_8 at 1.
  rewrite (s_read_app _ (pad16 label) _ 16) by (symmetry; exact L16).
  destruct (utf8_ascii (pad16 label) (pad16_ascii _ Ha)) as [_ ->].
  rewrite (s_seek_app _ header_mid _ 15) by reflexivity.
  rewrite s_byte, s_byte.
  rewrite (s_seek_app _ header_spaces _ 12) by reflexivity.
  rewrite s_byte. cbn [some bindr].
  rewrite (s_read_app _ colours _ (zlen idx - 1 + 1)) by lia.
  rewrite (s_seek_app _ pad _ (464 - (zlen idx - 1))) by lia.
  rewrite s_24le. cbn [some bindr].
  rewrite (s_seek_app _ (block_fixed e) _ 11) by (symmetry; apply block_fixed_length).
  cbn [fst snd]. rewrite Z.mod_small by (pose proof (zlen_nonneg enc); lia).
  replace (zlen idx - 1 + 1 + 1) with (zlen idx + 1) by lia. change (6 * 38) with 228.
  match goal with |- context [seek_to ?f ?n] =>
    replace (seek_to f n) with ((zlen pre + zlen bytes - zlen q, q ++ post) : stream) end.
  - pose proof (map_pec_colors_length colours chart) as Hm.
    destruct (read_graphics_total (Z.to_nat (zlen idx + 1)) 0 228 6 (None :: map_pec_colors colours chart)
      (zlen pre + zlen bytes - zlen q, q ++ post) ltac:(lia)) as [m Em].
    { rewrite zlen_cons. lia. }
    exists m. rewrite Em. cbn [bindr]. split; reflexivity.
  - unfold seek_to. rewrite <- (Eb post).
    match goal with |- _ = (?n, skipn (Z.to_nat ?n) _) => replace n with (zlen pre + (zlen bytes - zlen q)) by lia end.
    f_equal; [lia|]. symmetry.
    set (front := header_bytes label idx ++ [0; 0] ++ write_int_24le (16 + zlen enc) ++ block_fixed e ++ enc).
    assert (Ef : bytes = front ++ q) by (unfold bytes, front; rewrite <- !app_assoc; reflexivity).
    assert (Lf : zlen front = zlen bytes - zlen q) by (rewrite Ef, zlen_app; lia).
    rewrite Ef, <- app_assoc, (app_assoc pre front). rewrite <- Ef.
    replace (zlen pre + (zlen bytes - zlen q)) with (zlen (pre ++ front)) by (rewrite zlen_app; lia).
    apply skipn_zapp.
Qed.

(** ** Writing *)
Lemma count_sections_bound {C} : forall (l : list (stitch C)) k b,
  count_sections k b l <= k + (if b then 1 else 0) + Z.of_nat (thread_changes l).
Proof.
  induction l as [|s r IH]; intros k b; cbn [count_sections]; [destruct b; cbn; lia|]. rewrite thread_changes_cons.
  destruct (sews (scmd s)) eqn:E1.
  - rewrite (sews_not_changes _ E1). destruct b; [specialize (IH (k + 1) false)|specialize (IH k false)]; cbn iota in *; lia.
  - destruct (changes (scmd s)); [specialize (IH k true)|specialize (IH k b)]; destruct b; lia.
Qed.
Lemma fix_enough {T C} (filler : Z -> T) (l : list (stitch C)) ts : (thread_changes l < length ts)%nat ->
  fix_color_count filler l ts = ts.
Proof.
  intros H. unfold fix_color_count. pose proof (count_sections_bound l 0 true) as B. cbn iota in B. unfold zlen.
  replace (Z.to_nat _) with 0%nat by lia. reflexivity.
Qed.
Lemma changes_cc {C} (l : list (stitch C)) : thread_changes (map cc l) = (thread_changes l + stops l)%nat.
Proof.
  induction l as [|s r IH]; [reflexivity|]. cbn [map]. rewrite !thread_changes_cons, stops_cons, IH.
  unfold cc at 1, conv. destruct (cmd_of (scmd s) =? STOP) eqn:E.
  - apply Z.eqb_eq in E. rewrite (stop_not_changes _ E). cbn [scmd]. change (changes COLOR_CHANGE) with true. cbn iota. lia.
  - destruct (changes (scmd s)); lia.
Qed.
Lemma prepare_of filler l threads : (thread_changes l < List.length threads)%nat ->
  pec_prepare filler l threads = (map cc l, expand threads l).
Proof.
  intros H. unfold pec_prepare. rewrite fix_enough by exact H. unfold interpolate_stop_as_duplicate_color.
  pose proof (stop_as_duplicate_spec COLOR_CHANGE l [] [] threads H) as S. exact S.
Qed.

Lemma value_length v long flag : zlen (write_value v long flag) <= 2.
Proof. unfold write_value. destruct (negb long && _); cbv zeta; unfold zlen; cbn [length]; lia. Qed.
Lemma stitch_length dx dy : zlen (write_stitch dx dy) <= 4.
Proof. unfold write_stitch. rewrite zlen_app. pose proof (value_length dx false 0). pose proof (value_length dy false 0). lia. Qed.
Lemma loop_length : forall l two jumping init, zlen (pec_loop two jumping init l) <= 6 * zlen l.
Proof.
  induction l as [|s r IH]; intros two jumping init; cbn [pec_loop]; [unfold zlen; cbn; lia|].
  rewrite (zlen_cons s r). pose proof (zlen_nonneg r). change (zlen (write_stitch 0 0)) with 2.
  destruct (cmd_of (scmd s) =? STITCH).
  { rewrite !zlen_app. pose proof (stitch_length (sx s) (sy s)). specialize (IH two false false).
    destruct (jumping && _); [change (zlen (write_stitch 0 0)) with 2|change (zlen (@nil Z)) with 0]; lia. }
  destruct (cmd_of (scmd s) =? JUMP).
  { rewrite zlen_app. specialize (IH two true false).
    assert (zlen (if init then write_jump (sx s) (sy s) else write_trimjump (sx s) (sy s)) <= 4).
    { destruct init; unfold write_jump, write_trimjump; rewrite zlen_app;
        [pose proof (value_length (sx s) true JUMP_CODE); pose proof (value_length (sy s) true JUMP_CODE)
        |pose proof (value_length (sx s) true TRIM_CODE); pose proof (value_length (sy s) true TRIM_CODE)]; lia. }
    lia. }
  destruct (cmd_of (scmd s) =? COLOR_CHANGE).
  { rewrite !zlen_app. specialize (IH (negb two) false false). change (zlen [254; 176]) with 2.
    destruct jumping, two; try change (zlen (write_stitch 0 0)) with 2; try change (zlen (@nil Z)) with 0;
      try change (zlen [2]) with 1; try change (zlen [1]) with 1; cbn [negb] in *; lia. }
  destruct (cmd_of (scmd s) =? END); [change (zlen [255]) with 1; lia|].
  specialize (IH two jumping false). lia.
Qed.
Lemma quantise_length {C} (qz : C -> Z -> Z) : forall l xx yy, zlen (quantise qz xx yy l) = zlen l.
Proof. induction l as [|s r IH]; intros xx yy; [reflexivity|]. cbn [quantise]. rewrite !zlen_cons, IH. reflexivity. Qed.
Lemma encode_length (l : list (stitch Q)) : zlen (pec_encode qz_q l) <= 6 * zlen l.
Proof. unfold pec_encode. pose proof (loop_length (quantise qz_q 0 0 l) true true true) as H. rewrite quantise_length in H. exact H. Qed.

(** The bytes of the PEC part of a prepared pattern. *)
Lemma write_pec_of filler order name l threads e :
  set_order order -> (exists d, incl threads d /\ (List.length d <= 64)%nat) ->
  Forall ascii (label_of name) -> threads <> [] -> (List.length threads <= 255)%nat ->
  (thread_changes l < List.length threads)%nat -> box_of l = Some e ->
  let idx := map (palette_index (order threads)) threads in
  write_pec filler order name l threads
  = Ok (header_bytes (label_of name) idx ++ ([0; 0] ++ write_int_24le (16 + zlen (pec_encode qz_q l)) ++ block_fixed e
          ++ pec_encode qz_q l) ++ write_pec_graphics e l,
        (zlen idx - 1) :: map Z.of_nat idx, threads).
Proof.
  intros Ho (d & Hd & Ld) Ha Hne Hl Hn He idx. unfold write_pec. rewrite fix_enough by exact Hn.
  destruct (Ho threads) as (Nd & Inc & Cov).
  assert (L64 : (List.length (order threads) <= 64)%nat).
  { apply Nat.le_trans with (List.length d); [|exact Ld]. apply NoDup_incl_length; [exact Nd|].
    intros t Ht. apply Hd, Inc, Ht. }
  destruct (palette_index_ok (order threads) threads L64 Cov) as (P1 & P2 & _).
  rewrite (header_of order name threads Ha Hne Hl P1 (fun t Ht => proj1 (P2 t Ht))). cbn [bindr].
  rewrite He, block_of. cbn [bindr]. reflexivity.
Qed.

(** ** From END to END *)
Lemma sections_cmds {C D} : forall (a : list (stitch C)) (b : list (stitch D)) o, map scmd a = map scmd b ->
  sections_sewn o a -> sections_sewn o b.
Proof.
  intros a b o E S. revert b E. induction S; intros [|t b2] E; try discriminate; cbn [map] in E.
  - apply sections_end.
  - injection E as E1 E2. apply sections_sew; [unfold is_sewing in *; rewrite <- E1; assumption|auto].
  - injection E as E1 E2. apply sections_edge; [unfold is_change, is_stop in *; rewrite <- E1; assumption|auto].
  - injection E as E1 E2. apply sections_other; try (unfold is_sewing, is_change, is_stop in *; rewrite <- E1; assumption). auto.
Qed.
Lemma sections_before_end {C} : forall (l : list (stitch C)) e o, cmd_of (scmd e) = END ->
  Forall (fun s => cmd_of (scmd s) <> END) l -> sections_sewn o (l ++ [e]) -> sections_sewn o (before_end (l ++ [e])).
Proof.
  intros l e o He. revert o. induction l as [|s r IH]; intros o F S; cbn [app before_end] in *.
  - rewrite He. cbn iota. destruct (plain_cmd e END He ltac:(cbn; tauto)) as (N1 & N2 & N3).
    apply sections_cons in S. destruct S as [[S _]|[(_ & [S|S] & _)|(_ & _ & _ & S)]]; try contradiction. exact S.
  - apply Forall_cons_iff in F as [Fs F]. apply Z.eqb_neq in Fs. rewrite Fs.
    apply sections_cons in S. destruct S as [[S1 S]|[(-> & S1 & S)|(N1 & N2 & N3 & S)]].
    + apply sections_sew; auto.
    + apply sections_edge; auto.
    + apply sections_other; auto.
Qed.
Lemma edges_before_end {C} : forall (l : list (stitch C)) e, cmd_of (scmd e) = END ->
  Forall (fun s => cmd_of (scmd s) <> END) l -> edges (before_end (l ++ [e])) = edges (l ++ [e]).
Proof.
  intros l e He. induction l as [|s r IH]; intros F; cbn [app before_end].
  - rewrite He. cbn iota. cbn [edges flat_map]. unfold changes. rewrite He. reflexivity.
  - apply Forall_cons_iff in F as [Fs F]. apply Z.eqb_neq in Fs. rewrite Fs. rewrite (edges_cons s (r ++ [e])), <- (IH F).
    apply edges_cons.
Qed.
Lemma ends_written (l : list (stitch Q)) : ends_once l -> ends_once (written l).
Proof.
  intros (body & e & -> & He & F). pose proof (written_cmds (body ++ [e])) as W.
  assert (N : written (body ++ [e]) <> []) by (intros E; rewrite E in W; destruct body; discriminate W).
  destruct (exists_last N) as (b' & e' & Eb). rewrite Eb in *. rewrite !map_app in W. cbn [map] in W.
  apply app_inj_tail in W. destruct W as [W1 W2]. exists b', e'. split; [reflexivity|]. rewrite W2. split; [exact He|].
  clear -W1 F. revert b' W1. induction F as [|s r Hs F IH]; intros [|t b'] W; try discriminate; constructor.
  - cbn [map] in W. injection W as -> _. exact Hs.
  - cbn [map] in W. injection W as _ W. auto.
Qed.
Lemma ends_exists {C} (l : list (stitch C)) : ends_once l -> Exists (fun s => cmd_of (scmd s) = END) l.
Proof. intros (b & e & -> & He & _). apply Exists_app. right. left. exact He. Qed.

(** Everything about the stitches. *)
Definition pec_pattern (l : list (stitch Q)) : Prop :=
  ends_once l /\ pec_representable (written l) /\ sections_sewn false l.
Definition pec_kept (l : list (stitch Q)) : list (stitch Z) :=
  closed (pec_file_view true true 0 0 (before_end (written l))).

Lemma representable_before : forall l px py,
  representable 2047 [STITCH; JUMP] [COLOR_CHANGE; STOP; TRIM; END] px py l ->
  representable 2047 [STITCH; JUMP] [COLOR_CHANGE; STOP; TRIM; END] px py (before_end l).
Proof. intros. apply representable_before_end. assumption. Qed.

Lemma pec_read_stitches l q : pec_pattern l ->
  pec_read (pec_encode qz_q (map cc l) ++ 0 :: q) = map cc (pec_kept l).
Proof.
  intros (He & Hr & _). rewrite encode_written, written_cc, pec_roundtrip.
  - rewrite before_end_cc, view_cc, closed_cc. reflexivity.
  - apply representable_cc, Hr.
  - apply ends_written, ends_exists in He. apply Exists_exists in He. destruct He as (s & Hs & Es).
    apply Exists_exists. exists (cc s). split; [apply in_map, Hs|]. rewrite cc_other by (rewrite Es; discriminate). exact Es.
Qed.
Lemma kept_edges l : pec_pattern l -> edges (pec_kept l) = edges l.
Proof.
  intros (He & Hr & _). unfold pec_kept. rewrite edges_closed, edges_view by (apply representable_before, Hr).
  apply ends_written in He. destruct He as (b & e & E & He & F). rewrite E, edges_before_end by assumption. rewrite <- E.
  apply edges_cmds, written_cmds.
Qed.
Lemma kept_restored {T} (teq : T -> T -> bool) l (ts : list T) : pec_pattern l -> (forall t, teq t t = true) ->
  (thread_changes l < length ts)%nat -> neighbours_differ teq ts ->
  interpolate_duplicate_color_as_stop teq (map cc (pec_kept l)) (expand ts l) = (pec_kept l, ts).
Proof.
  intros P Hr Hn Nd. rewrite expand_of_edges, <- (kept_edges l P), <- expand_of_edges.
  apply restore; [exact Hr| | | |exact Nd].
  - destruct P as (He & Hrep & S). apply sections_closed, sections_view; [apply representable_before, Hrep|].
    pose proof (sections_cmds l (written l) false (eq_sym (written_cmds l)) S) as S'.
    apply ends_written in He. destruct He as (b & e & E & He & F). rewrite E in *. apply sections_before_end; assumption.
  - apply closed_plain_stops, view_plain_stops.
  - rewrite changes_of_edges, (kept_edges l P), <- changes_of_edges. exact Hn.
Qed.

(** ** The label *)
Lemma strip_pad t : strip (pad16 t) = strip t.
Proof.
  unfold pad16, strip.
  assert (D : forall n a, exists m, drop_blanks (a ++ repeat 32 n) = drop_blanks a ++ repeat 32 m).
  { intros n. induction a as [|c a IH].
    - exists 0%nat. cbn [app drop_blanks]. rewrite <- (app_nil_r (repeat 32 n)).
      rewrite drop_blanks_app; [reflexivity|]. apply Forall_forall. intros c Hc. apply repeat_spec in Hc. subst. reflexivity.
    - cbn [app drop_blanks]. destruct (blank c); [apply IH|]. exists n. reflexivity. }
  destruct (D (16 - List.length t)%nat t) as [m ->]. rewrite rev_app_distr. f_equal.
  apply drop_blanks_app. apply Forall_rev. apply Forall_forall. intros c Hc. apply repeat_spec in Hc. subst. reflexivity.
Qed.

(** ** Reading what was written *)
Lemma colours_read (order : list thread) ts : (forall t, In t ts -> (palette_index order t < 65)%nat) ->
  map added (map_pec_colors (map Z.of_nat (map (palette_index order) ts)) []) = map (palette_thread order) ts.
Proof.
  intros H. cbn [map_pec_colors]. unfold process_pec_colors. rewrite !map_map. apply map_ext_in. intros t Ht.
  unfold palette_thread. specialize (H t Ht). change (zlen pec_threads) with 65.
  rewrite Z.mod_small by lia. rewrite Nat2Z.id. reflexivity.
Qed.

Lemma colours_some (order : list thread) ts : (forall t, In t ts -> (palette_index order t < 65)%nat /\
     nth_error pec_threads (palette_index order t) = Some (Some (palette_thread order t))) ->
  map_pec_colors (map Z.of_nat (map (palette_index order) ts)) [] = map Some (map (palette_thread order) ts).
Proof.
  intros H. cbn [map_pec_colors]. unfold process_pec_colors. rewrite !map_map. apply map_ext_in. intros t Ht.
  destruct (H t Ht) as [H1 H2]. change (zlen pec_threads) with 65.
  rewrite Z.mod_small by lia. rewrite Nat2Z.id. rewrite (nth_error_nth _ _ None H2). reflexivity.
Qed.

Definition name_text (name : option text) : metadata := [(text_of "Name", Meta_text (strip (label_of name)))].
Lemma name_entry_text name : name_entry (label_of name) = name_text name.
Proof. unfold name_entry, name_text. rewrite strip_pad. reflexivity. Qed.

Definition pec_room (l : list (stitch Q)) (threads : list thread) : Prop :=
  (thread_changes l < List.length threads)%nat /\ (List.length threads + stops l <= 255)%nat /\
  (exists d, incl threads d /\ (List.length d <= 64)%nat) /\ 6 * zlen l + 16 < 2 ^ 24.

(** ** The pictures read back *)
Fixpoint picture_entries (i : Z) (pictures : list (list Z)) (values : list (option thread)) : metadata :=
  match pictures, values with
  | p :: ps, v :: vs => (text_of "pec_graphic_" ++ str_of_int i, Meta_graphic p 6 v) :: picture_entries (i + 1) ps vs
  | _, _ => []
  end.
Lemma py_index_app {A} (i : Z) (a : list A) s r : i = zlen a -> py_index i (a ++ s :: r) = Ok s.
Proof.
  intros ->. unfold py_index. pose proof (zlen_nonneg a).
  destruct (Z.ltb_spec (zlen a) 0); [lia|]. unfold zlen at 1. rewrite Nat2Z.id, nth_error_app2, Nat.sub_diag by lia.
  reflexivity.
Qed.
Lemma read_graphics_of : forall pics i done values pos rest, Forall (fun p => zlen p = 228) pics -> i = zlen done ->
  (List.length pics <= List.length values)%nat ->
  read_pec_graphics (List.length pics) i 228 6 (done ++ values) (pos, concat pics ++ rest)
  = Ok (picture_entries i pics values).
Proof.
  induction pics as [|p ps IH]; intros i done values pos rest F Ei Hl; [reflexivity|].
  apply Forall_cons_iff in F as [Fp F]. destruct values as [|v vs]; [cbn in Hl; lia|].
  cbn [List.length read_pec_graphics concat picture_entries]. rewrite <- app_assoc.
  rewrite (s_read_app _ p _ 228) by (symmetry; exact Fp). rewrite (py_index_app _ done) by exact Ei. cbn [bindr].
  specialize (IH (i + 1) (done ++ [v]) vs (pos + 228) rest F). rewrite <- app_assoc in IH. cbn [app] in IH.
  rewrite IH; [reflexivity| |cbn in Hl; lia]. rewrite zlen_app. change (zlen [v]) with 1. lia.
Qed.

Lemma colorblocks_count {T C} (get : Z -> T) (l : list (stitch C)) : forall r i start pos,
  Forall (fun s => ~ In (cmd_of (scmd s)) [COLOR_BREAK; NEEDLE_SET]) r ->
  0 <= start <= pos -> pos + zlen r = zlen l ->
  (start < zlen l) -> (exists b e, r = b ++ [e] /\ cmd_of (scmd e) <> COLOR_CHANGE) ->
  List.length (colorblocks get l i start pos r) = S (thread_changes r).
Proof.
  assert (End_ : forall i start pos, start < zlen l ->
    List.length (colorblocks get l i start pos []) = 1%nat).
  { intros i start pos H. cbn [colorblocks]. destruct (Z.eqb_spec start (zlen l)); [lia|]. reflexivity. }
  induction r as [|s r IH]; intros i start pos F Hs Hl Hlt (b & e & Er & He); [destruct b; discriminate|].
  apply Forall_cons_iff in F as [Fs F]. rewrite zlen_cons in Hl. pose proof (zlen_nonneg r).
  assert (N1 : cmd_of (scmd s) <> COLOR_BREAK) by (intros E; apply Fs; rewrite E; cbn; auto).
  assert (N2 : cmd_of (scmd s) <> NEEDLE_SET) by (intros E; apply Fs; rewrite E; cbn; auto).
  rewrite thread_changes_cons. unfold changes. apply Z.eqb_neq in N1, N2. cbn [colorblocks]. rewrite N1, N2. cbn [andb].
  destruct b as [|s' b].
  - injection Er as -> ->. apply Z.eqb_neq in He. rewrite He. cbn [orb]. rewrite End_ by exact Hlt. reflexivity.
  - injection Er as <- Er. assert (Hx : exists b e, r = b ++ [e] /\ cmd_of (scmd e) <> COLOR_CHANGE) by eauto.
    assert (0 < zlen r) by (rewrite Er, zlen_app; change (zlen [e]) with 1; pose proof (zlen_nonneg b); lia).
    destruct (cmd_of (scmd s) =? COLOR_CHANGE); cbn [orb].
    + cbn [List.length]. rewrite IH; try assumption; try lia.
    + rewrite IH; try assumption; try lia.
Qed.

Lemma pec_colour_blocks l : pec_pattern l ->
  List.length (get_as_colorblocks (fun _ => tt) (map cc l)) = S (thread_changes l + stops l).
Proof.
  intros (He & Hr & _). rewrite <- changes_cc.
  apply colorblocks_count; try lia; [| |].
  - assert (W : map scmd (written (map cc l)) = map scmd (map cc l)) by apply written_cmds.
    rewrite written_cc in W. apply representable_cc in Hr. revert W Hr. generalize (map cc l) as a. generalize (map cc (written l)) as w.
    generalize 0 at 1. generalize 0. intros px py w. revert px py. induction w as [|t w IH]; intros px py [|s a] W Hr; try discriminate; constructor.
    + cbn [map] in W. injection W as W _. rewrite <- W. destruct Hr as [[[H _]|[H _]] _]; cbn [In] in H;
        intros [E|[E|[]]]; rewrite <- E in H; intuition discriminate.
    + cbn [map] in W. injection W as _ W. destruct Hr as [_ Hr]. eapply IH; eassumption.
  - destruct He as (b & e & -> & _). rewrite map_app, zlen_app. cbn [map]. rewrite zlen_cons. pose proof (zlen_nonneg (map cc b)).
    change (zlen (@nil (stitch Q))) with 0. lia.
  - destruct He as (b & e & -> & E & _). exists (map cc b), (cc e). split; [apply map_app|].
    rewrite cc_other by (rewrite E; discriminate). rewrite E. discriminate.
Qed.

(** The pictures of a file: the whole pattern, then every colour section; a stop starts a new
    one. *)
Definition pictures_of (e : box) (l : list (stitch Q)) : list (list Z) :=
  main_picture e (map cc l) :: map (color_picture e) (get_as_colorblocks (fun _ => tt) (map cc l)).

(** The PEC part anywhere in a file. *)
Lemma pec_part filler order name l threads : set_order order -> Forall ascii (label_of name) ->
  pec_pattern l -> pec_room l threads ->
  exists pec idx, write_pec filler order name (map cc l) (expand threads l) = Ok (pec, idx, expand threads l) /\
  forall pre post chart, exists pictures,
    read_pec (pre ++ pec ++ post) (zlen pre, pec ++ post) chart
    = Ok (map cc (pec_kept l),
          map added (map_pec_colors (map Z.of_nat (map (palette_index (order (expand threads l))) (expand threads l))) chart),
          name_text name ++ pictures) /\
    (List.length threads = S (thread_changes l) -> forall e, box_of (map cc l) = Some e ->
       pictures = picture_entries 0 (pictures_of e l)
         (None :: map_pec_colors (map Z.of_nat (map (palette_index (order (expand threads l))) (expand threads l))) chart)).
Proof.
  intros Ho Ha P (R1 & R2 & (d & Hd & Ld) & R4).
  set (ts := expand threads l).
  assert (Lts : List.length ts = (List.length threads + stops l)%nat) by (apply expand_length, R1).
  assert (Hne : ts <> []) by (intros E; rewrite E in Lts; cbn in Lts; lia).
  assert (Hc : (thread_changes (map cc l) < List.length ts)%nat) by (rewrite changes_cc; lia).
  pose proof P as (He & _). destruct (box_some (map cc l)) as [e Eb].
  { destruct He as (b & x & -> & _). rewrite map_app. destruct (map cc b); discriminate. }
  pose proof (write_pec_of filler order name (map cc l) ts e Ho
    (ex_intro _ d (conj (incl_tran (expand_incl l threads) Hd) Ld)) Ha Hne ltac:(lia) Hc Eb) as W. cbn zeta in W.
  do 2 eexists. split; [exact W|]. intros pre post chart.
  destruct (graphics_first (map cc l) e Eb) as [q Eq].
  set (idx := map (palette_index (order ts)) ts) in *.
  assert (Li : zlen idx = Z.of_nat (List.length ts)) by (unfold idx, zlen; rewrite map_length; reflexivity).
  pose proof (encode_length (map cc l)) as EL. assert (Lm : zlen (map cc l) = zlen l) by (unfold zlen; rewrite map_length; reflexivity).
  destruct (read_pec_of pre post (label_of name) idx e (map cc l) chart (write_pec_graphics e (map cc l)) Ha) as (pics & Er & Eg).
  - unfold label_of. rewrite firstn_length. lia.
  - lia.
  - lia.
  - exists pics. split.
    { rewrite Er, name_entry_text. f_equal. f_equal. f_equal. rewrite Eq. cbn [app]. apply pec_read_stitches, P. }
    intros Hn e' Ee. rewrite Eb in Ee. injection Ee as <-.
    assert (Gs : write_pec_graphics e (map cc l) = concat (pictures_of e l))
      by (rewrite graphics_split; unfold pictures_of; cbn [concat]; f_equal; apply flat_map_concat_map).
    assert (Lp : List.length (pictures_of e l) = Z.to_nat (zlen idx + 1)).
    { unfold pictures_of. cbn [List.length]. rewrite map_length, pec_colour_blocks by exact P. lia. }
    rewrite <- Lp, Gs in Eg.
    pose proof (fun v p => read_graphics_of (pictures_of e l) 0 [] v p post) as RG. cbn [app] in RG.
    rewrite RG in Eg; [injection Eg as <-; reflexivity| |reflexivity|].
    + constructor; [apply main_picture_ok, Eb|]. apply Forall_forall. intros p Hp. apply in_map_iff in Hp.
      destruct Hp as (b & <- & Hb). exact (proj1 (color_picture_ok _ _ _ Eb Hb)).
    + rewrite Lp. cbn [List.length]. pose proof (map_pec_colors_length (map Z.of_nat idx) chart) as M.
      unfold zlen in M at 1. rewrite map_length in M. unfold zlen in *. lia.
Qed.
