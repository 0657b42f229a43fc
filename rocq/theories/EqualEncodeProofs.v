(** Encoding patterns that differ in their threads only. *)
From Coq Require Import ZArith List Bool Lia.
From Verif Require Import PyBase EmbConst FunctionsModel ThreadModel NumModel MatrixModel EncoderModel.
Import ListNotations.
Open Scope Z_scope.

Section Planning.
(** [R] relates thread objects; threads of the same index are related. *)
Variable R : tref -> tref -> Prop.
Variables th th' : list thread.
Hypothesis RT : forall i, R (get_thread_or_filler th i) (get_thread_or_filler th' i).
Definition orel (a b : option tref) : Prop := match a, b with Some a, Some b => R a b | None, None => True | _, _ => False end.
Definition drel (a b : draft) : Prop := d_cmd a = d_cmd b /\ d_thread a = d_thread b /\ d_needle a = d_needle b /\ orel (d_obj a) (d_obj b).
Definition crel (a b : change) : Prop := c_cmd a = c_cmd b /\ c_thread a = c_thread b /\ c_needle a = c_needle b /\ R (c_obj a) (c_obj b).
Definition dictrel {A} (P : A -> A -> Prop) (d d' : dict A) : Prop := Forall2 (fun a b => fst a = fst b /\ P (snd a) (snd b)) d d'.
Lemma get_rel {A} (P : A -> A -> Prop) k d d' : dictrel P d d' ->
  match dict_get k d, dict_get k d' with Some a, Some b => P a b | None, None => True | _, _ => False end.
Proof.
  induction 1 as [|[j a] [j' b] d d' [E H] _ IH]; cbn [dict_get]; [exact I|]. cbn [fst snd] in *. subst j'.
  destruct (j =? k); [exact H|exact IH].
Qed.
Lemma set_rel {A} (P : A -> A -> Prop) k a b d d' : P a b -> dictrel P d d' -> dictrel P (dict_set k a d) (dict_set k b d').
Proof.
  intros K. induction 1 as [|[j x] [j' y] d d' [E H] F IH]; cbn [dict_set].
  - constructor; [split; [reflexivity|exact K]|constructor].
  - cbn [fst snd] in *. subst j'. destruct (j =? k); constructor; cbn [fst snd]; auto.
Qed.
Lemma plan_rel : forall evs look d d', dictrel drel d d' -> dictrel drel (plan_events th look d evs) (plan_events th' look d' evs).
Proof.
  induction evs as [|e evs IH]; intros look d d' H; cbn [plan_events]; [exact H|].
  set (kl := match e_index e with None => _ | Some i => _ end). destruct kl as [key look']. apply IH. apply set_rel; [|exact H].
  pose proof (get_rel drel key d d' H) as G.
  assert (K : drel (match dict_get key d with Some c => c | None => no_draft end) (match dict_get key d' with Some c => c | None => no_draft end)).
  { destruct (dict_get key d), (dict_get key d'); try contradiction; [exact G|]. repeat split. }
  destruct K as (K1 & K2 & K3 & K4). unfold fill_draft. destruct (e_thread e) as [t|]; repeat split; cbn [d_cmd d_thread d_needle d_obj]; auto.
  - rewrite K1. reflexivity.
  - rewrite K3. reflexivity.
  - apply RT.
  - rewrite K1. reflexivity.
  - rewrite K3. reflexivity.
Qed.
Definition rrel {A} (P : A -> A -> Prop) (a b : res A) : Prop :=
  match a, b with Ok a, Ok b => P a b | Err e, Err e' => e = e' | _, _ => False end.
Lemma finish_rel : forall d d' tcc nl ti ni, dictrel drel d d' ->
  rrel (dictrel crel) (finish_plan th tcc nl ti ni d) (finish_plan th' tcc nl ti ni d').
Proof.
  intros d d' tcc nl ti ni H. revert ti ni. induction H as [|[k a] [k' b] d d' [E (K1 & K2 & K3 & K4)] F IH]; intros ti ni; cbn [finish_plan].
  - constructor.
  - cbn [fst snd] in *. subst k'. rewrite K1, K2, K3.
    set (nd := match d_needle b with Some n => Ok (n, ni) | None => _ end). destruct nd as [[n ni']|e]; cbn [bindr]; [|destruct (d_thread b); exact (eq_refl e)].
    destruct (d_thread b) as [t|].
    + specialize (IH ti ni'). destruct (finish_plan th tcc nl ti ni' d), (finish_plan th' tcc nl ti ni' d'); cbn [bindr rrel] in *; try contradiction; [|exact IH].
      constructor; [|exact IH]. split; [reflexivity|]. repeat split. cbn [snd c_obj].
      destruct (d_obj a), (d_obj b); try contradiction; [exact K4|apply RT].
    + specialize (IH (ti + 1) ni'). destruct (finish_plan th tcc nl (ti + 1) ni' d), (finish_plan th' tcc nl (ti + 1) ni' d'); cbn [bindr rrel] in *; try contradiction; [|exact IH].
      constructor; [|exact IH]. split; [reflexivity|]. repeat split. cbn [snd c_obj].
      destruct (d_obj a), (d_obj b); try contradiction; [exact K4|apply RT].
Qed.
Lemma sequence_rel tcc nc cmds :
  rrel (dictrel crel) (build_thread_change_sequence tcc nc th cmds) (build_thread_change_sequence tcc nc th' cmds).
Proof.
  apply finish_rel, plan_rel. constructor; [|constructor]. split; [reflexivity|]. repeat split.
Qed.
End Planning.

Section Running.
Context (N : Num).
Variable R : tref -> tref -> Prop.
Variable L : list tref -> list tref -> Prop.
Hypothesis LR : forall l l' t t', L l l' -> R t t' -> L (l ++ [t]) (l' ++ [t']).
Notation st := (st N).
(** The state with other threads. *)
Definition retag (s : st) (ts : list tref) : st :=
  mkSt N (out N s) ts (nx N s) (ny N s) (order_index N s) (trimmed N s) (sequin_mode N s) (jumping N s)
    (high_flags N s) (max_stitch N s) (max_jump N s) (explicit_trim N s) (tie_on_contingency N s)
    (tie_off_contingency N s) (long_stitch_contingency N s) (sequin_contingency N s) (matrix N s).
(** A function of the state that leaves the threads alone and does not look at them. *)
Definition blind (g : st -> st) : Prop := forall s ts, g (retag s ts) = retag (g s) ts /\ othreads N (g s) = othreads N s.
Definition rblind (g : st -> res st) : Prop := forall s ts,
  match g s with Ok s2 => g (retag s ts) = Ok (retag s2 ts) /\ othreads N s2 = othreads N s | Err e => g (retag s ts) = Err e end.
Lemma blind_comp f g : blind f -> blind g -> blind (fun s => g (f s)).
Proof. intros F G s ts. destruct (F s ts) as [-> <-]. apply G. Qed.
Lemma blind_if (b : st -> bool) f g : (forall s ts, b (retag s ts) = b s) -> blind f -> blind g -> blind (fun s => if b s then f s else g s).
Proof. intros B F G s ts. cbn beta. rewrite B. destruct (b s); [apply F|apply G]. Qed.
Lemma blind_ok f : blind f -> rblind (fun s => Ok (f s)).
Proof. intros F s ts. cbn beta. destruct (F s ts) as [-> E]. auto. Qed.
Lemma rblind_bind f g : rblind f -> rblind g -> rblind (fun s => do s <- f s; g s).
Proof.
  intros F G s ts. cbn beta. specialize (F s ts). destruct (f s) as [s2|e]; cbn [bindr].
  - destruct F as [-> E]. cbn [bindr]. specialize (G s2 ts). destruct (g s2) as [s3|e]; [|exact G]. destruct G as [G1 G2]. split; [exact G1|congruence].
  - rewrite F. reflexivity.
Qed.
Lemma rblind_if (b : st -> bool) f g : (forall s ts, b (retag s ts) = b s) -> rblind f -> rblind g -> rblind (fun s => if b s then f s else g s).
Proof. intros B F G s ts. cbn beta. rewrite B. destruct (b s); [apply F|apply G]. Qed.
Ltac plain := let a := fresh in let b := fresh in intros a b; split; reflexivity.
Lemma b_add v : blind (fun s => add N s v). Proof. plain. Qed.
Lemma b_toggle : blind (toggle_sequins N).
Proof. intros s ts. unfold toggle_sequins. cbn [sequin_contingency retag]. destruct (_ =? _); split; reflexivity. Qed.
Lemma b_off : blind (fun s => if sequin_mode N s then toggle_sequins N s else s).
Proof. apply blind_if; [reflexivity|apply b_toggle|plain]. Qed.
Lemma b_gap_loop : forall (n : nat) (qx qy dx dy : F N) (cmd : Z), blind (gap_loop N n qx qy dx dy cmd).
Proof.
  induction n as [|n IH]; intros qx qy dx dy cmd s ts; cbn [gap_loop]; [split; reflexivity|].
  match goal with |- context [gap_loop N n ?a ?b dx dy cmd (update_needle_position N (append N (retag s ts) ?e) ?a ?b)] =>
    exact (IH a b dx dy cmd (update_needle_position N (append N s e) a b) ts) end.
Qed.
Lemma b_gap (px py : st -> F N) x y (m : st -> limit N) data : (forall s ts, px (retag s ts) = px s) -> (forall s ts, py (retag s ts) = py s) ->
  (forall s ts, m (retag s ts) = m s) -> rblind (fun s => interpolate_gap_stitches N s (px s) (py s) x y (m s) data).
Proof.
  intros P1 P2 P3 s ts. cbn beta. rewrite P1, P2, P3. unfold interpolate_gap_stitches. destruct (m s) as [l|]; [|split; reflexivity].
  destruct (_ || _); [|split; reflexivity].
  assert (B : blind (fun s => if (data =? JUMP) && sequin_mode N s then toggle_sequins N s else s)).
  { apply blind_if; [reflexivity|apply b_toggle|plain]. }
  destruct (B s ts) as [B1 B2]. cbn beta in B1, B2. rewrite B1. set (s1 := if (data =? JUMP) && sequin_mode N s then toggle_sequins N s else s) in *.
  destruct (fdiv N _ l) as [rx|]; cbn [bindr]; [|reflexivity]. destruct (fceil N _) as [zx|]; cbn [bindr]; [|reflexivity].
  destruct (fdiv N _ l) as [ry|]; cbn [bindr]; [|reflexivity]. destruct (fceil N _) as [zy|]; cbn [bindr]; [|reflexivity].
  destruct (fdivz N _ _) as [dx|]; cbn [bindr]; [|reflexivity]. destruct (fdivz N _ _) as [dy|]; cbn [bindr]; [|reflexivity].
  match goal with |- context [gap_loop N ?n ?a ?b dx dy ?c s1] => destruct (b_gap_loop n a b dx dy c s1 ts) as [G1 G2] end.
  split; [f_equal; exact G1|congruence].
Qed.
Lemma b_jump_at x y : blind (fun s : st => jump_at N s x y).
Proof. unfold jump_at. refine (blind_comp _ (fun s : st => update_needle_position N (add_at N s JUMP x y) x y) b_off _). plain. Qed.
Lemma b_stitch_at x y : blind (fun s : st => stitch_at N s x y). Proof. plain. Qed.
Lemma b_within c x y : rblind (fun s => jump_to_within_stitchrange N c s x y).
Proof.
  unfold jump_to_within_stitchrange. apply rblind_bind; [apply b_gap; reflexivity|]. apply rblind_if; [reflexivity| |apply blind_ok; plain].
  apply rblind_if; [reflexivity|apply blind_ok, b_jump_at|apply blind_ok; plain].
Qed.
Lemma b_jump_to x y : rblind (fun s => jump_to N s x y).
Proof. unfold jump_to. apply rblind_bind; [apply b_gap; reflexivity|apply blind_ok, b_jump_at]. Qed.
Lemma b_sew_to x y : rblind (fun s => sew_to N s x y).
Proof. unfold sew_to. apply rblind_bind; [apply b_gap; reflexivity|apply blind_ok, b_stitch_at]. Qed.
Lemma b_needle_to x y : rblind (fun s => needle_to N s x y).
Proof. unfold needle_to. apply rblind_bind; [apply b_gap; reflexivity|apply blind_ok, b_stitch_at]. Qed.
Lemma b_contingency x y : rblind (fun s => stitch_with_contingency N s x y).
Proof.
  unfold stitch_with_contingency. apply rblind_if; [reflexivity|apply b_sew_to|]. apply rblind_if; [reflexivity|apply b_needle_to|apply blind_ok, b_stitch_at].
Qed.
Lemma b_sequin x y : rblind (fun s => sequin_at N s x y).
Proof.
  intros s ts. unfold sequin_at. cbn [sequin_contingency retag]. destruct (_ =? CONTINGENCY_SEQUIN_REMOVE); [split; reflexivity|].
  pose proof (b_gap (nx N) (ny N) x y (max_stitch N) STITCH (fun _ _ => eq_refl) (fun _ _ => eq_refl) (fun _ _ => eq_refl) s ts) as G.
  cbn beta in G. destruct (interpolate_gap_stitches N s _ _ _ _ _ _) as [s2|e]; cbn [bindr].
  - destruct G as [G1 G2]. change (interpolate_gap_stitches N (retag s ts) (nx N (retag s ts)) (ny N (retag s ts)) x y (max_stitch N (retag s ts)) STITCH = Ok (retag s2 ts)) in G1.
    rewrite G1. cbn [bindr]. rewrite <- G2.
    destruct (_ =? CONTINGENCY_SEQUIN_UTILIZE); [split; reflexivity|]. destruct (_ =? CONTINGENCY_SEQUIN_JUMP); [split; reflexivity|].
    destruct (_ =? CONTINGENCY_SEQUIN_STITCH); split; reflexivity.
  - rewrite G. reflexivity.
Qed.
Lemma b_lock_towards b : blind (fun s => lock_towards N s b).
Proof.
  intros s ts. unfold lock_towards. destruct b as [b|]; [|split; reflexivity]. cbn [matrix retag].
  destruct (point_in_matrix_space N (matrix N s) (sx b) (sy b)) as [bx by']. destruct (is_anchor (scmd b)); [|split; reflexivity].
  unfold lock_stitch. cbn [max_stitch nx ny retag]. destruct (max_stitch N s) as [l|]; [|split; reflexivity].
  destruct (fdist_gt N _ _ _ _ l); [destruct (foriented N _ _ _ _ l)|]; split; reflexivity.
Qed.
Lemma b_tie_off src p : blind (tie_off N src p).
Proof. unfold tie_off. apply blind_if; [reflexivity|apply b_lock_towards|plain]. Qed.
Lemma b_tie_on src p : blind (tie_on N src p).
Proof. unfold tie_on. apply blind_if; [reflexivity|apply b_lock_towards|plain]. Qed.
Lemma b_trim : blind (trim_here N).
Proof. unfold trim_here. refine (blind_comp _ (fun s : st => set_trimmed N (add N s TRIM) true) b_off _). plain. Qed.
Lemma b_close src p : blind (close_section N src p).
Proof.
  unfold close_section. apply blind_if; [reflexivity| |plain].
  refine (blind_comp _ (fun s : st => if explicit_trim N s then trim_here N s else s) (b_tie_off src p) _). apply blind_if; [reflexivity|apply b_trim|plain].
Qed.
Lemma b_if_needed src p : blind (tie_off_and_trim_if_needed N src p).
Proof. unfold tie_off_and_trim_if_needed. apply blind_if; [reflexivity| |plain]. exact (blind_comp _ _ (b_tie_off src p) b_trim). Qed.

(** The same state with related threads. *)
Definition sim (s s' : st) : Prop := exists ts, s' = retag s ts /\ L (othreads N s) ts.
Lemma sim_blind g s s' : blind g -> sim s s' -> sim (g s) (g s').
Proof. intros B (ts & -> & H). destruct (B s ts) as [-> E]. exists ts. rewrite E. auto. Qed.
Lemma sim_rblind g s s' : rblind g -> sim s s' -> rrel sim (g s) (g s').
Proof.
  intros B (ts & -> & H). specialize (B s ts). destruct (g s) as [s2|e]; cbn [rrel].
  - destruct B as [-> E]. exists ts. rewrite E. auto.
  - rewrite B. reflexivity.
Qed.
Lemma sim_bind (f f' g g' : st -> res st) s s' : rrel sim (f s) (f' s') -> (forall s s', sim s s' -> rrel sim (g s) (g' s')) ->
  rrel sim (bindr (f s) g) (bindr (f' s') g').
Proof. intros H G. destruct (f s), (f' s'); cbn [bindr rrel] in *; try contradiction; [apply G, H|exact H]. Qed.
Variables seq seq' : dict change.
Hypothesis SR : dictrel (crel R) seq seq'.
Lemma sim_next c s s' : sim s s' -> rrel sim (next_change_sequence N c seq s) (next_change_sequence N c seq' s').
Proof.
  intros (ts & -> & H). unfold next_change_sequence. cbn [order_index set_order retag].
  pose proof (get_rel (crel R) (order_index N s + 1) seq seq' SR) as G.
  destruct (dict_get _ seq) as [a|], (dict_get _ seq') as [b|]; try contradiction; [|reflexivity].
  destruct G as (_ & E2 & E3 & E4). rewrite <- E2, <- E3. cbn [rrel].
  destruct (_ =? COLOR_CHANGE).
  { exists (ts ++ [c_obj b]). cbn [order_index add_thread set_order retag]. destruct (negb _); (split; [reflexivity|]); apply LR; assumption. }
  destruct (_ =? NEEDLE_SET); [exists ts; split; [reflexivity|exact H]|].
  destruct (_ =? STOP); [|exists ts; split; [reflexivity|exact H]].
  exists (ts ++ [c_obj b]). split; [reflexivity|]. apply LR; assumption.
Qed.
Lemma sim_field {A} (p : st -> A) s s' : (forall s ts, p (retag s ts) = p s) -> sim s s' -> p s' = p s.
Proof. intros P (ts & -> & _). apply P. Qed.
Lemma sim_declare c s s' : sim s s' -> rrel sim (declare_not_trimmed N c seq s) (declare_not_trimmed N c seq' s').
Proof.
  intros H. unfold declare_not_trimmed. rewrite (sim_field (order_index N) s s' ltac:(reflexivity) H).
  apply (sim_bind (fun z => if order_index N s =? -1 then next_change_sequence N c seq z else Ok z) (fun z => if order_index N s =? -1 then next_change_sequence N c seq' z else Ok z)).
  - cbn beta. destruct (_ =? -1); [apply sim_next, H|exact H].
  - intros. apply (sim_blind (fun s => set_trimmed N s false)); [plain|assumption].
Qed.
Lemma sim_open c src p x y s s' : sim s s' -> rrel sim (open_section N c seq src p x y s) (open_section N c seq' src p x y s').
Proof.
  intros H. unfold open_section. apply (sim_bind (declare_not_trimmed N c seq) (declare_not_trimmed N c seq')); [apply sim_declare, H|].
  intros a b K. apply (sim_bind (fun s => jump_to_within_stitchrange N c s x y) (fun s => jump_to_within_stitchrange N c s x y)); [apply (sim_rblind _ _ _ (b_within c x y)), K|].
  intros u v K'. apply (sim_blind (fun s => tie_on N src p (stitch_at N s x y))); [|exact K'].
  exact (blind_comp _ _ (b_stitch_at x y) (b_tie_on src p)).
Qed.
Lemma rrel_ok g s s' : blind g -> sim s s' -> rrel sim (Ok (g s)) (Ok (g s')).
Proof. intros B H. exact (sim_blind g s s' B H). Qed.
Lemma sim_exec c src p rest a x y o s s' : sim s s' ->
  rrel sim (exec N c seq src p rest a x y o s) (exec N c seq' src p rest a x y o s').
Proof.
  intros H. 
  assert (Hsew : forall f, rblind f -> rrel sim
    (if trimmed N s then open_section N c seq src p x y s else if jumping N s then do s <- needle_to N s x y; Ok (set_jumping N s false) else f s)
    (if trimmed N s' then open_section N c seq' src p x y s' else if jumping N s' then do s <- needle_to N s' x y; Ok (set_jumping N s false) else f s')).
  { intros f B. rewrite (sim_field (trimmed N) s s' ltac:(reflexivity) H), (sim_field (jumping N) s s' ltac:(reflexivity) H).
    destruct (trimmed N s); [apply sim_open, H|]. destruct (jumping N s); [|apply (sim_rblind f), H; exact B].
    apply (sim_rblind (fun s => do s <- needle_to N s x y; Ok (set_jumping N s false))); [|exact H].
    apply rblind_bind; [apply b_needle_to|apply blind_ok; plain]. }
  assert (Hm : forall g : mat N -> mat N, blind (fun s => set_matrix N s (g (matrix N s)))) by (intros g; plain).
  assert (Hinv : forall g : mat N -> F N * F N -> mat N,
    rrel sim (do '(s, q) <- needle_in_source N s; Ok (set_matrix N s (g (matrix N s) q)))
             (do '(s, q) <- needle_in_source N s'; Ok (set_matrix N s (g (matrix N s) q)))).
  { intros g. destruct H as (ts & -> & H). unfold needle_in_source. cbn [matrix retag nx ny].
    destruct (inverse N (matrix N s)) as [inv|]; cbn [bindr]; [|reflexivity]. destruct (inverse N inv) as [back|]; cbn [bindr]; [|reflexivity].
    exists ts. split; [reflexivity|exact H]. }
  destruct o; cbn [exec]; try (match goal with |- rrel sim (Ok (?g s)) (Ok (?g s')) => apply (rrel_ok g); [|exact H]; plain end).
  - exact H.
  - apply (Hsew (fun s => stitch_with_contingency N s x y)), b_contingency.
  - apply (Hsew (fun s => needle_to N s x y)), b_needle_to.
  - apply (Hsew (fun s => sew_to N s x y)), b_sew_to.
  - apply (rrel_ok (fun s => set_jumping N s true)); [plain|exact H].
  - apply (sim_rblind (fun s => do s <- jump_to N (tie_off_and_trim_if_needed N src p s) x y; Ok (stop_here N s))); [|exact H].
    apply (rblind_bind (fun s => jump_to N (tie_off_and_trim_if_needed N src p s) x y)); [|apply blind_ok; plain].
    intros u ts. destruct (b_if_needed src p u ts) as [E1 E2]. cbn beta. rewrite E1, <- E2. apply (b_jump_to x y).
  - apply (rrel_ok (tie_off_and_trim_if_needed N src p)); [apply b_if_needed|exact H].
  - unfold color_break. rewrite (sim_field (order_index N) s s' ltac:(reflexivity) H). destruct (_ <? 0); [exact H|].
    pose proof (sim_blind _ _ _ (b_close src p) H) as K. destruct (negb _); [exact K|].
    apply (sim_bind (next_change_sequence N c seq) (next_change_sequence N c seq')); [apply sim_next, K|].
    intros u v U. apply (rrel_ok (fun s => set_trimmed N s true)); [plain|exact U].
  - apply (rrel_ok (tie_off N src p)); [apply b_tie_off|exact H].
  - apply (rrel_ok (tie_on N src p)); [apply b_tie_on|exact H].
  - apply (rrel_ok (tie_off_and_trim_if_needed N src p)); [apply b_if_needed|exact H].
  - rewrite (sim_field (jumping N) s s' ltac:(reflexivity) H). destruct (jumping N s); [exact H|]. apply (sim_rblind _ _ _ (b_jump_to x y)), H.
  - apply (rrel_ok (toggle_sequins N)); [apply b_toggle|exact H].
  - rewrite (sim_field (trimmed N) s s' ltac:(reflexivity) H).
    apply (sim_bind (fun z => if trimmed N s then open_section N c seq src p x y z else Ok z) (fun z => if trimmed N s then open_section N c seq' src p x y z else Ok z)
      (fun s => let s := if sequin_mode N s then s else toggle_sequins N s in sequin_at N s x y) (fun s => let s := if sequin_mode N s then s else toggle_sequins N s in sequin_at N s x y)).
    + destruct (trimmed N s); [apply sim_open, H|exact H].
    + intros u v U. cbn beta zeta. apply (sim_rblind _ _ _ (b_sequin x y)).
      apply (sim_blind (fun s => if sequin_mode N s then s else toggle_sequins N s)); [|exact U].
      apply blind_if; [reflexivity|plain|apply b_toggle].
  - unfold tie_off_trim_color_change. pose proof (sim_blind _ _ _ (b_close src p) H) as K.
    apply (sim_bind (next_change_sequence N c seq) (next_change_sequence N c seq')); [apply sim_next, K|].
    intros u v U. apply (rrel_ok (fun s => set_trimmed N s true)); [plain|exact U].
  - apply (rrel_ok (fun s => if writes_speeds c then add N s SLOW else s)); [|exact H]. destruct (writes_speeds c); plain.
  - apply (rrel_ok (fun s => if writes_speeds c then add N s FAST else s)); [|exact H]. destruct (writes_speeds c); plain.
  - destruct H as (ts & -> & H). exists ts. split; [reflexivity|exact H].
  - destruct H as (ts & -> & H). exists ts. split; [reflexivity|exact H].
  - destruct H as (ts & -> & H). exists ts. split; [reflexivity|exact H].
  - destruct H as (ts & -> & H). exists ts. split; [reflexivity|exact H].
  - destruct H as (ts & -> & H). exists ts. split; [reflexivity|exact H].
  - destruct H as (ts & -> & H). exists ts. split; [reflexivity|exact H].
  - assert (K : sim (if negb (c0 =? CONTINGENCY_SEQUIN_UTILIZE) && sequin_mode N s then toggle_sequins N s else s)
                   (if negb (c0 =? CONTINGENCY_SEQUIN_UTILIZE) && sequin_mode N s' then toggle_sequins N s' else s')).
    { apply (sim_blind (fun s => if negb (c0 =? CONTINGENCY_SEQUIN_UTILIZE) && sequin_mode N s then toggle_sequins N s else s)); [|exact H].
      apply blind_if; [reflexivity|apply b_toggle|plain]. }
    cbv zeta. destruct K as (ts & -> & K). exists ts. split; [reflexivity|exact K].
  - apply (rrel_ok (fun s => set_matrix N s (post_translate N (matrix N s) (sx a) (sy a)))); [plain|exact H].
  - apply (rrel_ok (fun s => set_matrix N s (post_scale N (matrix N s) (sx a) (sy a) (f0 N) (f0 N)))); [plain|exact H].
  - apply (rrel_ok (fun s => set_matrix N s (post_rotate N (matrix N s) (sx a) (f0 N) (f0 N)))); [plain|exact H].
  - apply (Hinv (fun m q => post_scale N m (sx a) (sy a) (fst q) (snd q))).
  - apply (Hinv (fun m q => post_rotate N m (sx a) (fst q) (snd q))).
  - apply (rrel_ok (fun s => set_matrix N s (get_identity N))); [plain|exact H].
Qed.
Lemma sim_main c src : forall rest p s s', sim s s' -> rrel sim (main_loop N c seq src p rest s) (main_loop N c seq' src p rest s').
Proof.
  induction rest as [|a rest IH]; intros p s s' H; cbn [main_loop].
  - apply (rrel_ok (end_here N)); [plain|exact H].
  - assert (E : placed N c s' a = placed N c s a) by (destruct H as (ts & -> & _); reflexivity). rewrite E.
    destruct (placed N c s a) as [[x y]|]; cbn [bindr]; [|reflexivity].
    pose proof (sim_blind (fun s => set_high N s (Z.land (scmd a) FLAGS_MASK)) s s' ltac:(plain) H) as K. cbn beta in K.
    pose proof (sim_exec c src p (a :: rest) a x y (classify (cmd_of (scmd a))) _ _ K) as X.
    destruct (exec N c seq _ _ _ _ _ _ _ _) as [u|], (exec N c seq' _ _ _ _ _ _ _ _) as [v|]; cbn [bindr rrel] in *; try contradiction; [|exact X].
    destruct (_ =? END); [exact X|apply IH, X].
Qed.
End Running.

(** Encoding is blind to the threads: same stitches or same exception, related threads. *)
Theorem transcode_rel (N : Num) (R : tref -> tref -> Prop) (L : list tref -> list tref -> Prop) set l th th' :
  (forall l l' t t', L l l' -> R t t' -> L (l ++ [t]) (l' ++ [t'])) -> L [] [] ->
  (thread_change_command (init_config N set) = NEEDLE_SET -> L (map Own th) (map Own th')) ->
  (forall i, R (get_thread_or_filler th i) (get_thread_or_filler th' i)) ->
  rrel (fun a b => fst a = fst b /\ L (snd a) (snd b)) (transcode N set (mkP N l th)) (transcode N set (mkP N l th')).
Proof.
  intros LR L0 LO RT. unfold transcode. cbn [p_threads p_stitches].
  pose proof (sequence_rel R th th' RT (thread_change_command (init_config N set)) (needle_count (init_config N set)) (map scmd l)) as S.
  destruct (build_thread_change_sequence _ _ th _) as [seq|], (build_thread_change_sequence _ _ th' _) as [seq'|]; cbn [bindr rrel] in *; try contradiction; [|exact S].
  match goal with |- rrel _ (do s <- main_loop N ?c seq l 0 l ?s0; _) (do s <- main_loop N ?c seq' l 0 l ?s1; _) =>
    assert (I : sim N L s0 s1); [|pose proof (sim_main N R L LR seq seq' S c l l 0 s0 s1 I) as M] end.
  { destruct (Z.eqb_spec (thread_change_command (init_config N set)) NEEDLE_SET) as [E|E].
    - exists (map Own th'). split; [reflexivity|apply LO, E].
    - exists []. split; [reflexivity|exact L0]. }
  destruct (main_loop N _ seq l 0 l _) as [u|], (main_loop N _ seq' l 0 l _) as [v|]; cbn [bindr rrel] in *; try contradiction; [|exact M].
  destruct M as (ts & -> & M). split; [reflexivity|exact M].
Qed.
