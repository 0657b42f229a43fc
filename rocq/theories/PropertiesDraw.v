(** C156 - C158: histories of drawing calls, thread lists without repetition, commands by kind and by number. *)
From Coq Require Import ZArith QArith List Bool Lia.
From Verif Require Import PyBase BitLemmas EmbConst FunctionsModel ThreadModel PatternModel PropertiesCore PropertiesValues DrawModel DrawSpec.
Import ListNotations.
Open Scope Z_scope.

(** ** C156: an offset counts from the last command *)
(** Calls after which the library still knows where the last command is: everything without a position;
    insertions that leave a command after them; no translation and no raw command. *)
Definition keeps_pen {T} (length : Z) (c : call T) : Prop :=
  match c with
  | Relative _ _ _ None | Absolute _ _ _ None | AddRelative _ _ _ | AddAbsolute _ _ _ | Thread _ | Clear => True
  | Relative _ _ _ (Some position) => 0 < length \/ position <> 0
  | Absolute _ _ _ (Some position) | Insert position _ _ _ => 0 < length /\ position < length
  | Prepend _ _ _ => 0 < length
  | Command _ _ _ | Translate _ _ => False
  end.
Inductive history {T} : pattern T Q -> Prop :=
| h_new : history new_pattern
| h_call : forall p c p', history p -> keeps_pen (zlen (p_stitches p)) c -> draw c p = Ok p' -> history p'.

Lemma pen_app l s : pen (l ++ [s]) = (sx s, sy s).
Proof. unfold pen. rewrite rev_app_distr. reflexivity. Qed.
Lemma pen_tail a b : b <> [] -> pen (a ++ b) = pen b.
Proof. intros H. destruct (exists_last H) as (b' & s & ->). rewrite app_assoc, !pen_app. reflexivity. Qed.
Lemma zlen_pos {A} (l : list A) : 0 < zlen l -> l <> [].
Proof. unfold zlen. destruct l; cbn; [lia|discriminate]. Qed.
Lemma pen_insert k s l : 0 <= k < zlen l -> pen (py_insert k s l) = pen l.
Proof.
  intros H. unfold py_insert, zlen in *. assert (E : skipn (Z.to_nat k) l <> []).
  { intros E. apply (f_equal (@List.length _)) in E. rewrite skipn_length in E. cbn in E. lia. }
  rewrite <- (firstn_skipn (Z.to_nat k) l) at 3. rewrite (pen_tail _ (skipn _ _) E).
  change (s :: skipn (Z.to_nat k) l) with ([s] ++ skipn (Z.to_nat k) l). rewrite app_assoc. apply pen_tail. exact E.
Qed.
Lemma pen_list_insert k s l : 0 < zlen l -> k < zlen l -> pen (list_insert k s l) = pen l.
Proof. intros H1 H2. unfold list_insert. apply pen_insert. destruct (k <? 0) eqn:E; [apply Z.ltb_lt in E|apply Z.ltb_ge in E]; lia. Qed.
Lemma relative_pen T position cmd dx dy (p p' : pattern T Q) : pen (p_stitches p) = (p_x p, p_y p) -> 0 < zlen (p_stitches p) \/ position <> 0 ->
  insert_stitch_relative position cmd dx dy p = Ok p' -> pen (p_stitches p') = (p_x p', p_y p').
Proof.
  intros I K. unfold insert_stitch_relative. cbv zeta.
  assert (L0 : 0 <= zlen (p_stitches p)) by (unfold zlen; lia).
  set (k := if position <? 0 then position + zlen (p_stitches p) else position).
  destruct (k =? 0) eqn:E0; [|destruct (k =? zlen (p_stitches p)) eqn:E1; [|destruct ((0 <? k) && (k <? zlen (p_stitches p))) eqn:E2]].
  - intros [= <-]. cbn [p_stitches p_x p_y]. rewrite pen_insert; [exact I|]. apply Z.eqb_eq in E0. unfold k in E0.
    destruct (position <? 0) eqn:En; [apply Z.ltb_lt in En|apply Z.ltb_ge in En]; lia.
  - intros [= <-]. unfold add_stitch_relative, add_stitch_absolute. cbn [p_stitches p_x p_y]. rewrite pen_app. reflexivity.
  - apply andb_true_iff in E2. destruct E2 as [E2 E3]. apply Z.ltb_lt in E2, E3.
    destruct (py_index (k - 1) (p_stitches p)) as [q|]; [|discriminate]. cbn [bindr]. intros [= <-]. cbn [p_stitches p_x p_y]. rewrite pen_insert; [exact I|lia].
  - intros [= <-]. exact I.
Qed.
Lemma history_pen T (p : pattern T Q) : history p -> pen (p_stitches p) = (p_x p, p_y p).
Proof.
  induction 1 as [|p c p' H IH K D]; [reflexivity|].
  destruct c as [m dx dy [k|]|s x y [k|]|c dx dy|c x y|k c x y|c x y|c x y|dx dy|t|]; cbn [keeps_pen] in K; try contradiction;
    cbn [draw relative] in D; try (eapply relative_pen; eassumption); injection D as <-;
    unfold absolute, insert, prepend_command, add_stitch_relative, add_stitch_absolute, new_pattern; cbn [p_stitches p_x p_y];
    rewrite ?pen_app; try reflexivity; try exact IH.
  - rewrite pen_list_insert; tauto.
  - rewrite pen_list_insert; tauto.
  - rewrite pen_list_insert; try lia. exact IH.
Qed.

(** However a pattern came about by such calls: a command with an offset and no position is put at that offset from
    the last command, everything else stays, and the pattern can be drawn on. *)
Theorem C156_offset_partial : forall T (p : pattern T Q) m dx dy, history p ->
  exists p', relative m dx dy None p = Ok p' /\ history p' /\ p_threads p' = p_threads p /\
    p_stitches p' = p_stitches p ++ [mkS (fst (pen (p_stitches p)) + dx)%Q (snd (pen (p_stitches p)) + dy)%Q (method_command m)].
Proof.
  intros T p m dx dy H. eexists. split; [reflexivity|]. split; [|split; [reflexivity|]].
  - apply (h_call p (Relative m dx dy None) _ H I). reflexivity.
  - rewrite (history_pen _ _ H). reflexivity.
Qed.
(** A translation, an insertion into an empty pattern or a raw command break it: the next stitch by (5, 0) is not 5 right
    of the last command. *)
Theorem C156_offset_refuted : forall cs, In cs [[Relative Stitch 10 0 None; Translate 1000 0]; [Relative Stitch 10 0 (Some 0)]; [Absolute true 10 0 (Some 0)]; [Command STITCH 10 0]] ->
  exists p p', draw_all (T := thread) cs new_pattern = Ok p /\ relative Stitch 5 0 None p = Ok p' /\
    ~ (fst (pen (p_stitches p')) == fst (pen (p_stitches p)) + 5)%Q.
Proof.
  intros cs H. repeat (destruct H as [<-|H]; [eexists; eexists; split; [reflexivity|split; [reflexivity|vm_compute; congruence]]|]). destruct H.
Qed.
Print Assumptions C156_offset_partial.
Print Assumptions C156_offset_refuted.
(** The calls [cs] one after another, each keeping the pen. *)
Fixpoint all_keep {T} (cs : list (call T)) (p : pattern T Q) : Prop :=
  match cs with
  | [] => True
  | c :: r => keeps_pen (zlen (p_stitches p)) c /\ match draw c p with Ok p' => all_keep r p' | Err _ => True end
  end.
Lemma history_calls T (cs : list (call T)) : forall p p', history p -> all_keep cs p -> draw_all cs p = Ok p' -> history p'.
Proof.
  induction cs as [|c cs IH]; intros p p' H K D; [injection D as <-; exact H|]. cbn [draw_all] in D. destruct K as [K1 K2].
  destruct (draw c p) as [p1|] eqn:E; [|discriminate]. cbn [bindr] in D. eapply IH; [|exact K2|exact D]. eapply h_call; eassumption.
Qed.
Definition c156_calls : list (call thread) :=
  [Relative Stitch 10 0 None; Absolute false 50 50 None; Relative Trim 0 0 None; Relative Stop 1 1 (Some (-1)); Insert 0 JUMP 3 3; Relative Stitch (-7) 0 (Some 5)].
Example C156_case : exists p : pattern thread Q, history p /\ draw_all c156_calls new_pattern = Ok p /\
  map (fun s => (Qred (sx s), Qred (sy s), scmd s)) (p_stitches p) = [(3%Q, 3%Q, JUMP); (10%Q, 0%Q, STITCH); (50%Q, 50%Q, JUMP); (51%Q, 51%Q, STOP); (50%Q, 50%Q, TRIM); (43%Q, 50%Q, STITCH)].
Proof.
  eexists. split; [|split; [reflexivity|vm_compute; reflexivity]].
  apply (history_calls _ c156_calls new_pattern); [apply h_new| |reflexivity].
  cbn. repeat split; try lia; auto.
Qed.

(** ** C157: thread lists without repetition *)
Lemma teq_iff a b : thread_eqb a b = true <-> t_color a mod 2 ^ 24 = t_color b mod 2 ^ 24 /\
     (t_description a, t_catalog a, t_details a, t_brand a, t_chart a, t_weight a) = (t_description b, t_catalog b, t_details b, t_brand b, t_chart b, t_weight b).
Proof. exact (proj1 (C132_equality a b)). Qed.
Lemma teq_refl t : thread_eqb t t = true.
Proof. apply teq_iff. split; reflexivity. Qed.
Lemma teq_sym a b : thread_eqb a b = thread_eqb b a.
Proof.
  destruct (thread_eqb a b) eqn:E1, (thread_eqb b a) eqn:E2; auto.
  - apply teq_iff in E1. destruct E1 as [A B]. assert (thread_eqb b a = true) by (apply teq_iff; split; congruence). congruence.
  - apply teq_iff in E2. destruct E2 as [A B]. assert (thread_eqb a b = true) by (apply teq_iff; split; congruence). congruence.
Qed.
Lemma teq_trans a b c : thread_eqb a b = true -> thread_eqb b c = true -> thread_eqb a c = true.
Proof. intros H1 H2. apply teq_iff in H1, H2. apply teq_iff. destruct H1, H2. split; congruence. Qed.

(** Every thread list falls into runs of equal threads, neighbouring runs being different, and the singleton list has
    the first of each run. *)
Theorem C157_singleton : forall threads, exists runs, runs_of thread_eqb threads runs /\ get_singleton_threadlist thread_eqb threads = map fst runs.
Proof.
  assert (G : forall l u, exists run runs, Forall (fun t => thread_eqb u t = true) run /\ l = run ++ concat (map (fun r => fst r :: snd r) runs) /\
    Forall (fun r => Forall (fun t => thread_eqb (fst r) t = true) (snd r)) runs /\
    (forall a x y b, runs = a ++ x :: y :: b -> thread_eqb (fst x) (fst y) = false) /\
    (forall x b, runs = x :: b -> thread_eqb u (fst x) = false) /\
    forall v, thread_eqb u v = true -> singleton_loop thread_eqb (Some v) l = map fst runs).
  { induction l as [|t l IH]; intros u.
    - exists [], []. repeat split; try constructor. intros a x y b H. destruct a; discriminate. intros x b H; discriminate.
    - destruct (thread_eqb u t) eqn:E.
      + destruct (IH u) as (run & runs & R1 & -> & R3 & R4 & R5 & R6). exists (t :: run), runs. split; [constructor; assumption|]. split; [reflexivity|].
        split; [exact R3|]. split; [exact R4|]. split; [exact R5|]. intros v Hv. cbn [singleton_loop].
        rewrite (teq_sym t v), (teq_trans v u t); [|rewrite teq_sym; exact Hv|exact E]. cbn [app]. apply R6. exact E.
      + destruct (IH t) as (run & runs & R1 & -> & R3 & R4 & R5 & R6). exists [], ((t, run) :: runs). split; [constructor|]. split; [reflexivity|].
        split; [constructor; [exact R1|exact R3]|]. split; [|split].
        * intros a x y b H. destruct a as [|z a]; [injection H as <- H; cbn [fst]; eapply R5; exact H|injection H as _ H; eapply R4; exact H].
        * intros x b H. injection H as <- _. exact E.
        * intros v Hv. cbn [singleton_loop map fst]. assert (F : thread_eqb t v = false).
          { destruct (thread_eqb t v) eqn:F; [|reflexivity]. rewrite (teq_trans u v t) in E; [discriminate|exact Hv|rewrite teq_sym; exact F]. }
          rewrite F. cbn [app]. f_equal. apply R6. apply teq_refl. }
  intros [|t l]; [exists []; split; [split; [reflexivity|split; [constructor|intros a x y b H; destruct a; discriminate]]|reflexivity]|].
  destruct (G l t) as (run & runs & R1 & -> & R3 & R4 & R5 & R6). exists ((t, run) :: runs). split.
  - split; [reflexivity|]. split; [constructor; assumption|]. intros a x y b H.
    destruct a as [|z a]; [injection H as <- H; cbn [fst]; eapply R5; exact H|injection H as _ H; eapply R4; exact H].
  - unfold get_singleton_threadlist. cbn [singleton_loop map fst app]. f_equal. apply R6. apply teq_refl.
Qed.
(** The set of threads has exactly one thread equal to each thread of the list. *)
Theorem C157_unique : forall threads, each_once thread_eqb threads (get_unique_threadlist thread_eqb threads).
Proof.
  assert (G : forall l seen, (forall a x b y c, seen = a ++ x :: b ++ y :: c -> thread_eqb x y = false) ->
    let u := set_of thread_eqb seen l in incl seen u /\ incl u (seen ++ l) /\ (forall t, In t l -> exists v, In v u /\ thread_eqb t v = true) /\
    (forall a x b y c, u = a ++ x :: b ++ y :: c -> thread_eqb x y = false)).
  { induction l as [|t l IH]; intros seen H; cbn [set_of]; cbv zeta.
    - split; [apply incl_refl|]. split; [rewrite app_nil_r; apply incl_refl|]. split; [intros t []|exact H].
    - destruct (existsb (thread_eqb t) seen) eqn:E.
      + destruct (IH seen H) as (I1 & I2 & I3 & I4). split; [exact I1|]. split.
        { intros v Iv. apply I2 in Iv. apply in_app_iff in Iv. apply in_app_iff. cbn. tauto. }
        split; [|exact I4]. intros v [<-|Iv]; [|apply I3; exact Iv]. apply existsb_exists in E. destruct E as (w & Iw & Ew). exists w. split; [apply I1; exact Iw|exact Ew].
      + destruct (IH (seen ++ [t])) as (I1 & I2 & I3 & I4).
        { intros a x b y c Q. destruct (exists_last (l := y :: c)) as (c' & z & Ec); [discriminate|].
          assert (Q' : seen ++ [t] = (a ++ x :: b ++ c') ++ [z]) by (rewrite Q, Ec, <- !app_assoc; cbn [app]; rewrite <- app_assoc; reflexivity).
          apply app_inj_tail in Q'. destruct Q' as [Qs Qt]. destruct c' as [|y' c'].
          - injection Ec as -> ->. subst z. rewrite app_nil_r in Qs. rewrite teq_sym. destruct (thread_eqb t x) eqn:F; [|reflexivity].
            assert (existsb (thread_eqb t) seen = true) by (apply existsb_exists; exists x; split; [rewrite Qs; apply in_app_iff; cbn; auto|exact F]). congruence.
          - injection Ec as -> _. eapply H. exact Qs. }
        split; [intros v Iv; apply I1; apply in_app_iff; auto|]. split; [intros v Iv; apply I2 in Iv; rewrite <- app_assoc in Iv; exact Iv|]. split; [|exact I4].
        intros v [<-|Iv]; [|apply I3; exact Iv]. exists t. split; [apply I1; apply in_app_iff; cbn; auto|apply teq_refl]. }
  intros threads. destruct (G threads []) as (_ & I2 & I3 & I4); [intros a x b y c H; destruct a; discriminate|]. split; [exact I2|]. split; assumption.
Qed.
Print Assumptions C157_singleton.
Print Assumptions C157_unique.
Example C157_case :
  let red := plain_thread 0xFF0000 in let red' := plain_thread 0xFFFF0000 in let blue := plain_thread 0xFF in
  get_singleton_threadlist thread_eqb [red; red'; blue; blue; red] = [red; blue; red] /\ get_unique_threadlist thread_eqb [red; red'; blue; blue; red] = [red; blue].
Proof. vm_compute. auto. Qed.

(** ** C158: commands by kind and by number *)
(** The commands of one kind are a sublist in the order of the pattern, counting them gives its length, and every part of the pattern
    contributes its own. *)
Theorem C158_match : forall C command (l : list (stitch C)),
  (forall s, In s (get_match_commands command l) <-> In s l /\ scmd s mod 256 = command) /\
  count_stitch_commands command l = zlen (get_match_commands command l) /\
  (forall a s b, l = a ++ s :: b -> get_match_commands command l =
     get_match_commands command a ++ (if scmd s mod 256 =? command then [s] else []) ++ get_match_commands command b).
Proof.
  intros C command l. assert (M : forall c, cmd_of c = c mod 256) by (intros c; unfold cmd_of; change COMMAND_MASK with (Z.ones 8); apply Z.land_ones; lia).
  split; [|split].
  - intros s. unfold get_match_commands. rewrite filter_In, Z.eqb_eq, M. reflexivity.
  - unfold count_stitch_commands, get_match_commands, zlen. assert (G : forall n, fold_left (fun n s => if cmd_of (scmd s) =? command then n + 1 else n) l n
      = n + Z.of_nat (List.length (filter (fun s => cmd_of (scmd s) =? command) l))).
    { induction l as [|s l IH]; intros n; cbn [fold_left filter List.length]; [lia|]. destruct (cmd_of (scmd s) =? command); rewrite IH; cbn [List.length]; lia. }
    apply G.
  - intros a s b ->. unfold get_match_commands. rewrite filter_app. cbn [filter]. rewrite M. destruct (scmd s mod 256 =? command); reflexivity.
Qed.
(** The list of all commands has each with its number, its place and what it was made of. *)
Theorem C158_numbered : forall C (l : list (stitch C)) k, 
  nth_error (get_as_stitches l) k = match nth_error l k with
    | Some s => Some (Z.of_nat k, sx s, sy s, decode_embroidery_command (scmd s)) | None => None end /\
  forall s command thread needle order, nth_error l k = Some s -> scmd s = encode_thread_change command thread needle order ->
    0 <= command <= 255 -> in_0_254 thread -> in_0_254 needle -> in_0_254 order ->
    nth_error (get_as_stitches l) k = Some (Z.of_nat k, sx s, sy s, (command, thread, needle, order)).
Proof.
  intros C l k. assert (G : forall n j (l : list (stitch C)), nth_error (map (fun ks => (Z.of_nat (fst ks), sx (snd ks), sy (snd ks), decode_embroidery_command (scmd (snd ks)))) (combine (seq n (List.length l)) l)) j
    = match nth_error l j with Some s => Some (Z.of_nat (n + j), sx s, sy s, decode_embroidery_command (scmd s)) | None => None end).
  { intros n j l0. revert n j. induction l0 as [|s l0 IH]; intros n [|j]; cbn [List.length seq combine map nth_error fst snd]; try reflexivity.
    - rewrite Nat.add_0_r. reflexivity.
    - rewrite IH. replace (S n + j)%nat with (n + S j)%nat by lia. reflexivity. }
  split; [apply (G 0%nat)|]. intros s command thread needle order Hs Hc H1 H2 H3 H4. unfold get_as_stitches. rewrite G, Hs, Hc.
  rewrite C01_thread_change_round_trip by assumption. reflexivity.
Qed.
Print Assumptions C158_match.
Print Assumptions C158_numbered.
Example C158_case : let l := [mkS 0 0 STITCH; mkS 1 0 (encode_thread_change COLOR_CHANGE (Some 3) (Some 7) None); mkS 2 0 STITCH] in
  count_stitch_commands COLOR_CHANGE l = 1 /\ get_match_commands STITCH l = [mkS 0 0 STITCH; mkS 2 0 STITCH] /\
  nth_error (get_as_stitches l) 1 = Some (1, 1, 0, (COLOR_CHANGE, Some 3, Some 7, None)).
Proof. vm_compute. auto. Qed.
