(** Lemmas about HeapModel.v: encoding, copying and joining patterns. *)
From Coq Require Import ZArith List Bool Lia Arith.
From Verif Require Import PyBase EmbConst EncoderModel PatternModel HeapModel PatternSpec HeapSpec HeapProofs.
Import ListNotations.
Open Scope nat_scope.

Lemma dict_set_new {A} k (a : A) d : ~ In k (map fst d) -> dict_set k a d = d ++ [(k, a)].
Proof.
  induction d as [|[k' a'] r IH]; intros H; [reflexivity|]. cbn in *.
  destruct (Z.eqb_spec k' k) as [->|E]; [exfalso; apply H; left; reflexivity|].
  rewrite IH; [reflexivity|]. intros Hin. apply H. right. exact Hin.
Qed.
Lemma dict_update_new e : forall d, NoDup (map fst (d ++ e)) -> dict_update d e = d ++ e.
Proof.
  unfold dict_update. induction e as [|[k v] r IH]; intros d H; cbn [fold_left].
  - rewrite app_nil_r. reflexivity.
  - rewrite map_app in H. cbn in H.
    pose proof (NoDup_remove_2 _ _ _ H) as Hk. pose proof H as H0.
    rewrite dict_set_new by (intros Hin; apply Hk; apply in_or_app; left; exact Hin).
    rewrite IH; [rewrite <- app_assoc; reflexivity|].
    rewrite <- app_assoc. rewrite map_app. exact H0.
Qed.
Lemma dict_copy e : NoDup (map fst e) -> dict_update [] e = e.
Proof. intros H. rewrite dict_update_new; [reflexivity|exact H]. Qed.

Section Heap.
Context {T C : Type}.
Variables (zero : C) (plus : C -> C -> C) (filler : Z -> T) (teq : T -> T -> bool).
Notation world := (@world T C).
Notation hpat := (@hpat T C).

Lemma contents_seen (w : world) ls ss : contents w ls = Ok ss <-> map (nth_error (w_cells w)) ls = map Some ss.
Proof.
  revert ss. induction ls as [|l r IH]; intros ss; cbn [contents map].
  - split; [intros H; injection H as <-; reflexivity|]. destruct ss; [reflexivity|discriminate].
  - unfold cell_of. destruct (nth_error (w_cells w) l) as [s|] eqn:E; cbn [bindr].
    + destruct (contents w r) as [rs|] eqn:Er; cbn [bindr].
      * split; intros H.
        -- injection H as <-. cbn. f_equal. apply IH. reflexivity.
        -- destruct ss as [|s' ss]; [discriminate|]. cbn in H. injection H as -> H.
           apply IH in H. injection H as ->. reflexivity.
      * split; [discriminate|]. intros H. destruct ss as [|s' ss]; [discriminate|]. cbn in H.
        injection H as _ H. apply IH in H. discriminate.
    + split; [discriminate|]. destruct ss; discriminate.
Qed.
Lemma shows_pat (w : world) p ss ts ex x y : shows w p ss ts ex x y ->
  exists ls, pat_of w p = Ok (mkHP ls ts ex x y) /\ contents w ls = Ok ss /\ p < length (w_pats w).
Proof.
  unfold shows, seen. destruct (nth_error (w_pats w) p) as [[ls ts' ex' x' y']|] eqn:E; [|discriminate].
  cbn. intros H. injection H as H -> -> -> ->. exists ls. split; [apply pat_of_ok; exact E|].
  split; [apply contents_seen; exact H|]. eapply nth_lt; exact E.
Qed.
Lemma pat_shows (w : world) p h ss : pat_of w p = Ok h -> contents w (hp_stitches h) = Ok ss ->
  shows w p ss (hp_threads h) (hp_extras h) (hp_x h) (hp_y h).
Proof.
  intros Hp Hc. apply pat_of_ok in Hp. unfold shows, seen. rewrite Hp.
  apply contents_seen in Hc. rewrite Hc. reflexivity.
Qed.
Lemma contents_grows (w w' : world) ls ss : grows w w' -> contents w ls = Ok ss -> contents w' ls = Ok ss.
Proof.
  intros [Hl Hg]. revert ss. induction ls as [|l r IH]; intros ss H; cbn [contents] in *; [exact H|].
  unfold cell_of in *. destruct (nth_error (w_cells w) l) as [s|] eqn:E; [|discriminate].
  rewrite Hg by (eapply nth_lt; exact E). rewrite E. cbn [bindr] in *.
  destruct (contents w r) as [rs|]; [|discriminate]. cbn [bindr] in H.
  rewrite (IH rs) by reflexivity. exact H.
Qed.
Lemma contents_app (w : world) a b sa sb : contents w a = Ok sa -> contents w b = Ok sb ->
  contents w (a ++ b) = Ok (sa ++ sb).
Proof. rewrite !contents_seen. intros Ha Hb. rewrite !map_app, Ha, Hb. reflexivity. Qed.
Lemma sound_contents (w : world) ls : Forall (fun l => l < length (w_cells w)) ls ->
  exists ss, contents w ls = Ok ss.
Proof.
  induction 1 as [|l r Hl Hr [ss IH]]; [exists []; reflexivity|].
  cbn [contents]. unfold cell_of. destruct (nth_error (w_cells w) l) as [s|] eqn:E.
  - rewrite IH. exists (s :: ss). reflexivity.
  - apply nth_error_None in E. lia.
Qed.
Lemma contents_pats (w w' : world) ls : w_cells w' = w_cells w -> contents w' ls = contents w ls.
Proof.
  intros H. induction ls as [|l r IH]; [reflexivity|]. cbn [contents]. unfold cell_of. rewrite H, IH. reflexivity.
Qed.

Lemma set_pat_get (w : world) p h : p < length (w_pats w) -> pat_of (set_pat w p h) p = Ok h.
Proof. intros H. apply pat_of_ok. cbn. apply nth_put_same, H. Qed.
Lemma set_pat_get_other (w : world) p q h : q <> p -> pat_of (set_pat w p h) q = pat_of w q.
Proof. intros H. unfold pat_of. cbn. rewrite nth_put_other by exact H. reflexivity. Qed.

(** ** Encoding *)
Lemma append_all_spec ss : forall (w w' : world) p h,
  pat_of w p = Ok h -> append_all w p ss = Ok w' ->
  w_cells w' = w_cells w ++ ss /\
  w_pats w' = put p (mkHP (hp_stitches h ++ seq (length (w_cells w)) (length ss)) (hp_threads h)
                       (hp_extras h) (hp_x h) (hp_y h)) (w_pats w).
Proof.
  induction ss as [|s r IH]; intros w w' p h Hp H; cbn [append_all] in H.
  - injection H as <-. rewrite app_nil_r. split; [reflexivity|]. cbn. rewrite app_nil_r.
    apply pat_of_ok in Hp. unfold put. rewrite Hp. destruct h as [a b c d e]. cbn.
    clear - Hp. revert p Hp. generalize (w_pats w) as l. induction l as [|b0 l IH]; intros [|p] Hp; try discriminate.
    + cbn in Hp. injection Hp as ->. reflexivity.
    + cbn in *. f_equal. apply IH, Hp.
  - rewrite Hp in H. cbn [bindr alloc] in H. set (h1 := mkHP _ _ _ _ _) in H.
    assert (Hl : p < length (w_pats w)) by (apply pat_of_ok in Hp; eapply nth_lt; exact Hp).
    set (w1 := set_pat _ _ _) in H.
    assert (Hp1 : pat_of w1 p = Ok h1) by (apply set_pat_get; exact Hl).
    destruct (IH _ _ _ _ Hp1 H) as [A B]. split.
    + rewrite A. cbn. rewrite <- app_assoc. reflexivity.
    + rewrite B. cbn. rewrite app_length. cbn [length].
      replace (length (w_cells w) + 1) with (S (length (w_cells w))) by lia.
      rewrite <- app_assoc. cbn. 
      apply put_put.
Qed.
Lemma append_all_ok ss : forall (w : world) p, p < length (w_pats w) -> exists w', append_all w p ss = Ok w'.
Proof.
  induction ss as [|s r IH]; intros w p Hp; cbn [append_all]; [eexists; reflexivity|].
  unfold pat_of. destruct (nth_error (w_pats w) p) eqn:E; [|apply nth_error_None in E; lia].
  cbn [bindr alloc]. apply IH. cbn. rewrite put_length. exact Hp.
Qed.

Variable enc : list (stitch C) -> list T -> res (list (stitch C) * list T).

Lemma new_cells (w : list (stitch C)) ss :
  map (nth_error (w ++ ss)) (seq (length w) (length ss)) = map Some ss.
Proof.
  revert w. induction ss as [|s r IH]; intros w; [reflexivity|]. cbn [length seq map]. f_equal.
  - rewrite nth_error_app2 by lia. rewrite Nat.sub_diag. reflexivity.
  - specialize (IH (w ++ [s])). rewrite app_length in IH. cbn [length] in IH.
    replace (length w + 1) with (S (length w)) in IH by lia. rewrite <- app_assoc in IH. exact IH.
Qed.

Lemma transcode_into_spec (w w' : world) src dst ss ts ex x y :
  sound w -> src <> dst -> shows w src ss ts ex x y ->
  forall d, pat_of w dst = Ok d -> transcode_into enc w src dst = Ok w' ->
  exists out ts', enc ss ts = Ok (out, ts') /\
    w_cells w' = w_cells w ++ out /\
    w_pats w' = put dst (mkHP (hp_stitches d ++ seq (length (w_cells w)) (length out)) (hp_threads d ++ ts')
                           (dict_update (hp_extras d) ex) (hp_x d) (hp_y d)) (w_pats w).
Proof.
  intros Hs Hne Hsh d Hd H. destruct (shows_pat _ _ _ _ _ _ _ Hsh) as (ls & Hp & Hc & Hl).
  unfold transcode_into in H. rewrite Hp, Hd in H. cbn [bindr hp_stitches hp_threads hp_extras] in H.
  assert (Hdl : dst < length (w_pats w)) by (apply pat_of_ok in Hd; eapply nth_lt; exact Hd).
  rewrite (contents_pats w) in H by reflexivity. rewrite Hc in H. cbn [bindr] in H.
  destruct (enc ss ts) as [[out ts']|] eqn:Ee; [|discriminate]. cbn [bindr] in H.
  exists out, ts'. split; [reflexivity|].
  set (w1 := set_pat w dst _) in H. set (d1 := mkHP _ _ (dict_update _ _) _ _) in w1.
  assert (Hd1 : pat_of w1 dst = Ok d1) by (apply set_pat_get; exact Hdl).
  destruct (append_all w1 dst out) as [w2|] eqn:Ea; [|discriminate]. cbn [bindr] in H.
  destruct (append_all_spec _ _ _ _ _ Hd1 Ea) as [A B].
  set (d2 := mkHP _ _ _ _ _) in B.
  assert (Hd2 : pat_of w2 dst = Ok d2).
  { apply pat_of_ok. rewrite B. apply nth_put_same. cbn. rewrite put_length. exact Hdl. }
  rewrite Hd2 in H. cbn [bindr] in H. injection H as <-. split; [exact A|].
  cbn. rewrite B. cbn.
  rewrite !put_put. reflexivity.
Qed.

Lemma new_pattern_frame (w : world) w1 q : new_pattern zero w = (w1, q) ->
  w_cells w1 = w_cells w /\ w_pats w1 = w_pats w ++ [mkHP [] [] [] zero zero] /\ q = length (w_pats w).
Proof. intros H. injection H as <- <-. auto. Qed.

Lemma normalized_spec (w w' : world) p q ss ts ex x y :
  sound w -> NoDup (map fst ex) -> shows w p ss ts ex x y ->
  get_normalized_pattern zero enc w p = Ok (w', q) ->
  exists out ts', enc ss ts = Ok (out, ts') /\ q = length (w_pats w) /\
    w_cells w' = w_cells w ++ out /\
    w_pats w' = w_pats w ++ [mkHP (seq (length (w_cells w)) (length out)) ts' ex zero zero].
Proof.
  intros Hs Hn Hsh H. unfold get_normalized_pattern in H.
  destruct (shows_pat _ _ _ _ _ _ _ Hsh) as (ls & Hp & Hc & Hl).
  destruct (new_pattern zero w) as [w1 q1] eqn:En.
  destruct (new_pattern_frame _ _ _ En) as (A & B & Q).
  unfold transcode_obj in H. rewrite Q in H at 1.
  destruct (Nat.eqb_spec p (length (w_pats w))) as [E|E]; [lia|].
  destruct (transcode_into enc w1 p q1) as [w2|] eqn:Et; [|discriminate].
  cbn [bindr] in H. injection H as <- <-.
  assert (Hs1 : sound w1).
  { intros r h Hr. rewrite A. rewrite B in Hr. destruct (Nat.lt_ge_cases r (length (w_pats w))).
    - rewrite nth_error_app1 in Hr by assumption. apply (Hs _ _ Hr).
    - rewrite nth_error_app2 in Hr by assumption. destruct (r - length (w_pats w)) as [|i].
      + cbn in Hr. injection Hr as <-. constructor.
      + cbn in Hr. destruct i; discriminate. }
  assert (Hsh1 : shows w1 p ss ts ex x y).
  { unfold shows, seen. rewrite B, nth_error_app1 by assumption.
    apply pat_of_ok in Hp. rewrite Hp. cbn. rewrite A. apply contents_seen in Hc. rewrite Hc. reflexivity. }
  assert (Hq : pat_of w1 q1 = Ok (mkHP [] [] [] zero zero)).
  { apply pat_of_ok. rewrite B, Q, nth_error_app2, Nat.sub_diag by lia. reflexivity. }
  assert (Hpq : p <> q1) by (rewrite Q; exact E).
  destruct (transcode_into_spec _ _ _ _ _ _ _ _ _ Hs1 Hpq Hsh1 _ Hq Et) as (out & ts' & E1 & E2 & E3).
  exists out, ts'. split; [exact E1|]. split; [exact Q|]. rewrite A in E2, E3. split; [exact E2|].
  rewrite E3, B, Q. cbn [hp_stitches hp_threads hp_extras hp_x hp_y]. rewrite dict_copy by exact Hn. cbn [app].
  unfold put. rewrite nth_error_app2, Nat.sub_diag by lia. cbn [nth_error].
  rewrite firstn_app, firstn_all, Nat.sub_diag. cbn [firstn]. rewrite app_nil_r.
  f_equal. rewrite skipn_all2 by (rewrite app_length; cbn; lia). reflexivity.
Qed.
End Heap.
