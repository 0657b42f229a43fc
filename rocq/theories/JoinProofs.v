(** Lemmas about HeapModel.v: joining patterns. *)
From Coq Require Import ZArith List Bool Lia Arith.
From Verif Require Import PyBase EmbConst EncoderModel PatternModel HeapModel PatternSpec EjectProofs PatternProofs HeapSpec
  HeapProofs HeapOpsProofs.
Import ListNotations.
Open Scope nat_scope.

Section Join.
Context {T C : Type}.
Variables (zero : C) (plus : C -> C -> C) (filler : Z -> T) (teq : T -> T -> bool).
Notation world := (@world T C).
Notation hpat := (@hpat T C).

(** One step of work on pattern [p]: new objects may appear, old ones keep their contents. *)
Definition step (p : nat) (w w' : world) : Prop :=
  sound w' /\ grows w w' /\ others p w w' /\ (forall l, In l (objects w' p) -> In l (objects w p) \/ length (w_cells w) <= l).
Lemma step_refl p w : sound w -> step p w w.
Proof. intros H. split; [exact H|split; [apply grows_refl|split; [apply others_refl|auto]]]. Qed.
Lemma step_trans p a b c : step p a b -> step p b c -> step p a c.
Proof.
  intros (A1 & A2 & A3 & A4) (B1 & B2 & B3 & B4). split; [exact B1|].
  split; [eapply grows_trans; eassumption|]. split; [eapply others_trans; eassumption|].
  intros l Hl. destruct (B4 _ Hl) as [H|H]; [apply A4, H|]. right. destruct A2. lia.
Qed.

Lemma sound_shows (w : world) p : sound w -> p < length (w_pats w) ->
  exists ss ts ex x y, shows w p ss ts ex x y.
Proof.
  intros Hs Hp. destruct (nth_error (w_pats w) p) as [h|] eqn:E; [|apply nth_error_None in E; lia].
  destruct (sound_contents _ _ (Hs _ _ E)) as [ss Hss]. apply pat_of_ok in E.
  exists ss, (hp_threads h), (hp_extras h), (hp_x h), (hp_y h). apply pat_shows; assumption.
Qed.

Lemma set_pat_step (w : world) p h k :
  sound w -> pat_of w p = Ok h -> (forall l, In l (hp_stitches k) -> In l (hp_stitches h)) ->
  step p w (set_pat w p k).
Proof.
  intros Hs Hp Hk.
  assert (Hl : p < length (w_pats w)) by (apply pat_of_ok in Hp; eapply nth_lt; exact Hp).
  split; [|split; [apply set_pat_grows|split; [apply set_pat_others|]]].
  - apply set_pat_sound; [exact Hs|]. rewrite Forall_forall. intros l Hin.
    pose proof (sound_pat _ _ _ Hs Hp) as Hh. rewrite Forall_forall in Hh. apply Hh, Hk, Hin.
  - intros l. rewrite objects_set_same by exact Hl. rewrite (objects_pat _ _ _ Hp). intros H. left. apply Hk, H.
Qed.
Lemma shows_set (w : world) p k ss : p < length (w_pats w) -> contents w (hp_stitches k) = Ok ss ->
  shows (set_pat w p k) p ss (hp_threads k) (hp_extras k) (hp_x k) (hp_y k).
Proof.
  intros Hl Hc. apply pat_shows; [apply set_pat_get; exact Hl|]. rewrite (contents_pats w) by reflexivity. exact Hc.
Qed.

Lemma add_command_ok (w : world) p ss ts ex x y cmd cx cy :
  sound w -> shows w p ss ts ex x y ->
  exists w', add_command w p cmd cx cy = Ok w' /\ step p w w' /\ shows w' p (ss ++ [mkS cx cy cmd]) ts ex x y.
Proof.
  intros Hs Hsh. destruct (shows_pat _ _ _ _ _ _ _ Hsh) as (ls & Hp & Hc & Hl).
  unfold add_command. rewrite Hp. cbn [bindr alloc].
  destruct (alloc w (mkS cx cy cmd)) as [w1 l1] eqn:Ea.
  destruct (alloc_sound _ _ _ _ Hs Ea) as (S1 & S2 & S3 & S4).
  injection Ea as E1 E2. rewrite E1, E2.
  eexists. split; [reflexivity|].
  assert (Hp1 : pat_of w1 p = Ok (mkHP ls ts ex x y)) by (subst w1; exact Hp).
  assert (Hg : grows w w1) by (eapply alloc_grows; rewrite <- E1; unfold alloc; reflexivity).
  assert (Hl1 : p < length (w_pats w1)) by (subst w1; exact Hl).
  split; [split; [|split; [|split]]|].
  - apply set_pat_sound; [exact S1|]. cbn. apply Forall_app. split; [|constructor; [exact S2|constructor]].
    apply (sound_pat _ _ _ S1 Hp1).
  - eapply grows_trans; [exact Hg|apply set_pat_grows].
  - eapply others_trans; [|apply set_pat_others]. subst w1. split; cbn; auto.
  - intros l. rewrite objects_set_same by exact Hl1. cbn. rewrite (objects_pat _ _ _ Hp). cbn.
    intros H. apply in_app_or in H. destruct H as [H|[<-|[]]]; [left; exact H|right]. rewrite S4. reflexivity.
  - change ts with (hp_threads (mkHP (ls ++ [l1]) ts ex x y)) at 1.
    apply (shows_set w1 p (mkHP (ls ++ [l1]) ts ex x y)); [exact Hl1|]. cbn.
    apply contents_app; [eapply contents_grows; eassumption|]. cbn. unfold cell_of. rewrite S3. reflexivity.
Qed.

Lemma drop_end_empty (w : world) p ts ex x y :
  shows w p [] ts ex x y -> drop_end w p = Err IndexError.
Proof.
  intros Hsh. destruct (shows_pat _ _ _ _ _ _ _ Hsh) as (ls & Hp & Hc & Hl).
  unfold drop_end. rewrite Hp. cbn [bindr hp_stitches].
  apply contents_seen in Hc. destruct ls; [reflexivity|discriminate].
Qed.
(** A stitch list whose last command is END, without it. *)
Definition without_end (ss : list (stitch C)) (s : stitch C) : list (stitch C) :=
  if (scmd s =? END)%Z then ss else ss ++ [s].
Lemma drop_end_ok (w : world) p ss s ts ex x y :
  sound w -> shows w p (ss ++ [s]) ts ex x y ->
  exists w', drop_end w p = Ok w' /\ step p w w' /\ shows w' p (without_end ss s) ts ex x y.
Proof.
  intros Hs Hsh. destruct (shows_pat _ _ _ _ _ _ _ Hsh) as (ls & Hp & Hc & Hl).
  unfold drop_end. rewrite Hp. cbn [bindr hp_stitches hp_threads hp_extras hp_x hp_y].
  pose proof Hc as Hc0. apply contents_seen in Hc. rewrite map_app in Hc. cbn [map] in Hc.
  destruct (rev ls) as [|l rl] eqn:El.
  { assert (ls = []) as -> by (rewrite <- (rev_involutive ls), El; reflexivity).
    cbn in Hc. destruct (map Some ss); discriminate. }
  assert (Els : ls = rev rl ++ [l]) by (rewrite <- (rev_involutive ls), El; reflexivity).
  rewrite Els, map_app in Hc. cbn [map] in Hc. apply app_inj_tail in Hc. destruct Hc as [Hc Hlast].
  unfold cell_of. rewrite Hlast. cbn [bindr]. unfold without_end.
  destruct (Z.eqb_spec (scmd s) END) as [E|E].
  - eexists. split; [reflexivity|]. rewrite Els, removelast_last. split.
    + eapply set_pat_step; [exact Hs|exact Hp|]. cbn. intros l0 H0. rewrite Els. apply in_or_app. left. exact H0.
    + apply (shows_set w p (mkHP (rev rl) ts ex x y)); [exact Hl|]. cbn. apply contents_seen. exact Hc.
  - eexists. split; [reflexivity|]. split; [apply step_refl; exact Hs|exact Hsh].
Qed.

(** The transformation commands that the arguments of add_pattern add. *)
Definition placed_move (dx dy : option C) : list (stitch C) :=
  match dx, dy with
  | None, None => []
  | _, _ => [mkS (or_zero zero dx) (or_zero zero dy) MATRIX_TRANSLATE]
  end.
Definition placed_scale (sx sy : option C) : list (stitch C) :=
  match sx with
  | None => []
  | Some v => [mkS v (match sy with Some u => u | None => v end) MATRIX_SCALE]
  end.
Definition placed_turn (rotate : option C) : list (stitch C) :=
  match rotate with None => [] | Some r => [mkS r zero MATRIX_ROTATE] end.
Definition placement (dx dy sx sy rotate : option C) : list (stitch C) :=
  placed_move dx dy ++ placed_scale sx sy ++ placed_turn rotate.
Lemma add_placement_ok (w : world) p ss ts ex x y dx dy sx sy rotate :
  sound w -> shows w p ss ts ex x y ->
  exists w', add_placement zero w p dx dy sx sy rotate = Ok w' /\ step p w w' /\
    shows w' p (ss ++ placement dx dy sx sy rotate) ts ex x y.
Proof.
  intros Hs Hsh. unfold add_placement, placement.
  assert (K1 : exists w', match dx, dy with
          | None, None => Ok w
          | _, _ => add_command w p MATRIX_TRANSLATE (or_zero zero dx) (or_zero zero dy)
          end = Ok w' /\ step p w w' /\ shows w' p (ss ++ placed_move dx dy) ts ex x y).
  { destruct dx, dy; try (apply add_command_ok; assumption).
    exists w. cbn [placed_move]. rewrite app_nil_r. split; [reflexivity|split; [apply step_refl; exact Hs|exact Hsh]]. }
  destruct K1 as (w1 & E1 & S1 & V1). rewrite E1. cbn [bindr].
  assert (K2 : exists w', match sx with
          | None => Ok w1
          | Some v => add_command w1 p MATRIX_SCALE v (match sy with Some u => u | None => v end)
          end = Ok w' /\ step p w1 w' /\ shows w' p ((ss ++ placed_move dx dy) ++ placed_scale sx sy) ts ex x y).
  { destruct sx; [apply add_command_ok; [apply S1|exact V1]|].
    exists w1. cbn [placed_scale]. rewrite app_nil_r. split; [reflexivity|split; [apply step_refl; apply S1|exact V1]]. }
  destruct K2 as (w2 & E2 & S2 & V2). rewrite E2. cbn [bindr].
  pose proof (step_trans _ _ _ _ S1 S2) as S12.
  destruct rotate as [r|].
  - destruct (add_command_ok w2 p _ _ _ _ _ MATRIX_ROTATE r zero (proj1 S2) V2) as (w3 & E3 & S3 & V3).
    exists w3. split; [exact E3|]. split; [eapply step_trans; eassumption|].
    rewrite <- !app_assoc in V3. exact V3.
  - exists w2. split; [reflexivity|]. split; [exact S12|]. cbn [placed_turn]. rewrite app_nil_r, app_assoc. exact V2.
Qed.

Lemma fix_color_count_ok (w : world) p ss ts ex x y :
  sound w -> shows w p ss ts ex x y ->
  exists w', fix_color_count filler w p = Ok w' /\ step p w w' /\
    shows w' p ss (PatternModel.fix_color_count filler ss ts) ex x y.
Proof.
  intros Hs Hsh. destruct (shows_pat _ _ _ _ _ _ _ Hsh) as (ls & Hp & Hc & Hl).
  unfold fix_color_count. rewrite Hp. cbn [bindr hp_stitches hp_threads hp_extras hp_x hp_y]. rewrite Hc.
  cbn [bindr]. eexists. split; [reflexivity|]. split.
  - eapply set_pat_step; [exact Hs|exact Hp|]. auto.
  - apply (shows_set w p (mkHP ls (PatternModel.fix_color_count filler ss ts) ex x y)); assumption.
Qed.

Lemma step_shows_other (w w' : world) p q ss ts ex x y :
  sound w -> step p w w' -> q <> p -> shows w q ss ts ex x y -> shows w' q ss ts ex x y.
Proof.
  intros Hs (_ & Hg & Ho & _) Hq Hsh. unfold shows in *.
  rewrite (seen_frame w w' p q); [exact Hsh|exact Hs|exact Hg|exact Ho|exact Hq|].
  destruct (shows_pat _ _ _ _ _ _ _ Hsh) as (ls & Hp & Hc & Hl). exact Hl.
Qed.

(** What joining the thread lists adds to the stitches and to the threads. *)
Lemma join_threads_ok (w : world) p q ss ts ex x y ssb tsb exb xb yb t u :
  sound w -> shows w p ss (ts ++ [u]) ex x y -> shows w q ssb (t :: tsb) exb xb yb ->
  exists w', join_threads zero plus teq w p q = Ok w' /\ step p w w' /\
    if teq t u then shows w' p ss ((ts ++ [u]) ++ tsb) ex x y
    else shows w' p (ss ++ [mkS (plus x zero) (plus y zero) COLOR_CHANGE]) ((ts ++ [u]) ++ t :: tsb) ex
           (plus x zero) (plus y zero).
Proof.
  intros Hs Hsh Hshb. destruct (shows_pat _ _ _ _ _ _ _ Hsh) as (ls & Hp & Hc & Hl).
  destruct (shows_pat _ _ _ _ _ _ _ Hshb) as (lsb & Hpb & Hcb & Hlb).
  unfold join_threads. rewrite Hpb, Hp. cbn [bindr hp_stitches hp_threads hp_extras hp_x hp_y].
  rewrite rev_app_distr. cbn [rev app]. destruct (teq t u).
  - eexists. split; [reflexivity|]. split.
    + eapply set_pat_step; [exact Hs|exact Hp|]. auto.
    + apply (shows_set w p (mkHP ls ((ts ++ [u]) ++ tsb) ex x y)); assumption.
  - set (w1 := set_pat w p _).
    assert (S1 : step p w w1) by (eapply set_pat_step; [exact Hs|exact Hp|auto]).
    assert (V1 : shows w1 p ss ((ts ++ [u]) ++ t :: tsb) ex x y)
      by (apply (shows_set w p (mkHP ls ((ts ++ [u]) ++ t :: tsb) ex x y)); assumption).
    assert (G1 : pat_of w1 p = Ok (mkHP ls ((ts ++ [u]) ++ t :: tsb) ex x y)) by (apply set_pat_get; exact Hl).
    unfold add_stitch_relative. rewrite G1. cbn [bindr hp_x hp_y].
    unfold add_stitch_absolute.
    destruct (add_command_ok w1 p _ _ _ _ _ COLOR_CHANGE (plus x zero) (plus y zero) (proj1 S1) V1)
      as (w2 & E2 & S2 & V2).
    rewrite E2. cbn [bindr].
    destruct (shows_pat _ _ _ _ _ _ _ V2) as (ls2 & Hp2 & Hc2 & Hl2).
    rewrite Hp2. cbn [bindr hp_stitches hp_threads hp_extras].
    eexists. split; [reflexivity|]. split.
    + eapply step_trans; [exact S1|]. eapply step_trans; [exact S2|].
      eapply set_pat_step; [apply S2|exact Hp2|auto].
    + apply (shows_set w2 p (mkHP ls2 ((ts ++ [u]) ++ t :: tsb) ex (plus x zero) (plus y zero))); assumption.
Qed.

(** ** Suppressing the leading thread changes *)
Lemma suppress_reach ls : forall (w w' : world), suppress w ls = Ok w' ->
  w_pats w' = w_pats w /\ length (w_cells w') = length (w_cells w) /\
  forall l, ~ In l ls -> nth_error (w_cells w') l = nth_error (w_cells w) l.
Proof.
  induction ls as [|k r IH]; intros w w' H; cbn [suppress] in H.
  - injection H as <-. auto.
  - destruct (cell_of w k) as [s|] eqn:E; [|discriminate]. cbn [bindr] in H.
    destruct (sews (scmd s)); [injection H as <-; auto|].
    destruct (changes (scmd s)).
    + destruct (IH _ _ H) as (A & B & D). cbn in A, B. rewrite put_length in B.
      split; [assumption|split; [assumption|]].
      intros l Hl. rewrite D by (intros Hin; apply Hl; right; exact Hin). cbn.
      apply nth_put_other. intros ->. apply Hl. left. reflexivity.
    + destruct (IH _ _ H) as (A & B & D). split; [assumption|split; [assumption|]].
      intros l Hl. apply D. intros Hin. apply Hl. right. exact Hin.
Qed.
Fixpoint suppressed (ss : list (stitch C)) : list (stitch C) :=
  match ss with
  | [] => []
  | s :: r =>
      if sews (scmd s) then s :: r
      else if changes (scmd s) then mkS (sx s) (sy s) NO_COMMAND :: suppressed r
      else s :: suppressed r
  end.
Lemma contents_cell_out (w : world) l s ls : ~ In l ls -> contents (set_cell w l s) ls = contents w ls.
Proof.
  induction ls as [|k r IH]; intros H; [reflexivity|]. cbn [contents].
  unfold cell_of. cbn. rewrite nth_put_other by (intros ->; apply H; left; reflexivity).
  rewrite IH by (intros Hin; apply H; right; exact Hin). reflexivity.
Qed.
Lemma contents_ext (w w' : world) ls :
  (forall l, In l ls -> nth_error (w_cells w') l = nth_error (w_cells w) l) ->
  contents w' ls = contents w ls.
Proof.
  induction ls as [|k r IH]; intros H; [reflexivity|]. cbn [contents]. unfold cell_of.
  rewrite H by (left; reflexivity). rewrite IH by (intros l Hl; apply H; right; exact Hl). reflexivity.
Qed.
Lemma suppress_ok ls : forall (w : world) ss, NoDup ls -> contents w ls = Ok ss ->
  exists w', suppress w ls = Ok w' /\ contents w' ls = Ok (suppressed ss).
Proof.
  induction ls as [|k r IH]; intros w ss Hn Hc; cbn [contents suppress] in *.
  - injection Hc as <-. exists w. auto.
  - inversion Hn as [|? ? Hk Hn']; subst.
    destruct (cell_of w k) as [s|] eqn:E; [|discriminate]. cbn [bindr] in *.
    destruct (contents w r) as [rs|] eqn:Er; [|discriminate]. cbn [bindr] in Hc. injection Hc as <-.
    cbn [suppressed]. destruct (sews (scmd s)).
    + exists w. split; [reflexivity|]. rewrite E. cbn [bindr]. rewrite Er. reflexivity.
    + destruct (changes (scmd s)).
      * set (s' := mkS _ _ _). 
        destruct (IH (set_cell w k s') rs Hn') as (w' & A & B).
        { rewrite contents_cell_out by exact Hk. exact Er. }
        exists w'. split; [exact A|]. rewrite B.
        destruct (suppress_reach _ _ _ A) as (_ & _ & D).
        unfold cell_of. rewrite D by exact Hk. cbn. apply cell_of_ok in E.
        rewrite nth_put_same by (eapply nth_lt; exact E). reflexivity.
      * destruct (IH w rs Hn' Er) as (w' & A & B).
        exists w'. split; [exact A|]. rewrite B.
        destruct (suppress_reach _ _ _ A) as (_ & _ & D).
        unfold cell_of. rewrite D by exact Hk. apply cell_of_ok in E. rewrite E. reflexivity.
Qed.
Lemma suppress_none ls : forall (w : world) ss, contents w ls = Ok ss -> ~ leading_change ss ->
  suppress w ls = Ok w.
Proof.
  induction ls as [|k r IH]; intros w ss Hc Hn; cbn [contents suppress] in *; [reflexivity|].
  destruct (cell_of w k) as [s|] eqn:E; [|discriminate]. cbn [bindr] in *.
  destruct (contents w r) as [rs|] eqn:Er; [|discriminate]. cbn [bindr] in Hc. injection Hc as <-.
  destruct (sews (scmd s)) eqn:Es; [reflexivity|].
  destruct (changes (scmd s)) eqn:Ec.
  - exfalso. apply Hn. exists [], s, rs. split; [reflexivity|]. split; [apply changes_spec, Ec|constructor].
  - apply (IH _ rs Er). intros (a & c & b & -> & Hch & Ha). apply Hn.
    exists (s :: a), c, b. split; [reflexivity|]. split; [exact Hch|].
    constructor; [|exact Ha]. intros H. apply sews_spec in H. congruence.
Qed.

(** The steps before the stitch lists are joined. *)
Definition joining (w : world) (p q : nat) (dx dy sx sy rotate : option C) : res world :=
  do w <- drop_end w p;
  do w <- add_placement zero w p dx dy sx sy rotate;
  do w <- fix_color_count filler w p;
  join_threads zero plus teq w p q.
Definition join_stitches (w : world) (p q : nat) : res world :=
  do a <- pat_of w p;
  do b <- pat_of w q;
  let w := set_pat w p (mkHP (hp_stitches a ++ hp_stitches b) (hp_threads a) (hp_extras a) (hp_x a) (hp_y a)) in
  do w <- suppress w (hp_stitches b);
  do a <- pat_of w p;
  do b <- pat_of w q;
  Ok (set_pat w p (mkHP (hp_stitches a) (hp_threads a) (dict_update (hp_extras a) (hp_extras b))
                     (hp_x a) (hp_y a))).
Lemma add_pattern_split w p q dx dy sx sy rotate :
  add_pattern zero plus filler teq w p q dx dy sx sy rotate
  = do w <- joining w p q dx dy sx sy rotate; join_stitches w p q.
Proof.
  unfold add_pattern, joining. destruct (drop_end w p) as [w1|]; [|reflexivity]. cbn [bindr].
  destruct (add_placement zero w1 p dx dy sx sy rotate) as [w2|]; [|reflexivity]. cbn [bindr].
  destruct (fix_color_count filler w2 p) as [w3|]; [|reflexivity]. cbn [bindr].
  destruct (join_threads zero plus teq w3 p q) as [w4|]; reflexivity.
Qed.
Lemma joining_step (w w' : world) p q dx dy sx sy rotate :
  sound w -> p < length (w_pats w) -> p <> q -> joining w p q dx dy sx sy rotate = Ok w' -> step p w w'.
Proof.
  intros Hs Hp Hpq H. unfold joining in H.
  destruct (sound_shows _ _ Hs Hp) as (ss & ts & ex & x & y & V).
  destruct ss as [|s0 ss0] using rev_ind; [rewrite (drop_end_empty _ _ _ _ _ _ V) in H; discriminate|]. clear IHss0.
  destruct (drop_end_ok _ _ _ _ _ _ _ _ Hs V) as (w1 & E1 & S1 & V1). rewrite E1 in H. cbn [bindr] in H.
  destruct (add_placement_ok w1 _ _ _ _ _ _ dx dy sx sy rotate (proj1 S1) V1) as (w2 & E2 & S2 & V2).
  rewrite E2 in H. cbn [bindr] in H.
  destruct (fix_color_count_ok w2 _ _ _ _ _ _ (proj1 S2) V2) as (w3 & E3 & S3 & V3). rewrite E3 in H. cbn [bindr] in H.
  pose proof (step_trans _ _ _ _ S1 (step_trans _ _ _ _ S2 S3)) as S.
  set (ta := PatternModel.fix_color_count _ _ _) in V3.
  destruct (shows_pat _ _ _ _ _ _ _ V3) as (ls3 & Hp3 & _ & Hl3).
  destruct (pat_of w3 q) as [hb|] eqn:Eb; [|unfold join_threads in H; rewrite Eb in H; discriminate].
  destruct (sound_contents _ _ (sound_pat _ _ _ (proj1 S) Eb)) as [sb Hsb].
  pose proof (pat_shows _ _ _ _ Eb Hsb) as Vb.
  destruct (hp_threads hb) as [|t tb] eqn:Et.
  { unfold join_threads in H. rewrite Eb in H. cbn [bindr] in H. rewrite Et in H. injection H as <-. exact S. }
  destruct ta as [|u ta0] using rev_ind.
  { unfold join_threads in H. rewrite Eb in H. cbn [bindr] in H. rewrite Et in H.
    rewrite Hp3 in H. discriminate. }
  clear IHta0.
  destruct (join_threads_ok w3 _ q _ _ _ _ _ _ _ _ _ _ _ _ (proj1 S) V3 Vb) as (w4 & E4 & S4 & _).
  rewrite E4 in H. injection H as <-. eapply step_trans; eassumption.
Qed.

(** Adding a pattern without leading thread changes touches no object. *)
Lemma join_stitches_frame (w w' : world) p q sb tb eb xb yb :
  sound w -> p <> q -> shows w q sb tb eb xb yb -> ~ leading_change sb ->
  join_stitches w p q = Ok w' -> sound w' /\ grows w w' /\ others p w w'.
Proof.
  intros Hs Hpq Vb Hn H. unfold join_stitches in H.
  destruct (shows_pat _ _ _ _ _ _ _ Vb) as (lsb & Hb & Hcb & Hlb).
  destruct (pat_of w p) as [a|] eqn:Ha; [|discriminate]. cbn [bindr] in H. rewrite Hb in H.
  cbn [bindr hp_stitches] in H. set (k := mkHP _ _ _ _ _) in H.
  assert (Hl : p < length (w_pats w)) by (apply pat_of_ok in Ha; eapply nth_lt; exact Ha).
  rewrite (suppress_none lsb (set_pat w p k) sb) in H;
    [|rewrite (contents_pats w) by reflexivity; exact Hcb|exact Hn].
  cbn [bindr] in H. rewrite set_pat_get in H by exact Hl.
  cbn [bindr] in H. rewrite set_pat_get_other, Hb in H by congruence. cbn [bindr] in H. injection H as <-.
  assert (Hk : Forall (fun l => l < length (w_cells w)) (hp_stitches k)).
  { cbn. apply Forall_app. split; [apply (sound_pat _ _ _ Hs Ha)|apply (sound_pat _ _ _ Hs Hb)]. }
  split; [|split].
  - apply set_pat_sound; [apply set_pat_sound; [exact Hs|exact Hk]|exact Hk].
  - eapply grows_trans; apply set_pat_grows.
  - eapply others_trans; apply set_pat_others.
Qed.
Lemma add_pattern_frame (w w' : world) p q sb tb eb xb yb dx dy sx sy rotate :
  sound w -> p < length (w_pats w) -> p <> q -> shows w q sb tb eb xb yb -> ~ leading_change sb ->
  add_pattern zero plus filler teq w p q dx dy sx sy rotate = Ok w' ->
  sound w' /\ grows w w' /\ others p w w'.
Proof.
  intros Hs Hp Hpq Vb Hn H. rewrite add_pattern_split in H.
  destruct (joining w p q dx dy sx sy rotate) as [w1|] eqn:E1; [|discriminate]. cbn [bindr] in H.
  pose proof (joining_step _ _ _ _ _ _ _ _ _ Hs Hp Hpq E1) as S1.
  pose proof (step_shows_other _ _ _ q _ _ _ _ _ Hs S1 (fun h => Hpq (eq_sym h)) Vb) as Vb1.
  destruct (join_stitches_frame _ _ _ _ _ _ _ _ _ (proj1 S1) Hpq Vb1 Hn H) as (A & B & D).
  destruct S1 as (_ & G1 & O1 & _).
  split; [exact A|split; [eapply grows_trans; eassumption|eapply others_trans; eassumption]].
Qed.

(** What the joined pattern is. *)
Lemma join_stitches_ok (w : world) p q sa ta ea xa ya sb tb eb xb yb :
  sound w -> apart w p q -> NoDup (objects w q) ->
  shows w p sa ta ea xa ya -> shows w q sb tb eb xb yb ->
  exists w', join_stitches w p q = Ok w' /\
    shows w' p (sa ++ suppressed sb) ta (dict_update ea eb) xa ya /\
    shows w' q (suppressed sb) tb eb xb yb.
Proof.
  intros Hs [Hpq Hap] Hnd Va Vb. unfold join_stitches.
  destruct (shows_pat _ _ _ _ _ _ _ Va) as (lsa & Ha & Hca & Hla).
  destruct (shows_pat _ _ _ _ _ _ _ Vb) as (lsb & Hb & Hcb & Hlb).
  rewrite (objects_pat _ _ _ Ha), (objects_pat _ _ _ Hb) in *. cbn in *.
  rewrite Ha, Hb. cbn [bindr hp_stitches hp_threads hp_extras hp_x hp_y]. set (k := mkHP _ _ _ _ _).
  set (w1 := set_pat w p k).
  destruct (suppress_ok lsb w1 sb Hnd) as (w2 & E2 & C2).
  { rewrite (contents_pats w) by reflexivity. exact Hcb. }
  rewrite E2. cbn [bindr]. destruct (suppress_reach _ _ _ E2) as (P2 & L2 & D2).
  assert (Ha2 : pat_of w2 p = Ok k).
  { apply pat_of_ok. rewrite P2. apply nth_put_same. exact Hla. }
  assert (Hb2 : pat_of w2 q = Ok (mkHP lsb tb eb xb yb)).
  { apply pat_of_ok. rewrite P2. cbn. rewrite nth_put_other by congruence. apply pat_of_ok. exact Hb. }
  rewrite Ha2. cbn [bindr]. rewrite Hb2. cbn [bindr hp_stitches hp_threads hp_extras hp_x hp_y].
  eexists. split; [reflexivity|].
  assert (Hca2 : contents w2 lsa = Ok sa).
  { rewrite (contents_ext w1). { rewrite (contents_pats w) by reflexivity. exact Hca. }
    intros l Hl. apply D2. intros Hin. exact (Hap _ Hl Hin). }
  split.
  - apply (shows_set w2 p (mkHP (lsa ++ lsb) ta (dict_update ea eb) xa ya)).
    + rewrite P2. cbn. rewrite put_length. exact Hla.
    + cbn. apply contents_app; assumption.
  - apply (pat_shows _ _ (mkHP lsb tb eb xb yb)).
    + rewrite set_pat_get_other by congruence. exact Hb2.
    + rewrite (contents_pats w2) by reflexivity. exact C2.
Qed.
Lemma step_apart (w w' : world) p q : sound w -> step p w w' -> q < length (w_pats w) -> apart w p q -> apart w' p q.
Proof.
  intros Hs (S1 & G & O & N) Hq [Hpq Ha]. split; [exact Hpq|].
  intros l Hl. rewrite (objects_ext w w' q) by (apply O; [congruence|exact Hq]).
  destruct (N _ Hl) as [H|H]; [apply Ha, H|]. intros Hin.
  pose proof (sound_objects _ _ _ Hs Hin). lia.
Qed.
Lemma add_pattern_ok (w : world) p q sa s ta ea xa ya sb t tsb eb xb yb ts u dx dy sx sy rotate :
  sound w -> apart w p q -> NoDup (objects w q) ->
  shows w p (sa ++ [s]) ta ea xa ya -> shows w q sb (t :: tsb) eb xb yb ->
  let sa' := without_end sa s ++ placement dx dy sx sy rotate in
  PatternModel.fix_color_count filler sa' ta = ts ++ [u] ->
  exists w', add_pattern zero plus filler teq w p q dx dy sx sy rotate = Ok w' /\
    shows w' q (suppressed sb) (t :: tsb) eb xb yb /\
    if teq t u then shows w' p (sa' ++ suppressed sb) ((ts ++ [u]) ++ tsb) (dict_update ea eb) xa ya
    else shows w' p ((sa' ++ [mkS (plus xa zero) (plus ya zero) COLOR_CHANGE]) ++ suppressed sb)
           ((ts ++ [u]) ++ t :: tsb) (dict_update ea eb) (plus xa zero) (plus ya zero).
Proof.
  intros Hs Hap Hnd Va Vb sa' Hfix. rewrite add_pattern_split. unfold joining.
  destruct (drop_end_ok _ _ _ _ _ _ _ _ Hs Va) as (w1 & E1 & S1 & V1). rewrite E1. cbn [bindr].
  destruct (add_placement_ok w1 _ _ _ _ _ _ dx dy sx sy rotate (proj1 S1) V1) as (w2 & E2 & S2 & V2).
  rewrite E2. cbn [bindr].
  destruct (fix_color_count_ok w2 _ _ _ _ _ _ (proj1 S2) V2) as (w3 & E3 & S3 & V3). rewrite E3. cbn [bindr].
  fold sa' in V3. rewrite Hfix in V3.
  pose proof (step_trans _ _ _ _ S1 (step_trans _ _ _ _ S2 S3)) as S.
  assert (Hqp : q <> p) by (destruct Hap; congruence).
  assert (Hq : q < length (w_pats w)) by (destruct (shows_pat _ _ _ _ _ _ _ Vb) as (? & _ & _ & ?); assumption).
  pose proof (step_shows_other _ _ _ q _ _ _ _ _ Hs S Hqp Vb) as Vb3.
  destruct (join_threads_ok w3 _ q _ _ _ _ _ _ _ _ _ _ _ _ (proj1 S) V3 Vb3) as (w4 & E4 & S4 & V4).
  rewrite E4. cbn [bindr].
  pose proof (step_trans _ _ _ _ S S4) as SS.
  pose proof (step_shows_other _ _ _ q _ _ _ _ _ Hs SS Hqp Vb) as Vb4.
  pose proof (step_apart _ _ _ _ Hs SS Hq Hap) as Ap4.
  assert (Nd4 : NoDup (objects w4 q)).
  { rewrite (objects_ext w w4 q); [exact Hnd|]. apply SS; assumption. }
  destruct (teq t u).
  - destruct (join_stitches_ok _ _ _ _ _ _ _ _ _ _ _ _ _ (proj1 SS) Ap4 Nd4 V4 Vb4) as (w5 & E5 & A5 & B5).
    exists w5. auto.
  - destruct (join_stitches_ok _ _ _ _ _ _ _ _ _ _ _ _ _ (proj1 SS) Ap4 Nd4 V4 Vb4) as (w5 & E5 & A5 & B5).
    exists w5. auto.
Qed.
End Join.
