(** What is loaded from a JEF file and saved again. *)
From Coq Require Import ZArith QArith Qabs List Bool Lia.
From Verif Require Import PyBase EmbConst StreamModel StreamSpec StreamProofs BitLemmas QuantModel ResaveSpec JefAgainSpec JefAgainProofs.
Import ListNotations.
Open Scope Z_scope.

Section Settle.
Variable dist : option Q.
Notation passed := (passed dist).
Notation far := (far dist).
Notation walk := (representable 127 [STITCH; JUMP] [TRIM; COLOR_CHANGE; STOP; END]).
Definition three (a : stitch Z) : Prop := In (scmd a) [STITCH; JUMP; COLOR_CHANGE].
Definition four (a : stitch Z) : Prop := In (scmd a) [STITCH; JUMP; TRIM; COLOR_CHANGE].

(** The run so far. *)
Definition far_from (x0 y0 : Z) (a : stitch Z) : bool := far (sx a - x0) (sy a - y0).
Definition good_run (tr : bool) (r : run) (px py : Z) : Prop :=
  match r with
  | None => True
  | Some (x0, y0, m, J) => Forall (fun a => scmd a = JUMP /\ ~ (sx a = x0 /\ sy a = y0)) J /\ (tr = true -> m = false) /\
      walk x0 y0 J /\ needle_after x0 y0 J = (px, py) /\ (negb tr && existsb (far_from x0 y0) J = true -> m = true)
  end.

Lemma walk_snoc : forall J px py s, walk px py J -> (let '(x, y) := needle_after px py J in step_within 127 x y (sx s) (sy s)) -> scmd s = JUMP ->
  walk px py (J ++ [s]) /\ needle_after px py (J ++ [s]) = (sx s, sy s).
Proof.
  induction J as [|a J IH]; intros px py s H Hs Hc.
  - cbn [app representable needle_after] in *. split; [|reflexivity]. split; [|exact I]. left. rewrite Hc. split; [cbn; auto|exact Hs].
  - cbn [app representable needle_after] in *. destruct H as [H1 H2]. destruct (IH _ _ s H2 Hs Hc) as [A B]. split; [split; assumption|exact B].
Qed.
Lemma run_step : forall tr r px py s x0 y0 m J, good_run tr r px py -> scmd s = JUMP -> step_within 127 px py (sx s) (sy s) ->
  match r with Some v => v | None => (px, py, false, []) end = (x0, y0, m, J) ->
  began r px py = (x0, y0) /\
  good_run tr (Some (x0, y0, m || negb tr && far (sx s - x0) (sy s - y0), if (sx s =? x0) && (sy s =? y0) then [] else J ++ [s])) (sx s) (sy s).
Proof.
  intros tr r px py s x0 y0 m J H Hs W E.
  assert (G : good_run tr (Some (x0, y0, m, J)) px py /\ began r px py = (x0, y0)).
  { destruct r as [[[[a b] c] d]|]; inversion E; subst; [split; [exact H|reflexivity]|].
    split; [|reflexivity]. cbn. split; [constructor|]. split; [reflexivity|]. split; [exact I|]. split; [reflexivity|]. rewrite andb_false_r. discriminate. }
  destruct G as [(G1 & G2 & G3 & G4 & G5) G6]. split; [exact G6|].
  assert (M : tr = true -> m || negb tr && far (sx s - x0) (sy s - y0) = false) by (intros T; rewrite (G2 T), T; reflexivity).
  destruct ((sx s =? x0) && (sy s =? y0)) eqn:Eb.
  - apply andb_true_iff in Eb. destruct Eb as [Ex Ey]. apply Z.eqb_eq in Ex, Ey. rewrite Ex, Ey in *.
    split; [constructor|]. split; [exact M|]. split; [exact I|]. split; [reflexivity|]. cbn [existsb]. rewrite andb_false_r. discriminate.
  - destruct (walk_snoc J x0 y0 s G3) as [A B]; [rewrite G4; exact W|exact Hs|].
    split; [|split; [exact M|]; split; [exact A|]; split; [exact B|]].
    + apply Forall_app. split; [exact G1|]. constructor; [|constructor]. split; [exact Hs|]. intros [X Y]. rewrite X, Y, !Z.eqb_refl in Eb. discriminate.
    + rewrite existsb_app, andb_orb_distrib_r. cbn [existsb]. rewrite orb_false_r. intros X. apply orb_true_iff in X. destruct X as [X|X].
      * rewrite (G5 X). reflexivity.
      * unfold far_from in X. rewrite X. apply orb_true_r.
Qed.
Lemma none_good : forall tr px py, good_run tr None px py.
Proof. exact (fun _ _ _ => I). Qed.

Lemma not_jump : forall s, three s -> scmd s <> JUMP -> (cmd_of (scmd s) =? JUMP) = false /\ (scmd s = STITCH \/ scmd s = COLOR_CHANGE).
Proof. intros s H Hn. unfold three in H. cbn [In] in H. destruct H as [H|[H|[H|[]]]]; rewrite <- H in *; [|contradiction|]; split; auto. Qed.
(** Splitting off the first command. *)
Lemma passed_jump : forall tr r px py s l x0 y0 m J, scmd s = JUMP ->
  match r with Some v => v | None => (px, py, false, []) end = (x0, y0, m, J) ->
  passed tr r px py (s :: l) = passed tr (Some (x0, y0, m || negb tr && far (sx s - x0) (sy s - y0), if (sx s =? x0) && (sy s =? y0) then [] else J ++ [s])) (sx s) (sy s) l.
Proof. intros tr r px py s l x0 y0 m J Hs E. cbn [JefAgainProofs.passed]. rewrite Hs, E. reflexivity. Qed.
Lemma passed_other : forall tr r px py s l, three s -> scmd s <> JUMP ->
  passed tr r px py (s :: l) = held r ++ s :: passed (cut_by tr (scmd s)) None (sx s) (sy s) l.
Proof. intros tr r px py s l H Hn. destruct (not_jump s H Hn) as [E _]. cbn [JefAgainProofs.passed]. rewrite E. reflexivity. Qed.
Lemma walk_next : forall px py s l, walk px py (s :: l) -> three s ->
  step_within 127 px py (sx s) (sy s) /\ walk (sx s) (sy s) l /\ (scmd s = COLOR_CHANGE -> sx s = px /\ sy s = py).
Proof.
  intros px py s l [H1 H2] Hs. unfold three in Hs. cbn [In] in Hs. split; [|split; [exact H2|]].
  - destruct H1 as [[_ H1]|[_ [X Y]]]; [exact H1|]. unfold step_within. lia.
  - intros E. rewrite E in H1. destruct H1 as [[H1 _]|[_ H1]]; [cbn in H1; intuition discriminate|exact H1].
Qed.

(** An induction over the commands and the run. *)
Lemma passed_ind (P : bool -> run -> Z -> Z -> list (stitch Z) -> Prop) :
  (forall tr r px py, good_run tr r px py -> P tr r px py []) ->
  (forall tr r px py s l x0 y0 m J, good_run tr r px py -> scmd s = JUMP -> began r px py = (x0, y0) ->
     match r with Some v => v | None => (px, py, false, []) end = (x0, y0, m, J) ->
     good_run tr (Some (x0, y0, m || negb tr && far (sx s - x0) (sy s - y0), if (sx s =? x0) && (sy s =? y0) then [] else J ++ [s])) (sx s) (sy s) ->
     P tr (Some (x0, y0, m || negb tr && far (sx s - x0) (sy s - y0), if (sx s =? x0) && (sy s =? y0) then [] else J ++ [s])) (sx s) (sy s) l ->
     P tr r px py (s :: l)) ->
  (forall tr r px py s l, good_run tr r px py -> three s -> scmd s <> JUMP -> (scmd s = STITCH \/ scmd s = COLOR_CHANGE) ->
     step_within 127 px py (sx s) (sy s) -> (scmd s = COLOR_CHANGE -> sx s = px /\ sy s = py) -> Forall three l -> walk (sx s) (sy s) l ->
     P (cut_by tr (scmd s)) None (sx s) (sy s) l -> P tr r px py (s :: l)) ->
  forall l tr r px py, good_run tr r px py -> Forall three l -> walk px py l -> P tr r px py l.
Proof.
  intros P0 P1 P2. induction l as [|s l IH]; intros tr r px py G Hl W; [apply P0; exact G|].
  apply Forall_cons_iff in Hl. destruct Hl as [Hs Hl]. destruct (walk_next _ _ _ _ W Hs) as (W1 & W2 & W3).
  destruct (Z.eq_dec (scmd s) JUMP) as [Hj|Hj].
  - destruct (match r with Some v => v | None => (px, py, false, []) end) as [[[x0 y0] m] J] eqn:E.
    destruct (run_step tr r px py s x0 y0 m J G Hj W1 E) as [B G']. eapply P1; try eassumption. apply IH; assumption.
  - destruct (not_jump s Hs Hj) as [_ Hk]. apply P2; try assumption. apply IH; try assumption. exact I.
Qed.

(** ** The held part *)
Lemma held_app : forall tr r px py x0 y0, good_run tr r px py -> began r px py = (x0, y0) ->
  exists m J, match r with Some v => v | None => (px, py, false, []) end = (x0, y0, m, J) /\ held r = mark_of m x0 y0 ++ J /\ good_run tr (Some (x0, y0, m, J)) px py.
Proof.
  intros tr r px py x0 y0 G B. destruct r as [[[[a b] m] J]|]; cbn [began] in B; injection B as <- <-.
  - exists m, J. split; [reflexivity|]. split; [reflexivity|exact G].
  - exists false, []. split; [reflexivity|]. split; [reflexivity|]. cbn. split; [constructor|]. split; [reflexivity|]. split; [exact I|]. split; [reflexivity|]. rewrite andb_false_r. discriminate.
Qed.
Lemma lands_jumps : forall J cut px py rest, Forall (fun a => scmd a = JUMP) J ->
  (lands eq cut px py (J ++ rest) <-> lands eq cut (fst (needle_after px py J)) (snd (needle_after px py J)) rest).
Proof.
  induction J as [|a J IH]; intros cut px py rest H; [reflexivity|]. apply Forall_cons_iff in H. destruct H as [Ha H].
  cbn [app lands needle_after]. rewrite Ha. change (cut_by cut JUMP) with cut. change (cmd_of JUMP) with JUMP. rewrite <- (IH cut (sx a) (sy a) rest H).
  split; [intros [_ X]; exact X|]. intros X. split; [discriminate|exact X].
Qed.
Lemma run_jumps : forall x0 y0 (J : list (stitch Z)), Forall (fun a => scmd a = JUMP /\ ~ (sx a = x0 /\ sy a = y0)) J -> Forall (fun a => scmd a = JUMP) J.
Proof. intros x0 y0 J H. eapply Forall_impl; [|exact H]. intros a [X _]. exact X. Qed.
Lemma lands_held : forall tr x0 y0 m J px py rest, good_run tr (Some (x0, y0, m, J)) px py ->
  (lands eq tr x0 y0 ((mark_of m x0 y0 ++ J) ++ rest) <-> lands eq (tr || m) px py rest).
Proof.
  intros tr x0 y0 m J px py rest (G1 & G2 & G3 & G4 & G5). rewrite <- app_assoc. pose proof (lands_jumps J (tr || m) x0 y0 rest (run_jumps _ _ _ G1)) as L.
  rewrite G4 in L. cbn [fst snd] in L. rewrite <- L. destruct m; cbn [mark_of app].
  - rewrite orb_true_r. cbn [lands scmd sx sy]. change (cmd_of TRIM) with TRIM. change (cut_by tr TRIM) with true.
    split; [intros [_ X]; exact X|]. intros X. split; [intros _; discriminate|exact X].
  - rewrite orb_false_r. reflexivity.
Qed.
Lemma approached_jumps : forall J cut px py rest, Forall (fun a => scmd a = JUMP) J ->
  approached cut px py (J ++ rest) = J ++ approached cut (fst (needle_after px py J)) (snd (needle_after px py J)) rest.
Proof.
  induction J as [|a J IH]; intros cut px py rest H; [reflexivity|]. apply Forall_cons_iff in H. destruct H as [Ha H].
  cbn [app approached needle_after]. rewrite Ha. change (cut_by cut JUMP) with cut. change (cmd_of JUMP =? TRIM) with false. change (cmd_of JUMP =? STITCH) with false.
  rewrite !andb_false_r. cbn [andb app]. rewrite IH by exact H. reflexivity.
Qed.
Lemma approached_held : forall tr x0 y0 m J px py rest, good_run tr (Some (x0, y0, m, J)) px py ->
  approached tr x0 y0 ((mark_of m x0 y0 ++ J) ++ rest) = (mark_of m x0 y0 ++ J) ++ approached (tr || m) px py rest.
Proof.
  intros tr x0 y0 m J px py rest (G1 & G2 & G3 & G4 & G5). rewrite <- !app_assoc.
  pose proof (approached_jumps J (tr || m) x0 y0 rest (run_jumps _ _ _ G1)) as L. rewrite G4 in L. cbn [fst snd] in L. rewrite <- L.
  destruct m; cbn [mark_of app].
  - destruct tr; [discriminate (G2 eq_refl)|]. cbn [orb approached scmd sx sy andb app]. reflexivity.
  - rewrite orb_false_r. reflexivity.
Qed.
Lemma untrimmed_app : forall (a b : list (stitch Z)), untrimmed (a ++ b) = untrimmed a ++ untrimmed b.
Proof. intros a b. apply filter_app. Qed.
Lemma untrimmed_jumps : forall J : list (stitch Z), Forall (fun a => scmd a = JUMP) J -> untrimmed J = J.
Proof. intros J H. induction H as [|a J Ha _ IH]; [reflexivity|]. cbn [untrimmed filter]. rewrite Ha. cbn. f_equal. exact IH. Qed.
Lemma untrimmed_held : forall tr x0 y0 m J px py, good_run tr (Some (x0, y0, m, J)) px py -> untrimmed (mark_of m x0 y0 ++ J) = J.
Proof.
  intros tr x0 y0 m J px py (G1 & _). rewrite untrimmed_app, (untrimmed_jumps J (run_jumps _ _ _ G1)). destruct m; reflexivity.
Qed.
Lemma untrimmed_cons : forall (s : stitch Z) l, scmd s = STITCH \/ scmd s = COLOR_CHANGE -> untrimmed (s :: l) = s :: untrimmed l.
Proof. intros s l [E|E]; cbn [untrimmed filter]; rewrite E; reflexivity. Qed.

(** ** Where the needle goes down after a long run *)
Fixpoint ok (tr : bool) (r : option (Z * Z * bool)) (px py : Z) (l : list (stitch Z)) : Prop :=
  match l with
  | [] => True
  | s :: l =>
      let '(x0, y0, m) := match r with Some v => v | None => (px, py, false) end in
      if cmd_of (scmd s) =? JUMP then ok tr (Some (x0, y0, m || negb tr && far (sx s - x0) (sy s - y0))) (sx s) (sy s) l
      else (scmd s = STITCH -> tr || m = true -> sx s = px /\ sy s = py) /\ ok (cut_by tr (scmd s)) None (sx s) (sy s) l
  end.
Lemma ok_none : forall l tr px py, ok tr None px py l = ok tr (Some (px, py, false)) px py l.
Proof. intros [|s l] tr px py; reflexivity. Qed.
Lemma ok_jumps : forall J tr x0 y0 m px py rest, Forall (fun a => scmd a = JUMP) J ->
  ok tr (Some (x0, y0, m)) px py (J ++ rest) =
  ok tr (Some (x0, y0, m || negb tr && existsb (far_from x0 y0) J)) (fst (needle_after px py J)) (snd (needle_after px py J)) rest.
Proof.
  induction J as [|a J IH]; intros tr x0 y0 m px py rest H.
  - cbn [app existsb needle_after fst snd]. rewrite andb_false_r, orb_false_r. reflexivity.
  - apply Forall_cons_iff in H. destruct H as [Ha H]. cbn [app ok needle_after existsb]. rewrite Ha. change (cmd_of JUMP =? JUMP) with true. cbv iota.
    rewrite IH by exact H. unfold far_from at 2. rewrite andb_orb_distrib_r, orb_assoc. reflexivity.
Qed.
(** Made of such runs the loaded design lands. *)
Theorem passed_lands : forall l tr r px py x0 y0, good_run tr r px py -> Forall three l -> walk px py l -> began r px py = (x0, y0) ->
  ok tr (match r with Some (a, b, m, _) => Some (a, b, m) | None => None end) px py l -> lands eq tr x0 y0 (passed tr r px py l).
Proof.
  intros l tr r px py x0 y0 G Hl W. revert x0 y0. revert l tr r px py G Hl W. refine (passed_ind _ _ _ _).
  - intros tr r px py G x0 y0 B _. destruct (held_app _ _ _ _ _ _ G B) as (m & J & Er & E & G'). cbn [JefAgainProofs.passed]. rewrite E.
    rewrite <- (app_nil_r (mark_of m x0 y0 ++ J)). apply (lands_held tr x0 y0 m J px py []); [exact G'|exact I].
  - intros tr r px py s l x0 y0 m J G Hs B E G' IH x1 y1 B1 K. rewrite (passed_jump _ _ _ _ _ _ _ _ _ _ Hs E). rewrite B in B1. injection B1 as <- <-.
    apply IH; [reflexivity|]. cbn [ok] in K. rewrite Hs in K. change (cmd_of JUMP =? JUMP) with true in K.
    destruct r as [[[[a b] c] d]|]; inversion E; subst; exact K.
  - intros tr r px py s l G Hs Hj Hk W1 W2 Hl W IH x0 y0 B K. rewrite (passed_other _ _ _ _ _ _ Hs Hj).
    destruct (held_app _ _ _ _ _ _ G B) as (m & J & Er & E & G'). rewrite E. apply (lands_held tr x0 y0 m J px py _ G').
    cbn [ok] in K. rewrite (proj1 (not_jump s Hs Hj)) in K. cbn [lands].
    assert (K1 : (scmd s = STITCH -> tr || m = true -> sx s = px /\ sy s = py) /\ ok (cut_by tr (scmd s)) None (sx s) (sy s) l).
    { destruct r as [[[[a b] c] d]|]; inversion Er; subst; exact K. }
    destruct K1 as [K1 K2]. split.
    + intros T C. destruct Hk as [Hk|Hk]; [|rewrite Hk in C; discriminate C]. apply K1; assumption.
    + assert (Ec : cut_by (tr || m) (scmd s) = cut_by tr (scmd s)) by (destruct Hk as [-> | ->]; reflexivity). rewrite Ec. apply IH; [reflexivity|exact K2].
Qed.

(** A loaded design that lands is made of such runs. *)
Theorem landing_ok : forall l tr r px py x0 y0, good_run tr r px py -> Forall three l -> walk px py l -> began r px py = (x0, y0) ->
  lands eq tr x0 y0 (passed tr r px py l) -> ok tr None x0 y0 (untrimmed (passed tr r px py l)).
Proof.
  intros l tr r px py x0 y0 G Hl W. revert x0 y0. revert l tr r px py G Hl W. refine (passed_ind _ _ _ _).
  - intros tr r px py G x0 y0 B _. destruct (held_app _ _ _ _ _ _ G B) as (m & J & Er & E & G'). cbn [JefAgainProofs.passed]. rewrite E, (untrimmed_held _ _ _ _ _ _ _ G').
    destruct G' as (G1 & _). rewrite ok_none, <- (app_nil_r J), ok_jumps by exact (run_jumps _ _ _ G1). exact I.
  - intros tr r px py s l x0 y0 m J G Hs B E G' IH x1 y1 B1. rewrite (passed_jump _ _ _ _ _ _ _ _ _ _ Hs E). rewrite B in B1. injection B1 as <- <-.
    apply IH. reflexivity.
  - intros tr r px py s l G Hs Hj Hk W1 W2 Hl W IH x0 y0 B K. rewrite (passed_other _ _ _ _ _ _ Hs Hj) in *.
    destruct (held_app _ _ _ _ _ _ G B) as (m & J & Er & E & G'). rewrite E in *. apply (lands_held tr x0 y0 m J px py _ G') in K.
    rewrite untrimmed_app, (untrimmed_held _ _ _ _ _ _ _ G'), (untrimmed_cons s _ Hk).
    destruct G' as (G1 & G2 & G3 & G4 & G5). rewrite ok_none, ok_jumps by exact (run_jumps _ _ _ G1). rewrite G4. cbn [fst snd orb].
    cbn [lands] in K. destruct K as [K1 K2]. cbn [ok]. rewrite (proj1 (not_jump s Hs Hj)). split.
    + intros C T. apply K1; [|rewrite C; reflexivity]. destruct tr; [reflexivity|]. cbn [orb] in *. apply G5. exact T.
    + apply IH; [reflexivity|]. assert (Ec : cut_by (tr || m) (scmd s) = cut_by tr (scmd s)) by (destruct Hk as [-> | ->]; reflexivity). rewrite Ec in K2. exact K2.
Qed.
(** So is any loaded design once it is saved. *)
Theorem approached_ok : forall l tr r px py x0 y0, good_run tr r px py -> Forall three l -> walk px py l -> began r px py = (x0, y0) ->
  ok tr None x0 y0 (untrimmed (approached tr x0 y0 (passed tr r px py l))).
Proof.
  intros l tr r px py x0 y0 G Hl W. revert x0 y0. revert l tr r px py G Hl W. refine (passed_ind _ _ _ _).
  - intros tr r px py G x0 y0 B. destruct (held_app _ _ _ _ _ _ G B) as (m & J & Er & E & G'). cbn [JefAgainProofs.passed]. rewrite E.
    pose proof (approached_held tr x0 y0 m J px py [] G') as A. rewrite app_nil_r in A. rewrite A. cbn [approached]. rewrite app_nil_r, (untrimmed_held _ _ _ _ _ _ _ G').
    destruct G' as (G1 & _). rewrite ok_none, <- (app_nil_r J), ok_jumps by exact (run_jumps _ _ _ G1). exact I.
  - intros tr r px py s l x0 y0 m J G Hs B E G' IH x1 y1 B1. rewrite (passed_jump _ _ _ _ _ _ _ _ _ _ Hs E). rewrite B in B1. injection B1 as <- <-.
    apply IH. reflexivity.
  - intros tr r px py s l G Hs Hj Hk W1 W2 Hl W IH x0 y0 B. rewrite (passed_other _ _ _ _ _ _ Hs Hj) in *.
    destruct (held_app _ _ _ _ _ _ G B) as (m & J & Er & E & G'). rewrite E in *. rewrite (approached_held tr x0 y0 m J px py _ G').
    rewrite untrimmed_app, (untrimmed_held _ _ _ _ _ _ _ G').
    destruct G' as (G1 & G2 & G3 & G4 & G5). rewrite ok_none, ok_jumps by exact (run_jumps _ _ _ G1). rewrite G4. cbn [fst snd orb].
    assert (Ec : cut_by (tr || m) (scmd s) = cut_by tr (scmd s)) by (destruct Hk as [-> | ->]; reflexivity).
    specialize (IH _ _ eq_refl). cbn [approached]. rewrite Ec.
    replace ((tr || m) && (cmd_of (scmd s) =? TRIM)) with false by (destruct Hk as [-> | ->]; rewrite andb_comm; reflexivity).
    set (rest := approached (cut_by tr (scmd s)) (sx s) (sy s) (passed (cut_by tr (scmd s)) None (sx s) (sy s) l)) in *.
    destruct ((tr || m) && (cmd_of (scmd s) =? STITCH) && negb ((sx s =? px) && (sy s =? py))) eqn:Eb; cbn [app].
    + change (mkS (sx s) (sy s) JUMP :: s :: rest) with ([mkS (sx s) (sy s) JUMP] ++ s :: rest). rewrite untrimmed_app, (untrimmed_cons s _ Hk).
      change (untrimmed [mkS (sx s) (sy s) JUMP]) with [mkS (sx s) (sy s) JUMP]. cbn [app ok scmd sx sy]. change (cmd_of JUMP =? JUMP) with true.
      rewrite (proj1 (not_jump s Hs Hj)). cbv iota. split; [auto|exact IH].
    + rewrite (untrimmed_cons s _ Hk). cbn [ok]. rewrite (proj1 (not_jump s Hs Hj)). split; [|exact IH].
      intros C T. rewrite C in Eb. change (cmd_of STITCH =? STITCH) with true in Eb. rewrite andb_true_r in Eb.
      assert (T' : tr || m = true) by (destruct tr; [reflexivity|]; cbn [orb] in *; apply G5; exact T). rewrite T' in Eb. cbn [andb] in Eb.
      apply negb_false_iff, andb_true_iff in Eb. destruct Eb as [X Y]. apply Z.eqb_eq in X, Y. auto.
Qed.

(** ** No jump back to the start of its run *)
Fixpoint away (r : option (Z * Z)) (px py : Z) (l : list (stitch Z)) : Prop :=
  match l with
  | [] => True
  | s :: l =>
      let '(x0, y0) := match r with Some v => v | None => (px, py) end in
      if cmd_of (scmd s) =? JUMP then ~ (sx s = x0 /\ sy s = y0) /\ away (Some (x0, y0)) (sx s) (sy s) l
      else away None (sx s) (sy s) l
  end.
Lemma away_none : forall l px py, away None px py l = away (Some (px, py)) px py l.
Proof. intros [|s l] px py; reflexivity. Qed.
Lemma away_jumps : forall J x0 y0 px py rest, Forall (fun a => scmd a = JUMP /\ ~ (sx a = x0 /\ sy a = y0)) J ->
  away (Some (x0, y0)) (fst (needle_after px py J)) (snd (needle_after px py J)) rest -> away (Some (x0, y0)) px py (J ++ rest).
Proof.
  induction J as [|a J IH]; intros x0 y0 px py rest H K; [exact K|]. apply Forall_cons_iff in H. destruct H as [[Ha Hb] H].
  cbn [app away needle_after] in *. rewrite Ha. change (cmd_of JUMP =? JUMP) with true. cbv iota. split; [exact Hb|]. apply IH; assumption.
Qed.
Theorem passed_away : forall l tr r px py x0 y0, good_run tr r px py -> Forall three l -> walk px py l -> began r px py = (x0, y0) ->
  away None x0 y0 (untrimmed (passed tr r px py l)).
Proof.
  intros l tr r px py x0 y0 G Hl W. revert x0 y0. revert l tr r px py G Hl W. refine (passed_ind _ _ _ _).
  - intros tr r px py G x0 y0 B. destruct (held_app _ _ _ _ _ _ G B) as (m & J & Er & E & G'). cbn [JefAgainProofs.passed]. rewrite E, (untrimmed_held _ _ _ _ _ _ _ G').
    destruct G' as (G1 & _). rewrite away_none, <- (app_nil_r J). apply away_jumps; [exact G1|exact I].
  - intros tr r px py s l x0 y0 m J G Hs B E G' IH x1 y1 B1. rewrite (passed_jump _ _ _ _ _ _ _ _ _ _ Hs E). rewrite B in B1. injection B1 as <- <-.
    apply IH. reflexivity.
  - intros tr r px py s l G Hs Hj Hk W1 W2 Hl W IH x0 y0 B. rewrite (passed_other _ _ _ _ _ _ Hs Hj) in *.
    destruct (held_app _ _ _ _ _ _ G B) as (m & J & Er & E & G'). rewrite E in *.
    rewrite untrimmed_app, (untrimmed_held _ _ _ _ _ _ _ G'), (untrimmed_cons s _ Hk). destruct G' as (G1 & _).
    rewrite away_none. apply away_jumps; [exact G1|]. cbn [away]. rewrite (proj1 (not_jump s Hs Hj)). apply IH. reflexivity.
Qed.
Theorem away_kept : forall l tr r px py x0 y0 m J, good_run tr r px py -> Forall three l -> walk px py l ->
  match r with Some v => v | None => (px, py, false, []) end = (x0, y0, m, J) ->
  away (Some (x0, y0)) px py l -> untrimmed (passed tr r px py l) = J ++ l.
Proof.
  intros l tr r px py x0 y0 m J G Hl W. revert x0 y0 m J. revert l tr r px py G Hl W. refine (passed_ind _ _ _ _).
  - intros tr r px py G x0 y0 m J E _. assert (B : began r px py = (x0, y0)) by (destruct r as [[[[a b] c] d]|]; inversion E; reflexivity).
    destruct (held_app _ _ _ _ _ _ G B) as (m' & J' & Er & E' & G'). rewrite Er in E. injection E as <- <-. cbn [JefAgainProofs.passed].
    rewrite E', (untrimmed_held _ _ _ _ _ _ _ G'), app_nil_r. reflexivity.
  - intros tr r px py s l x0 y0 m J G Hs B E G' IH x1 y1 m1 J1 E1 A. rewrite (passed_jump _ _ _ _ _ _ _ _ _ _ Hs E). rewrite E in E1. injection E1 as <- <- <- <-.
    cbn [away] in A. rewrite Hs in A. change (cmd_of JUMP =? JUMP) with true in A. destruct A as [A1 A2].
    rewrite (IH _ _ _ _ eq_refl A2). destruct ((sx s =? x0) && (sy s =? y0)) eqn:Eb; [|rewrite <- app_assoc; reflexivity].
    apply andb_true_iff in Eb. destruct Eb as [X Y]. apply Z.eqb_eq in X, Y. destruct A1. auto.
  - intros tr r px py s l G Hs Hj Hk W1 W2 Hl W IH x0 y0 m J E A. rewrite (passed_other _ _ _ _ _ _ Hs Hj) in *.
    assert (B : began r px py = (x0, y0)) by (destruct r as [[[[a b] c] d]|]; inversion E; reflexivity).
    destruct (held_app _ _ _ _ _ _ G B) as (m' & J' & Er & E' & G'). rewrite Er in E. injection E as <- <-.
    rewrite E', untrimmed_app, (untrimmed_held _ _ _ _ _ _ _ G'), (untrimmed_cons s _ Hk). cbn [away] in A. rewrite (proj1 (not_jump s Hs Hj)) in A.
    rewrite (IH _ _ _ _ eq_refl); [reflexivity|]. rewrite <- away_none. exact A.
Qed.

(** ** Steps and kinds *)
Lemma walk_app : forall a b px py, walk px py a -> (let '(x, y) := needle_after px py a in walk x y b) -> walk px py (a ++ b).
Proof.
  induction a as [|s a IH]; intros b px py H K; [exact K|]. cbn [app representable needle_after] in *. destruct H as [H1 H2]. split; [exact H1|]. apply IH; assumption.
Qed.
Lemma walk_held : forall tr x0 y0 m J px py, good_run tr (Some (x0, y0, m, J)) px py ->
  walk x0 y0 (mark_of m x0 y0 ++ J) /\ needle_after x0 y0 (mark_of m x0 y0 ++ J) = (px, py) /\ Forall four (mark_of m x0 y0 ++ J).
Proof.
  intros tr x0 y0 m J px py (G1 & G2 & G3 & G4 & G5).
  assert (K : Forall four J) by (eapply Forall_impl; [|exact G1]; cbv beta; intros a [X _]; unfold four; rewrite X; cbn; auto).
  destruct m; cbn [mark_of app]; [|auto]. cbn [representable needle_after sx sy scmd]. split; [|split; [exact G4|]].
  - split; [|exact G3]. right. split; [cbn; auto|]. auto.
  - constructor; [unfold four; cbn; auto|exact K].
Qed.
Lemma needle_after_app : forall a b px py, needle_after px py (a ++ b) = let '(x, y) := needle_after px py a in needle_after x y b.
Proof. induction a as [|s a IH]; intros b px py; [reflexivity|]. cbn [app needle_after]. apply IH. Qed.
Theorem passed_walk : forall l tr r px py x0 y0, good_run tr r px py -> Forall three l -> walk px py l -> began r px py = (x0, y0) ->
  walk x0 y0 (passed tr r px py l) /\ needle_after x0 y0 (passed tr r px py l) = needle_after px py l /\ Forall four (passed tr r px py l).
Proof.
  intros l tr r px py x0 y0 G Hl W. revert x0 y0. revert l tr r px py G Hl W. refine (passed_ind _ _ _ _).
  - intros tr r px py G x0 y0 B. destruct (held_app _ _ _ _ _ _ G B) as (m & J & Er & E & G'). cbn [JefAgainProofs.passed needle_after]. rewrite E. exact (walk_held _ _ _ _ _ _ _ G').
  - intros tr r px py s l x0 y0 m J G Hs B E G' IH x1 y1 B1. rewrite (passed_jump _ _ _ _ _ _ _ _ _ _ Hs E). rewrite B in B1. injection B1 as <- <-.
    cbn [needle_after]. apply IH. reflexivity.
  - intros tr r px py s l G Hs Hj Hk W1 W2 Hl W IH x0 y0 B. rewrite (passed_other _ _ _ _ _ _ Hs Hj) in *.
    destruct (held_app _ _ _ _ _ _ G B) as (m & J & Er & E & G'). rewrite E in *. destruct (walk_held _ _ _ _ _ _ _ G') as (H1 & H2 & H3).
    destruct (IH _ _ eq_refl) as (I1 & I2 & I3). split; [|split].
    + apply walk_app; [exact H1|]. rewrite H2. cbn [representable]. split; [|exact I1].
      destruct Hk as [Hk|Hk]; rewrite Hk in *; [left; split; [cbn; auto|exact W1]|right; split; [cbn; auto|exact (W2 eq_refl)]].
    + rewrite needle_after_app, H2. cbn [needle_after]. exact I2.
    + apply Forall_app. split; [exact H3|]. constructor; [|exact I3]. unfold four. destruct Hk as [-> | ->]; cbn; auto.
Qed.
Theorem approached_walk : forall l cut px py, Forall four l -> walk px py l ->
  walk px py (approached cut px py l) /\ needle_after px py (approached cut px py l) = needle_after px py l /\ Forall four (approached cut px py l).
Proof.
  induction l as [|s l IH]; intros cut px py Hl W; [split; [exact I|]; split; [reflexivity|constructor]|].
  apply Forall_cons_iff in Hl. destruct Hl as [Hs Hl]. cbn [representable] in W. destruct W as [W1 W2].
  destruct (IH (cut_by cut (scmd s)) (sx s) (sy s) Hl W2) as (I1 & I2 & I3). cbn [approached needle_after].
  set (rest := approached (cut_by cut (scmd s)) (sx s) (sy s) l) in *.
  assert (K : walk px py (s :: rest) /\ needle_after px py (s :: rest) = needle_after (sx s) (sy s) l /\ Forall four (s :: rest)).
  { split; [split; assumption|]. split; [exact I2|]. constructor; assumption. }
  destruct (cut && (cmd_of (scmd s) =? TRIM)) eqn:E1.
  - apply andb_true_iff in E1. destruct E1 as [_ E1]. apply Z.eqb_eq in E1. rewrite E1 in W1. destruct W1 as [[W1 _]|[_ [X Y]]]; [cbn in W1; intuition discriminate|].
    cbn [app]. rewrite <- X, <- Y in *. auto.
  - destruct (cut && (cmd_of (scmd s) =? STITCH) && negb ((sx s =? px) && (sy s =? py))) eqn:E2; [|exact K].
    apply andb_true_iff in E2. destruct E2 as [E2 _]. apply andb_true_iff in E2. destruct E2 as [_ E2]. apply Z.eqb_eq in E2.
    rewrite E2 in W1. assert (S1 : step_within 127 px py (sx s) (sy s)) by (destruct W1 as [[_ W1]|[W1 _]]; [exact W1|cbn in W1; intuition discriminate]).
    cbn [app]. destruct K as (K1 & K2 & K3). split; [|split; [exact K2|]].
    + cbn [representable sx sy scmd]. split; [left; split; [cbn; auto|exact S1]|]. split; [|exact I1]. left. rewrite E2. split; [cbn; auto|]. unfold step_within. lia.
    + constructor; [unfold four; cbn; auto|exact K3].
Qed.
Theorem untrimmed_walk : forall l px py, Forall four l -> walk px py l ->
  walk px py (untrimmed l) /\ needle_after px py (untrimmed l) = needle_after px py l /\ Forall three (untrimmed l).
Proof.
  induction l as [|s l IH]; intros px py Hl W; [split; [exact I|]; split; [reflexivity|constructor]|].
  apply Forall_cons_iff in Hl. destruct Hl as [Hs Hl]. cbn [representable] in W. destruct W as [W1 W2].
  destruct (IH (sx s) (sy s) Hl W2) as (I1 & I2 & I3). cbn [untrimmed filter needle_after]. fold (untrimmed l).
  destruct (Z.eqb_spec (cmd_of (scmd s)) TRIM) as [E|E]; cbn [negb].
  - rewrite E in W1. destruct W1 as [[W1 _]|[_ [X Y]]]; [cbn in W1; intuition discriminate|]. rewrite <- X, <- Y in *. auto.
  - split; [split; assumption|]. split; [exact I2|]. constructor; [|exact I3]. unfold four, three in *. cbn [In] in *. destruct Hs as [H|[H|[H|[H|[]]]]]; auto. rewrite <- H in E. destruct (E eq_refl).
Qed.

(** ** Sewing and colour changes are kept *)
Definition kept (a : stitch Z) : bool := (cmd_of (scmd a) =? STITCH) || (cmd_of (scmd a) =? COLOR_CHANGE).
Lemma kept_jumps : forall J : list (stitch Z), Forall (fun a => scmd a = JUMP) J -> filter kept J = [].
Proof. intros J H. induction H as [|a J Ha _ IH]; [reflexivity|]. cbn [filter]. unfold kept at 1. rewrite Ha. exact IH. Qed.
Lemma kept_held : forall tr r px py, good_run tr r px py -> filter kept (held r) = [].
Proof.
  intros tr r px py G. destruct r as [[[[a b] m] J]|]; [|reflexivity]. destruct G as (G1 & _). cbn [held]. rewrite filter_app, (kept_jumps J (run_jumps _ _ _ G1)).
  destruct m; reflexivity.
Qed.
Theorem passed_kept : forall l tr r px py, good_run tr r px py -> Forall three l -> walk px py l -> filter kept (passed tr r px py l) = filter kept l.
Proof.
  refine (passed_ind _ _ _ _).
  - intros tr r px py G. exact (kept_held _ _ _ _ G).
  - intros tr r px py s l x0 y0 m J G Hs B E G' IH. rewrite (passed_jump _ _ _ _ _ _ _ _ _ _ Hs E), IH. cbn [filter]. unfold kept at 2. rewrite Hs. reflexivity.
  - intros tr r px py s l G Hs Hj Hk W1 W2 Hl W IH. rewrite (passed_other _ _ _ _ _ _ Hs Hj), filter_app, (kept_held _ _ _ _ G). cbn [app filter]. rewrite IH. reflexivity.
Qed.
Theorem approached_kept : forall l cut px py, filter kept (approached cut px py l) = filter kept l.
Proof.
  induction l as [|s l IH]; intros cut px py; [reflexivity|]. cbn [approached]. rewrite filter_app, IH. cbn [filter].
  destruct (cut && (cmd_of (scmd s) =? TRIM)) eqn:E1.
  - apply andb_true_iff in E1. destruct E1 as [_ E1]. apply Z.eqb_eq in E1. unfold kept at 3. rewrite E1. reflexivity.
  - destruct (_ && _ && _); cbn [filter]; destruct (kept s); reflexivity.
Qed.
Theorem untrimmed_kept : forall l, filter kept (untrimmed l) = filter kept l.
Proof.
  induction l as [|s l IH]; [reflexivity|]. cbn [untrimmed filter]. fold (untrimmed l).
  destruct (Z.eqb_spec (cmd_of (scmd s)) TRIM) as [E|E]; cbn [negb filter]; rewrite IH; [|reflexivity]. unfold kept at 2. rewrite E. reflexivity.
Qed.
Lemma sews_kept : forall l : list (stitch Z), sews_first l <-> match filter kept l with a :: _ => cmd_of (scmd a) = STITCH | [] => False end.
Proof.
  induction l as [|s l IH]; [reflexivity|]. cbn [sews_first filter]. unfold kept at 1.
  destruct (Z.eqb_spec (cmd_of (scmd s)) STITCH) as [E|E]; cbn [orb]; [tauto|].
  destruct (Z.eqb_spec (cmd_of (scmd s)) COLOR_CHANGE) as [E'|E']; [rewrite E'; split; [intros [X|[X _]]; [discriminate X|contradiction]|discriminate]|].
  rewrite <- IH. tauto.
Qed.
Lemma changes_kept : forall l : list (stitch Z), filter (fun s => cmd_of (scmd s) =? COLOR_CHANGE) (filter kept l) = filter (fun s => cmd_of (scmd s) =? COLOR_CHANGE) l.
Proof.
  induction l as [|s l IH]; [reflexivity|]. cbn [filter]. unfold kept at 1.
  destruct (Z.eqb_spec (cmd_of (scmd s)) COLOR_CHANGE) as [E|E]; [rewrite orb_true_r; cbn [filter]; rewrite E, Z.eqb_refl, IH; reflexivity|].
  destruct (_ || _); cbn [filter]; [|exact IH]. apply Z.eqb_neq in E. rewrite E. exact IH.
Qed.
Lemma approached_lands : forall l cut px py, lands eq cut px py l -> untrimmed (approached cut px py l) = untrimmed l.
Proof.
  induction l as [|s l IH]; intros cut px py H; [reflexivity|]. cbn [lands] in H. destruct H as [H1 H2]. cbn [approached]. rewrite untrimmed_app, (IH _ _ _ H2).
  change (untrimmed (s :: l)) with (untrimmed ([s] ++ l)). rewrite untrimmed_app. f_equal.
  destruct cut; cbn [andb]; [|reflexivity].
  destruct (Z.eqb_spec (cmd_of (scmd s)) TRIM) as [E|E]; [cbn [untrimmed filter]; rewrite E; reflexivity|].
  destruct (Z.eqb_spec (cmd_of (scmd s)) STITCH) as [E'|E']; [|reflexivity]. destruct (H1 eq_refl E') as [-> ->]. rewrite !Z.eqb_refl. reflexivity.
Qed.

(** ** Generations *)
Definition interp (l : list (stitch Z)) : list (stitch Z) := passed true None 0 0 l.
Definition stored (l : list (stitch Z)) : list (stitch Z) := untrimmed (approached true 0 0 l).
Lemma generation : forall l, Forall three l -> walk 0 0 l ->
  let l' := stored (interp l) in Forall three l' /\ walk 0 0 l' /\ needle_after 0 0 l' = needle_after 0 0 l /\ filter kept l' = filter kept l.
Proof.
  intros l H W. cbv zeta. unfold stored, interp. destruct (passed_walk l true None 0 0 0 0 I H W eq_refl) as (P1 & P2 & P3).
  destruct (approached_walk _ true 0 0 P3 P1) as (A1 & A2 & A3). destruct (untrimmed_walk _ 0 0 A3 A1) as (U1 & U2 & U3).
  split; [exact U3|]. split; [exact U1|]. split; [rewrite U2, A2, P2; reflexivity|].
  rewrite untrimmed_kept, approached_kept, (passed_kept l true None 0 0 I H W). reflexivity.
Qed.
Theorem landed_settled : forall l, Forall three l -> walk 0 0 l -> lands eq true 0 0 (interp l) ->
  stored (interp (stored (interp l))) = stored (interp l) /\ lands eq true 0 0 (interp (stored (interp l))).
Proof.
  intros l H W L.
  assert (E : stored (interp l) = untrimmed (interp l)) by (apply approached_lands; exact L).
  pose proof (landing_ok l true None 0 0 0 0 I H W eq_refl L) as O. pose proof (passed_away l true None 0 0 0 0 I H W eq_refl) as A. fold (interp l) in O, A.
  destruct (generation l H W) as (K1 & K2 & _). rewrite E in *.
  pose proof (passed_lands (untrimmed (interp l)) true None 0 0 0 0 I K1 K2 eq_refl O) as L2. fold (interp (untrimmed (interp l))) in L2.
  split; [|exact L2]. unfold stored. rewrite (approached_lands _ _ _ _ L2). rewrite away_none in A.
  exact (away_kept _ true None 0 0 0 0 false [] I K1 K2 eq_refl A).
Qed.
Theorem second_lands : forall l, Forall three l -> walk 0 0 l -> lands eq true 0 0 (interp (stored (interp l))).
Proof.
  intros l H W. destruct (generation l H W) as (K1 & K2 & _). apply (passed_lands _ true None 0 0 0 0 I K1 K2 eq_refl).
  exact (approached_ok l true None 0 0 0 0 I H W eq_refl).
Qed.
End Settle.
