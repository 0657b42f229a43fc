(** VP3 files of designs with fractional coordinates: the file is that of a design with integer coordinates,
    which is near. *)
From Coq Require Import ZArith QArith Qabs List Bool Lia Lqa.
From Verif Require Import PyBase EmbConst HelperModel BitLemmas HelperProofs ThreadModel Utf8Model Utf8Proofs
  PatternModel PatternProofs StreamModel JefSpec DstFileModel Vp3Model Vp3Spec Vp3Proofs EncoderSpec EncoderColorSpec Vp3AnyProofs Vp3QModel Vp3QSpec.
Import ListNotations.
Open Scope Z_scope.

(** ** Cutting the fraction off *)
Lemma q_cut_parts v : exists r, Qnum v = Zpos (Qden v) * q_cut v + r /\ Z.abs r < Zpos (Qden v).
Proof.
  exists (Z.rem (Qnum v) (Zpos (Qden v))). unfold q_cut. split; [apply Z.quot_rem'|].
  pose proof (Z.rem_bound_abs (Qnum v) (Zpos (Qden v)) ltac:(discriminate)). lia.
Qed.
Lemma q_cut_near v : (-1 < v - inject_Z (q_cut v))%Q /\ (v - inject_Z (q_cut v) < 1)%Q.
Proof.
  destruct (q_cut_parts v) as (r & E & B). destruct v as [n d]. cbn [Qnum Qden] in *.
  generalize dependent (q_cut (n # d)). intros q E. unfold Qlt, Qminus, Qplus, Qopp, inject_Z. cbn [Qnum Qden].
  rewrite E. split; lia.
Qed.
Lemma q_cut_le v b : (Qabs v <= inject_Z b)%Q -> Z.abs (q_cut v) <= b.
Proof.
  intros H. destruct v as [n d]. unfold q_cut. cbn [Qnum Qden]. rewrite <- Z.quot_abs by discriminate.
  rewrite Z.quot_div_nonneg by lia. unfold Qle, Qabs, inject_Z in H. cbn [Qnum Qden] in H.
  change (Z.abs (Zpos d)) with (Zpos d). apply Z.div_le_upper_bound; lia.
Qed.
Lemma q_cut_opp v : q_cut (- v) = - q_cut v.
Proof. destruct v as [n d]. unfold q_cut, Qopp. cbn [Qnum Qden]. apply Z.quot_opp_l. discriminate. Qed.
Lemma q_cut_compat v w : (v == w)%Q -> q_cut v = q_cut w.
Proof.
  destruct v as [a b], w as [c d]. unfold Qeq, q_cut. cbn [Qnum Qden]. intros H.
  rewrite <- (Z.quot_mul_cancel_r a (Zpos b) (Zpos d)) by discriminate.
  rewrite <- (Z.quot_mul_cancel_r c (Zpos d) (Zpos b)) by discriminate. rewrite H. f_equal. lia.
Qed.
Lemma q_cut_int n : q_cut (inject_Z n) = n.
Proof. unfold q_cut, inject_Z. cbn [Qnum Qden]. apply Z.quot_1_r. Qed.

(** ** The integer design of the same file *)
(** A section from the last position written (lx, ly), which is (ax, ay) in the integer design; its last command
    is put to (ex, ey). *)
Fixpoint steps_q (lx ly : Q) (ax ay ex ey : Z) (l : list (stitch Q)) : list (stitch Z) :=
  match l with
  | [] => [mkS ex ey JUMP]
  | s :: r =>
      if cmd_of (scmd s) =? END then [mkS ex ey (scmd s)]
      else if cmd_of (scmd s) =? STITCH then
        let dx := q_cut (sx s - lx) in
        let dy := q_cut (sy s - ly) in
        mkS (ax + dx) (ay + dy) (scmd s) :: steps_q (lx + inject_Z dx) (ly + inject_Z dy) (ax + dx) (ay + dy) ex ey r
      else mkS ax ay (scmd s) :: steps_q lx ly ax ay ex ey r
  end.
Lemma steps_bytes : forall l lx ly ax ay ex ey, vp3_commands l ->
  vp3_stitches ax ay (steps_q lx ly ax ay ex ey l) = vp3_stitches_q lx ly l.
Proof.
  induction l as [|s r IH]; intros lx ly ax ay ex ey H; [reflexivity|].
  cbn [vp3_commands] in H. cbn [steps_q vp3_stitches_q]. destruct H as [[H Hr]|[H ->]].
  - unfold vp3_command in H. cbn [In] in H.
    destruct H as [H | [H | [H | [H | [H | [H | [H | []]]]]]]]; rewrite <- H;
      cbn [Z.eqb Pos.eqb STITCH TRIM COLOR_CHANGE JUMP STOP SEQUIN_MODE SEQUIN_EJECT END]; cbn [vp3_stitches scmd sx sy]; rewrite <- H;
      cbn [Z.eqb Pos.eqb STITCH TRIM COLOR_CHANGE JUMP STOP SEQUIN_MODE SEQUIN_EJECT END];
      try (rewrite IH by exact Hr; reflexivity).
    cbv zeta. replace (ax + q_cut (sx s - lx) - ax) with (q_cut (sx s - lx)) by lia.
    replace (ay + q_cut (sy s - ly) - ay) with (q_cut (sy s - ly)) by lia. rewrite IH by exact Hr. reflexivity.
  - rewrite H. cbn [Z.eqb Pos.eqb END vp3_stitches scmd]. rewrite H. reflexivity.
Qed.
Lemma steps_last : forall l lx ly ax ay ex ey, exists pre c, steps_q lx ly ax ay ex ey l = pre ++ [mkS ex ey c].
Proof.
  induction l as [|s r IH]; intros lx ly ax ay ex ey; cbn [steps_q]; [exists [], JUMP; reflexivity|].
  destruct (_ =? END); [exists [], (scmd s); reflexivity|]. destruct (_ =? STITCH).
  - cbv zeta. destruct (IH (lx + inject_Z (q_cut (sx s - lx)))%Q (ly + inject_Z (q_cut (sy s - ly)))%Q
      (ax + q_cut (sx s - lx)) (ay + q_cut (sy s - ly)) ex ey) as (pre & c & ->). eexists (_ :: pre), c. reflexivity.
  - destruct (IH lx ly ax ay ex ey) as (pre & c & ->). exists (mkS ax ay (scmd s) :: pre), c. reflexivity.
Qed.

Section Whole.
Variables cx cy : Q.
(** Where a section that starts at [f] is put. *)
Definition put_x (f : Q) : Z := q_cut (f - cx) + q_cut cx.
Definition put_y (f : Q) : Z := q_cut (f - cy) + q_cut cy.
Lemma put_x_near f : (Qabs (inject_Z (put_x f) - f) < 2)%Q.
Proof.
  unfold put_x. rewrite inject_Z_plus. pose proof (q_cut_near (f - cx)). pose proof (q_cut_near cx). apply Qabs_case; intros; Lqa.lra.
Qed.
Lemma put_y_near f : (Qabs (inject_Z (put_y f) - f) < 2)%Q.
Proof.
  unfold put_y. rewrite inject_Z_plus. pose proof (q_cut_near (f - cy)). pose proof (q_cut_near cy). apply Qabs_case; intros; Lqa.lra.
Qed.
Lemma put_x_zero : put_x 0 = 0.
Proof. unfold put_x. rewrite (q_cut_compat (0 - cx) (- cx)) by ring. rewrite q_cut_opp. lia. Qed.
Lemma put_y_zero : put_y 0 = 0.
Proof. unfold put_y. rewrite (q_cut_compat (0 - cy) (- cy)) by ring. rewrite q_cut_opp. lia. Qed.

Definition first_pos (first : bool) (l : list (stitch Q)) : Q * Q :=
  match l with [] => (0%Q, 0%Q) | s :: _ => if first then (0%Q, 0%Q) else (sx s, sy s) end.
Definition last_pos (l : list (stitch Q)) : Q * Q := match rev l with [] => (0%Q, 0%Q) | s :: _ => (sx s, sy s) end.
(** The integer section for a section. *)
Definition cut_block (first : bool) (l : list (stitch Q)) : list (stitch Z) :=
  let f := first_pos first l in
  let e := last_pos l in
  let gx := put_x (fst f) in
  let gy := put_y (snd f) in
  steps_q (fst f) (snd f) gx gy (gx + q_cut (fst e - fst f)) (gy + q_cut (snd e - snd f)) l.

Definition change (s : stitch Q) : Prop := cmd_of (scmd s) = COLOR_CHANGE.
Definition headed (first : bool) (l : list (stitch Q)) : Prop :=
  if first then True else exists s r, l = s :: r /\ change s.
Lemma cut_block_bytes first l t : headed first l -> vp3_commands l ->
  vp3_colorblock first (2 * q_cut cx) (2 * q_cut cy) (cut_block first l) t = vp3_colorblock_q first cx cy l t.
Proof.
  intros Hh Hc. unfold vp3_colorblock, vp3_colorblock_q. destruct (vp3_thread t) as [th|]; [|reflexivity]. cbn [bindr].
  change (match l with [] => (0%Q, 0%Q) | s :: _ => if first then (0%Q, 0%Q) else (sx s, sy s) end) with (first_pos first l).
  change (match rev l with [] => (0%Q, 0%Q) | s :: _ => (sx s, sy s) end) with (last_pos l).
  change (match cut_block first l with [] => (0, 0) | s :: _ => if first then (0, 0) else (sx s, sy s) end) with (start_of first (cut_block first l)).
  assert (S1 : start_of first (cut_block first l) = (put_x (fst (first_pos first l)), put_y (snd (first_pos first l)))).
  { destruct first.
    - assert (F : first_pos true l = (0%Q, 0%Q)) by (destruct l; reflexivity). rewrite F. cbn [fst snd]. rewrite put_x_zero, put_y_zero.
      destruct (cut_block true l); reflexivity.
    - destruct Hh as (s & r & -> & Hs). unfold cut_block. cbn [first_pos fst snd steps_q]. unfold change in Hs. rewrite Hs. reflexivity. }
  assert (S2 : match rev (cut_block first l) with [] => (0, 0) | s :: _ => (sx s, sy s) end
               = (put_x (fst (first_pos first l)) + q_cut (fst (last_pos l) - fst (first_pos first l)),
                  put_y (snd (first_pos first l)) + q_cut (snd (last_pos l) - snd (first_pos first l)))).
  { unfold cut_block. match goal with |- context [steps_q ?a ?b ?c ?d ?e ?f ?g] => destruct (steps_last g a b c d e f) as (pre & k & ->) end.
    rewrite rev_app_distr. reflexivity. }
  rewrite S1, S2. cbn [fst snd]. unfold vp3_stitches_block, vp3_stitches_block_q, cut_block. rewrite steps_bytes by exact Hc.
  set (fx := fst (first_pos first l)). set (fy := snd (first_pos first l)).
  do 3 f_equal.
  assert (E1 : Z.quot (2 * put_x fx - 2 * q_cut cx) 2 = q_cut (fx - cx)).
  { unfold put_x. replace (2 * (q_cut (fx - cx) + q_cut cx) - 2 * q_cut cx) with (2 * q_cut (fx - cx)) by lia. apply quot_double. }
  assert (E2 : Z.quot (- (2 * put_y fy - 2 * q_cut cy)) 2 = q_cut (- (fy - cy))).
  { rewrite q_cut_opp. unfold put_y. replace (- (2 * (q_cut (fy - cy) + q_cut cy) - 2 * q_cut cy)) with (2 * - q_cut (fy - cy)) by lia. apply quot_double. }
  rewrite E1, E2. rewrite !q_cut_opp.
  replace (put_x fx + q_cut (fst (last_pos l) - fx) - put_x fx) with (q_cut (fst (last_pos l) - fx)) by lia.
  replace (- (put_y fy + q_cut (snd (last_pos l) - fy) - put_y fy)) with (- q_cut (snd (last_pos l) - fy)) by lia.
  reflexivity.
Qed.

(** ** The sections of a design *)
Context {T : Type} (get : Z -> T).
Definition plain_commands {C} (l : list (stitch C)) : Prop := Forall (fun s => vp3_command (cmd_of (scmd s))) l.
Definition unchanged {C} (l : list (stitch C)) : Prop := Forall (fun s => cmd_of (scmd s) <> COLOR_CHANGE) l.
Lemma commands_app {C} (a : list (stitch C)) s r : vp3_commands (a ++ s :: r) -> plain_commands a /\ vp3_commands (s :: r).
Proof.
  induction a as [|x a IH]; cbn [app]; intros H; [split; [constructor|exact H]|].
  cbn [vp3_commands] in H. destruct H as [[H1 H2]|[_ H]]; [|destruct a; discriminate].
  destruct (IH H2). split; [constructor; assumption|assumption].
Qed.
Lemma commands_plain {C} (a : list (stitch C)) : plain_commands a -> vp3_commands a.
Proof. induction 1; [exact I|]. left. split; assumption. Qed.

Definition inner (first : bool) (l : list (stitch Q)) : list (stitch Q) := if first then l else tl l.
Fixpoint shape (i : Z) (first : bool) (bs : list (list (stitch Q) * T)) : Prop :=
  match bs with
  | [] => True
  | (b, t) :: r => t = get i /\ headed first b /\ unchanged (inner first b) /\ vp3_commands b /\ (r = [] \/ plain_commands b) /\ shape (i + 1) false r
  end.
Lemma blocks_shape : forall l i blk first, headed first blk -> unchanged (inner first blk) -> vp3_commands (blk ++ l) ->
  shape i first (vp3_blocks_q get i blk l) /\ concat (map fst (vp3_blocks_q get i blk l)) = blk ++ l.
Proof.
  induction l as [|s r IH]; intros i blk first Hh Hu Hc.
  - cbn [vp3_blocks_q shape map concat fst]. rewrite app_nil_r in Hc. split; [|reflexivity]. repeat (split; [assumption || reflexivity|]). split; [left; reflexivity|exact I].
  - cbn [vp3_blocks_q]. destruct (Z.eqb_spec (cmd_of (scmd s)) COLOR_CHANGE) as [E|E].
    + destruct (commands_app _ _ _ Hc) as [P1 P2].
      destruct (IH (i + 1) [s] false) as [S1 S2]; [exists s, []; split; [reflexivity|exact E]|constructor|exact P2|].
      split; [|cbn [map fst concat]; rewrite S2; reflexivity].
      cbn [shape]. split; [reflexivity|]. split; [exact Hh|]. split; [exact Hu|]. split; [apply commands_plain; exact P1|]. split; [right; exact P1|exact S1].
    + destruct (IH i (blk ++ [s]) first) as [S1 S2].
      * destruct first; [exact I|]. destruct Hh as (h & t & -> & Hh). exists h, (t ++ [s]). split; [reflexivity|exact Hh].
      * destruct first; cbn [inner] in *.
        -- apply Forall_app. split; [exact Hu|]. constructor; [exact E|constructor].
        -- destruct Hh as (h & t & -> & Hh). cbn [app tl] in *. apply Forall_app. split; [exact Hu|]. constructor; [exact E|constructor].
      * rewrite <- app_assoc. exact Hc.
      * split; [exact S1|]. rewrite S2, <- app_assoc. reflexivity.
Qed.

Fixpoint cut_blocks (first : bool) (bs : list (list (stitch Q) * T)) : list (list (stitch Z) * T) :=
  match bs with [] => [] | (b, t) :: r => (cut_block first b, t) :: cut_blocks false r end.
Lemma blocks_inner : forall b i acc (rest : list (stitch Z)), unchanged b ->
  vp3_blocks get i acc (b ++ rest) = vp3_blocks get i (acc ++ b) rest.
Proof.
  induction b as [|s b IH]; intros i acc rest H; [rewrite app_nil_r; reflexivity|]. inversion H as [|? ? Hs Hb]; subst.
  cbn [app vp3_blocks]. apply Z.eqb_neq in Hs. rewrite Hs, IH by exact Hb. rewrite <- app_assoc. reflexivity.
Qed.
Lemma steps_unchanged : forall l lx ly ax ay ex ey, unchanged l -> unchanged (steps_q lx ly ax ay ex ey l).
Proof.
  induction l as [|s r IH]; intros lx ly ax ay ex ey H; cbn [steps_q]; [constructor; [discriminate|constructor]|].
  inversion H as [|? ? Hs Hr]; subst. destruct (_ =? END); [constructor; [exact Hs|constructor]|].
  destruct (_ =? STITCH); cbv zeta; constructor; [exact Hs| |exact Hs|]; apply IH; exact Hr.
Qed.
Lemma cut_block_false : forall s r, change s ->
  cut_block false (s :: r) = mkS (put_x (sx s)) (put_y (sy s)) (scmd s)
    :: steps_q (sx s) (sy s) (put_x (sx s)) (put_y (sy s)) (put_x (sx s) + q_cut (fst (last_pos (s :: r)) - sx s))
         (put_y (sy s) + q_cut (snd (last_pos (s :: r)) - sy s)) r.
Proof. intros s r H. unfold cut_block. cbn [first_pos fst snd steps_q]. unfold change in H. rewrite H. reflexivity. Qed.
Lemma blocks_cut_false : forall bs j acc, shape (j + 1) false bs ->
  vp3_blocks get j acc (concat (map fst (cut_blocks false bs))) = (acc, get j) :: cut_blocks false bs.
Proof.
  induction bs as [|[b t] r IH]; intros j acc H; [reflexivity|]. cbn [shape] in H. destruct H as (-> & Hh & Hu & _ & _ & Hr).
  destruct Hh as (s & b' & -> & Hs). cbn [inner tl] in Hu. cbn [cut_blocks map fst concat].
  rewrite (cut_block_false s b' Hs). cbn [app vp3_blocks scmd]. unfold change in Hs. rewrite Hs. cbn [Z.eqb Pos.eqb COLOR_CHANGE].
  f_equal. rewrite blocks_inner by (apply steps_unchanged; exact Hu). rewrite IH by exact Hr. reflexivity.
Qed.
Lemma blocks_cut : forall bs, bs <> [] -> shape 0 true bs ->
  vp3_blocks get 0 [] (concat (map fst (cut_blocks true bs))) = cut_blocks true bs.
Proof.
  intros [|[b t] r] N H; [contradiction|]. cbn [shape] in H. destruct H as (-> & _ & Hu & _ & _ & Hr). cbn [inner] in Hu.
  cbn [cut_blocks map fst concat]. rewrite blocks_inner by (unfold cut_block; apply steps_unchanged; exact Hu).
  rewrite blocks_cut_false by exact Hr. reflexivity.
Qed.
Lemma blocks_length : forall bs first, List.length (cut_blocks first bs) = List.length bs.
Proof. induction bs as [|[b t] r IH]; intros first; [reflexivity|]. cbn [cut_blocks List.length]. rewrite IH. reflexivity. Qed.

(** ** The integer design fits *)
Lemma abs_le a b : (Qabs a <= b)%Q -> (- b <= a /\ a <= b)%Q.
Proof. apply Qabs_Qle_condition. Qed.
Lemma abs_lt a b : (Qabs a < b)%Q -> (- b < a /\ a < b)%Q.
Proof. apply Qabs_Qlt_condition. Qed.
Lemma near_last x lx : (Qabs (x - (lx + inject_Z (q_cut (x - lx)))) < 1)%Q.
Proof. pose proof (q_cut_near (x - lx)). apply Qabs_Qlt_condition. split; Lqa.lra. Qed.
Lemma step_fits x lx : (Qabs x <= 16000)%Q -> (Qabs lx <= 16001)%Q -> Z.abs (q_cut (x - lx)) <= 32001.
Proof.
  intros H1 H2. apply q_cut_le. apply abs_le in H1, H2. apply Qabs_Qle_condition. change (inject_Z 32001) with (32001 # 1)%Q. split; Lqa.lra.
Qed.
Lemma last_fits x lx : (Qabs x <= 16000)%Q -> (Qabs (lx + inject_Z (q_cut (x - lx))) <= 16001)%Q.
Proof. intros H. pose proof (near_last x lx) as N. apply abs_le in H. apply abs_lt in N. apply Qabs_Qle_condition. split; Lqa.lra. Qed.
Lemma steps_ok : forall l lx ly ax ay ex ey rest,
  in_field l -> (Qabs lx <= 16001)%Q -> (Qabs ly <= 16001)%Q -> unchanged l -> vp3_commands l ->
  (rest = [] \/ (plain_commands l /\ forall px py, vp3_steps px py rest)) ->
  vp3_steps ax ay (steps_q lx ly ax ay ex ey l ++ rest).
Proof.
  induction l as [|s r IH]; intros lx ly ax ay ex ey rest Hf Hx Hy Hu Hc Hr.
  - cbn [steps_q app vp3_steps]. right; left. split; [right; left; reflexivity|]. destruct Hr as [->|[_ Hr]]; [exact I|apply Hr].
  - inversion Hf as [|? ? [F1 F2] Hf']; subst. inversion Hu as [|? ? U Hu']; subst. cbn [vp3_commands] in Hc. cbn [steps_q].
    destruct Hc as [[Hc Hc']|[Hc ->]].
    + assert (Hr' : rest = [] \/ (plain_commands r /\ forall px py, vp3_steps px py rest)).
      { destruct Hr as [->|[P Hr]]; [left; reflexivity|right; split; [inversion P; assumption|exact Hr]]. }
      unfold vp3_command in Hc. cbn [In] in Hc.
      destruct Hc as [Hc | [Hc | [Hc | [Hc | [Hc | [Hc | [Hc | []]]]]]]]; rewrite <- Hc;
        cbn [Z.eqb Pos.eqb STITCH TRIM COLOR_CHANGE JUMP STOP SEQUIN_MODE SEQUIN_EJECT END]; cbv zeta; cbn [app vp3_steps scmd sx sy].
      * left. split; [symmetry; exact Hc|]. pose proof (step_fits _ _ F1 Hx). pose proof (step_fits _ _ F2 Hy).
        split; [unfold step_16; lia|]. apply IH; [exact Hf'|apply last_fits; exact F1|apply last_fits; exact F2|exact Hu'|exact Hc'|exact Hr'].
      * right; left. split; [left; symmetry; exact Hc|]. apply IH; assumption.
      * exfalso. apply U. symmetry. exact Hc.
      * right; left. split; [right; unfold silent; rewrite <- Hc; cbn; tauto|]. apply IH; assumption.
      * right; left. split; [right; unfold silent; rewrite <- Hc; cbn; tauto|]. apply IH; assumption.
      * right; left. split; [right; unfold silent; rewrite <- Hc; cbn; tauto|]. apply IH; assumption.
      * right; left. split; [right; unfold silent; rewrite <- Hc; cbn; tauto|]. apply IH; assumption.
    + rewrite Hc. cbn [Z.eqb Pos.eqb END app vp3_steps scmd]. right; right; right. split; [exact Hc|].
      destruct Hr as [->|[P _]]; [reflexivity|]. exfalso. inversion P as [|? ? P1 _]; subst. unfold vp3_command in P1. rewrite Hc in P1.
      cbn [In] in P1. repeat (destruct P1 as [P1|P1]; [discriminate P1|]). destruct P1.
Qed.
Lemma field_pos (l : list (stitch Q)) : in_field l -> (Qabs (fst (last_pos l)) <= 16000)%Q /\ (Qabs (snd (last_pos l)) <= 16000)%Q.
Proof.
  intros H. unfold last_pos. destruct (rev l) as [|s r] eqn:E; [split; vm_compute; discriminate|]. cbn [fst snd].
  unfold in_field in H. rewrite Forall_forall in H. apply H. apply in_rev. rewrite E. left. reflexivity.
Qed.
Lemma field_app a b : in_field (a ++ b) -> in_field a /\ in_field b.
Proof. apply Forall_app. Qed.

Lemma steps_small : forall l lx ly ax ay ex ey,
  in_field l -> (Qabs (inject_Z ax - lx) <= 40000)%Q -> (Qabs (inject_Z ay - ly) <= 40000)%Q -> (Qabs lx <= 16001)%Q -> (Qabs ly <= 16001)%Q ->
  Z.abs ex <= 100000 -> Z.abs ey <= 100000 -> Forall small (steps_q lx ly ax ay ex ey l).
Proof.
  assert (B : forall a lx, (Qabs (inject_Z a - lx) <= 40000)%Q -> (Qabs lx <= 16001)%Q -> Z.abs a <= 100000).
  { intros a lx H1 H2. apply abs_le in H1, H2. assert (inject_Z (- 100000) <= inject_Z a /\ inject_Z a <= inject_Z 100000)%Q as [C1 C2].
    { change (inject_Z (-100000)) with (-100000 # 1)%Q. change (inject_Z 100000) with (100000 # 1)%Q. split; Lqa.lra. }
    rewrite <- Zle_Qle in C1, C2. lia. }
  induction l as [|s r IH]; intros lx ly ax ay ex ey Hf A1 A2 L1 L2 E1 E2; cbn [steps_q].
  - constructor; [|constructor]. unfold small. cbn [sx sy]. lia.
  - inversion Hf as [|? ? [F1 F2] Hf']; subst. destruct (_ =? END); [constructor; [|constructor]; unfold small; cbn [sx sy]; lia|].
    destruct (_ =? STITCH); cbv zeta.
    + assert (A1' : (Qabs (inject_Z (ax + q_cut (sx s - lx)) - (lx + inject_Z (q_cut (sx s - lx)))) <= 40000)%Q).
      { rewrite inject_Z_plus. setoid_replace (inject_Z ax + inject_Z (q_cut (sx s - lx)) - (lx + inject_Z (q_cut (sx s - lx))))%Q with (inject_Z ax - lx)%Q by ring. exact A1. }
      assert (A2' : (Qabs (inject_Z (ay + q_cut (sy s - ly)) - (ly + inject_Z (q_cut (sy s - ly)))) <= 40000)%Q).
      { rewrite inject_Z_plus. setoid_replace (inject_Z ay + inject_Z (q_cut (sy s - ly)) - (ly + inject_Z (q_cut (sy s - ly))))%Q with (inject_Z ay - ly)%Q by ring. exact A2. }
      pose proof (last_fits (sx s) lx F1) as L1'. pose proof (last_fits (sy s) ly F2) as L2'.
      constructor; [|apply IH; assumption].
      unfold small. cbn [sx sy]. pose proof (B _ _ A1' L1'). pose proof (B _ _ A2' L2'). lia.
    + constructor; [|apply IH; assumption]. unfold small. cbn [sx sy]. pose proof (B _ _ A1 L1). pose proof (B _ _ A2 L2). lia.
Qed.
Lemma put_x_bound f : (Qabs f <= 16000)%Q -> Z.abs (put_x f) <= 16002.
Proof.
  intros H. pose proof (put_x_near f) as N. apply abs_le in H. apply abs_lt in N.
  assert (inject_Z (-16002) <= inject_Z (put_x f) /\ inject_Z (put_x f) <= inject_Z 16002)%Q as [C1 C2].
  { change (inject_Z (-16002)) with (-16002 # 1)%Q. change (inject_Z 16002) with (16002 # 1)%Q. split; Lqa.lra. }
  rewrite <- Zle_Qle in C1, C2. lia.
Qed.
Lemma put_y_bound f : (Qabs f <= 16000)%Q -> Z.abs (put_y f) <= 16002.
Proof.
  intros H. pose proof (put_y_near f) as N. apply abs_le in H. apply abs_lt in N.
  assert (inject_Z (-16002) <= inject_Z (put_y f) /\ inject_Z (put_y f) <= inject_Z 16002)%Q as [C1 C2].
  { change (inject_Z (-16002)) with (-16002 # 1)%Q. change (inject_Z 16002) with (16002 # 1)%Q. split; Lqa.lra. }
  rewrite <- Zle_Qle in C1, C2. lia.
Qed.
Lemma first_fits first l : in_field l -> (Qabs (fst (first_pos first l)) <= 16000)%Q /\ (Qabs (snd (first_pos first l)) <= 16000)%Q.
Proof.
  intros H. destruct l as [|s r]; [split; vm_compute; discriminate|]. inversion H; subst.
  destruct first; cbn [first_pos fst snd]; [split; vm_compute; discriminate|assumption].
Qed.
Lemma cut_block_small first l : in_field l -> Forall small (cut_block first l).
Proof.
  intros H. unfold cut_block. destruct (first_fits first l H) as [F1 F2]. destruct (field_pos l H) as [P1 P2].
  set (fx := fst (first_pos first l)) in *. set (fy := snd (first_pos first l)) in *.
  pose proof (put_x_bound fx F1). pose proof (put_y_bound fy F2).
  assert (D : forall a b, (Qabs a <= 16000)%Q -> (Qabs b <= 16000)%Q -> Z.abs (q_cut (a - b)) <= 32001).
  { intros a b Ha Hb. apply step_fits; [exact Ha|]. apply Qle_trans with 16000%Q; [exact Hb|vm_compute; discriminate]. }
  pose proof (D _ _ P1 F1). pose proof (D _ _ P2 F2).
  pose proof (put_x_near fx) as N1. pose proof (put_y_near fy) as N2.
  apply steps_small; [exact H| | | | |lia|lia].
  - apply Qlt_le_weak. apply Qlt_trans with 2%Q; [exact N1|reflexivity].
  - apply Qlt_le_weak. apply Qlt_trans with 2%Q; [exact N2|reflexivity].
  - apply Qle_trans with 16000%Q; [exact F1|vm_compute; discriminate].
  - apply Qle_trans with 16000%Q; [exact F2|vm_compute; discriminate].
Qed.

Lemma cut_steps : forall bs i first, in_field (concat (map fst bs)) -> shape i first bs ->
  (first = false -> forall px py, vp3_steps px py (concat (map fst (cut_blocks false bs)))) /\
  (first = true -> vp3_steps 0 0 (concat (map fst (cut_blocks true bs)))).
Proof.
  induction bs as [|[b t] r IH]; intros i first Hf Hs; [split; intros; exact I|].
  cbn [shape] in Hs. destruct Hs as (_ & Hh & Hu & Hc & Hp & Hr). cbn [map fst concat] in Hf. destruct (field_app _ _ Hf) as [Fb Fr].
  destruct (IH (i + 1) false Fr Hr) as [IH' _]. specialize (IH' eq_refl). cbn [cut_blocks map fst concat].
  assert (L : forall q, (Qabs q <= 16000)%Q -> (Qabs q <= 16001)%Q).
  { intros q Hq. apply Qle_trans with 16000%Q; [exact Hq|vm_compute; discriminate]. }
  split; intros ->.
  - intros px py. destruct Hh as (s & b' & -> & Hs). rewrite (cut_block_false s b' Hs). cbn [app vp3_steps scmd sx sy].
    right; right; left. split; [exact Hs|]. inversion Fb as [|? ? [F1 F2] Fb']; subst. cbn [inner tl] in Hu. unfold change in Hs.
    apply steps_ok; [exact Fb'|apply L; exact F1|apply L; exact F2|exact Hu| |].
    + cbn [vp3_commands] in Hc. destruct Hc as [[_ Hc]|[Hc _]]; [exact Hc|]. rewrite Hs in Hc. discriminate Hc.
    + destruct Hp as [->|Hp]; [left; reflexivity|right; split; [inversion Hp; assumption|exact IH']].
  - unfold cut_block. assert (F0 : first_pos true b = (0%Q, 0%Q)) by (destruct b; reflexivity). rewrite F0. cbn [fst snd].
    rewrite put_x_zero, put_y_zero.
    apply steps_ok; [exact Fb|vm_compute; discriminate|vm_compute; discriminate|exact Hu|exact Hc|].
    destruct Hp as [->|Hp]; [left; reflexivity|right; split; [exact Hp|exact IH']].
Qed.
Lemma cut_small : forall bs first, in_field (concat (map fst bs)) -> Forall small (concat (map fst (cut_blocks first bs))).
Proof.
  induction bs as [|[b t] r IH]; intros first Hf; [constructor|]. cbn [map fst concat cut_blocks] in *. destruct (field_app _ _ Hf) as [Fb Fr].
  apply Forall_app. split; [apply cut_block_small; exact Fb|apply IH; exact Fr].
Qed.

(** ** The integer design is near *)
Lemma coloured_plain {C} : forall (a : list (stitch C)) n b, unchanged a -> coloured n (a ++ b) = coloured n a ++ coloured n b.
Proof.
  induction a as [|s a IH]; intros n b H; [reflexivity|]. inversion H as [|? ? Hs Ha]; subst. cbn [app coloured].
  assert (E : is_cmd COLOR_CHANGE s = false) by (unfold is_cmd; apply Z.eqb_neq; exact Hs). rewrite E, IH by exact Ha.
  destruct (is_cmd STITCH s); reflexivity.
Qed.
Definition offset_by (d : Q * Q) (a : nat * (Q * Q)) (b : nat * (Z * Z)) : Prop := kept_with (fun _ => d) a b.
Lemma steps_near : forall l lx ly ax ay ex ey n d, unchanged l -> vp3_commands l ->
  (inject_Z ax - lx == fst d)%Q -> (inject_Z ay - ly == snd d)%Q ->
  Forall2 (offset_by d) (coloured n l) (coloured n (steps_q lx ly ax ay ex ey l)).
Proof.
  induction l as [|s r IH]; intros lx ly ax ay ex ey n d Hu Hc D1 D2; [constructor|].
  inversion Hu as [|? ? U Hu']; subst. cbn [vp3_commands] in Hc. cbn [steps_q].
  assert (E : is_cmd COLOR_CHANGE s = false) by (unfold is_cmd; apply Z.eqb_neq; exact U).
  destruct Hc as [[Hc Hc']|[Hc ->]].
  - assert (E1 : cmd_of (scmd s) =? END = false).
    { apply Z.eqb_neq. intros X. rewrite X in Hc. unfold vp3_command in Hc. cbn [In] in Hc. repeat (destruct Hc as [Hc|Hc]; [discriminate Hc|]). destruct Hc. }
    rewrite E1. cbn [coloured]. rewrite E. change (is_cmd STITCH s) with (cmd_of (scmd s) =? STITCH).
    destruct (cmd_of (scmd s) =? STITCH) eqn:E2; cbv zeta; cbn [coloured].
    + change (is_cmd COLOR_CHANGE (mkS (ax + q_cut (sx s - lx)) (ay + q_cut (sy s - ly)) (scmd s))) with (is_cmd COLOR_CHANGE s). rewrite E.
      change (is_cmd STITCH (mkS (ax + q_cut (sx s - lx)) (ay + q_cut (sy s - ly)) (scmd s))) with (cmd_of (scmd s) =? STITCH). rewrite E2. cbn [sx sy].
      constructor.
      * unfold offset_by, kept_with. cbn [fst snd]. split; [reflexivity|]. pose proof (q_cut_near (sx s - lx)). pose proof (q_cut_near (sy s - ly)).
        rewrite !inject_Z_plus. split; apply Qabs_Qlt_condition; split; Lqa.lra.
      * apply IH; [exact Hu'|exact Hc'| |]; rewrite inject_Z_plus; Lqa.lra.
    + change (is_cmd COLOR_CHANGE (mkS ax ay (scmd s))) with (is_cmd COLOR_CHANGE s). rewrite E.
      change (is_cmd STITCH (mkS ax ay (scmd s))) with (cmd_of (scmd s) =? STITCH). rewrite E2. apply IH; assumption.
  - rewrite Hc. cbn [Z.eqb Pos.eqb END coloured]. rewrite E. change (is_cmd COLOR_CHANGE (mkS ex ey (scmd s))) with (is_cmd COLOR_CHANGE s). rewrite E.
    change (is_cmd STITCH s) with (cmd_of (scmd s) =? STITCH). change (is_cmd STITCH (mkS ex ey (scmd s))) with (cmd_of (scmd s) =? STITCH).
    rewrite Hc. constructor.
Qed.
Lemma kept_from dr dr' n l l' : Forall2 (kept_with dr) l l' -> Forall (fun a => (n <= fst a)%nat) l -> (forall k, (n <= k)%nat -> dr k = dr' k) ->
  Forall2 (kept_with dr') l l'.
Proof.
  induction 1 as [|a b l l' H H2 IH]; intros Hn E; [constructor|]. inversion Hn; subst. constructor; [|apply IH; assumption].
  unfold kept_with in *. rewrite <- E by assumption. exact H.
Qed.
Lemma coloured_from {C} : forall (l : list (stitch C)) n, Forall (fun a => (n <= fst a)%nat) (coloured n l).
Proof.
  induction l as [|s r IH]; intros n; [constructor|]. cbn [coloured]. destruct (is_cmd COLOR_CHANGE s).
  - eapply Forall_impl; [|apply IH]. cbn beta. intros; lia.
  - destruct (is_cmd STITCH s); [constructor; [cbn; lia|]|]; apply IH.
Qed.
Lemma offset_all d dr n l l' : Forall2 (offset_by d) l l' -> Forall (fun a => fst a = n) l -> dr n = d -> Forall2 (kept_with dr) l l'.
Proof.
  intros H. induction H as [|a b l l' H H2 IH]; intros Hn E; [constructor|]. inversion Hn; subst. constructor; [|apply IH; auto].
  unfold offset_by, kept_with in *. cbn beta in *. exact H.
Qed.
Lemma coloured_one {C} : forall (l : list (stitch C)) n, unchanged l -> Forall (fun a => fst a = n) (coloured n l).
Proof.
  induction l as [|s r IH]; intros n H; [constructor|]. inversion H as [|? ? Hs Hr]; subst. cbn [coloured].
  assert (E : is_cmd COLOR_CHANGE s = false) by (unfold is_cmd; apply Z.eqb_neq; exact Hs). rewrite E.
  destruct (is_cmd STITCH s); [constructor; [reflexivity|]|]; apply IH; exact Hr.
Qed.
Lemma cut_near_false : forall bs i n, shape i false bs -> exists dr, (forall k, below_two (dr k)) /\
  Forall2 (kept_with dr) (coloured n (concat (map fst bs))) (coloured n (concat (map fst (cut_blocks false bs)))).
Proof.
  induction bs as [|[b t] r IH]; intros i n Hs.
  - exists (fun _ => (0%Q, 0%Q)). split; [intros k; split; reflexivity|constructor].
  - cbn [shape] in Hs. destruct Hs as (_ & Hh & Hu & Hc & _ & Hr). destruct Hh as (s & b' & -> & Hs). cbn [inner tl] in Hu.
    destruct (IH _ (S n) Hr) as (dr & D1 & D2). cbn [cut_blocks map fst concat]. rewrite (cut_block_false s b' Hs).
    set (d := (inject_Z (put_x (sx s)) - sx s, inject_Z (put_y (sy s)) - sy s)%Q).
    exists (fun k => if (k =? S n)%nat then d else dr k).
    (* sections after this one *)
    cbn [app coloured]. assert (E : is_cmd COLOR_CHANGE s = true) by (unfold is_cmd; apply Z.eqb_eq; exact Hs). rewrite E.
    change (is_cmd COLOR_CHANGE (mkS (put_x (sx s)) (put_y (sy s)) (scmd s))) with (is_cmd COLOR_CHANGE s). rewrite E.
    rewrite !coloured_plain by (try exact Hu; apply steps_unchanged; exact Hu).
    assert (Hc' : vp3_commands b').
    { cbn [vp3_commands] in Hc. destruct Hc as [[_ Hc]|[Hc _]]; [exact Hc|]. unfold change in Hs. rewrite Hs in Hc. discriminate Hc. }
    split.
    + intros k. destruct (k =? S n)%nat; [split; [apply put_x_near|apply put_y_near]|apply D1].
    + apply Forall2_app.
      * eapply offset_all with (d := d) (n := S n); [apply steps_near; [exact Hu|exact Hc'|reflexivity|reflexivity]|apply coloured_one; exact Hu|].
        rewrite Nat.eqb_refl. reflexivity.
      * destruct r as [|[b2 t2] r2]; [constructor|].
        cbn [shape] in Hr. destruct Hr as (_ & (s2 & b2' & -> & Hs2) & _).
        eapply kept_from with (n := S (S n)); [exact D2| |].
        -- cbn [map fst concat app coloured]. assert (E2 : is_cmd COLOR_CHANGE s2 = true) by (unfold is_cmd; apply Z.eqb_eq; exact Hs2). rewrite E2. apply coloured_from.
        -- intros k Hk. destruct (Nat.eqb_spec k (S n)); [lia|reflexivity].
Qed.
Lemma cut_near : forall bs, shape 0 true bs -> exists dr, dr 0%nat = (0%Q, 0%Q) /\ (forall k, below_two (dr k)) /\
  Forall2 (kept_with dr) (coloured 0 (concat (map fst bs))) (coloured 0 (concat (map fst (cut_blocks true bs)))).
Proof.
  intros [|[b t] r] Hs.
  - exists (fun _ => (0%Q, 0%Q)). split; [reflexivity|]. split; [intros k; split; reflexivity|constructor].
  - cbn [shape] in Hs. destruct Hs as (_ & _ & Hu & Hc & _ & Hr). cbn [inner] in Hu.
    destruct (cut_near_false _ _ 0%nat Hr) as (dr & D1 & D2). cbn [cut_blocks map fst concat].
    exists (fun k => if (k =? 0)%nat then (0%Q, 0%Q) else dr k). split; [reflexivity|]. split.
    + intros k. destruct (k =? 0)%nat; [split; reflexivity|apply D1].
    + unfold cut_block. assert (F0 : first_pos true b = (0%Q, 0%Q)) by (destruct b; reflexivity). rewrite F0. cbn [fst snd].
      rewrite put_x_zero, put_y_zero.
      rewrite !coloured_plain by (try exact Hu; apply steps_unchanged; exact Hu). apply Forall2_app.
      * eapply offset_all with (d := (0%Q, 0%Q)) (n := 0%nat); [apply steps_near; [exact Hu|exact Hc|reflexivity|reflexivity]|apply coloured_one; exact Hu|reflexivity].
      * destruct r as [|[b2 t2] r2]; [constructor|].
        cbn [shape] in Hr. destruct Hr as (_ & (s2 & b2' & -> & Hs2) & _).
        eapply kept_from with (n := 1%nat); [exact D2| |].
        -- cbn [map fst concat app coloured]. assert (E2 : is_cmd COLOR_CHANGE s2 = true) by (unfold is_cmd; apply Z.eqb_eq; exact Hs2). rewrite E2. apply coloured_from.
        -- intros k Hk. destruct (Nat.eqb_spec k 0); [lia|reflexivity].
Qed.

(** Colour changes away from the axes stay away from them. *)
Definition off_change (s : stitch Z) : bool := negb (cmd_of (scmd s) =? COLOR_CHANGE) || off_axes (sx s) (sy s).
Lemma put_off : forall s, (2 <= Qabs (sx s))%Q -> (2 <= Qabs (sy s))%Q -> off_axes (put_x (sx s)) (put_y (sy s)) = true.
Proof.
  intros s H1 H2. unfold off_axes. pose proof (put_x_near (sx s)) as N1. pose proof (put_y_near (sy s)) as N2.
  apply andb_true_iff. split; apply negb_true_iff, Z.eqb_neq; intros X.
  - rewrite X in N1. apply (Qle_not_lt _ _ H1). setoid_replace (inject_Z 0 - sx s)%Q with (- sx s)%Q in N1 by (change (inject_Z 0) with 0%Q; ring).
    rewrite Qabs_opp in N1. exact N1.
  - rewrite X in N2. apply (Qle_not_lt _ _ H2). setoid_replace (inject_Z 0 - sy s)%Q with (- sy s)%Q in N2 by (change (inject_Z 0) with 0%Q; ring).
    rewrite Qabs_opp in N2. exact N2.
Qed.
Lemma unchanged_off : forall l, unchanged l -> forallb off_change l = true.
Proof. induction 1 as [|s l H _ IH]; [reflexivity|]. cbn [forallb]. unfold off_change at 1. apply Z.eqb_neq in H. rewrite H. exact IH. Qed.
Lemma cut_off : forall bs i first, shape i first bs -> changes_off_axes (concat (map fst bs)) ->
  forallb off_change (concat (map fst (cut_blocks first bs))) = true.
Proof.
  induction bs as [|[b t] r IH]; intros i first Hs Ho; [reflexivity|]. cbn [shape] in Hs. destruct Hs as (_ & Hh & Hu & _ & _ & Hr).
  cbn [map fst concat cut_blocks] in *. unfold changes_off_axes in Ho. apply Forall_app in Ho. destruct Ho as [Ho Ho'].
  rewrite forallb_app. apply andb_true_iff. split; [|eapply IH; eassumption].
  destruct first; [apply unchanged_off; unfold cut_block; apply steps_unchanged; exact Hu|].
  destruct Hh as (s & b' & -> & Hs). rewrite (cut_block_false s b' Hs). cbn [forallb].
  inversion Ho as [|? ? O _]; subst. destruct (O Hs). unfold off_change at 1. cbn [scmd sx sy]. rewrite put_off by assumption. rewrite orb_true_r. cbn [andb].
  apply unchanged_off, steps_unchanged. exact Hu.
Qed.
End Whole.

(** With the middle an integer nothing moves, except what stays behind on an axis. *)
Lemma drift_even c x : drift (2 * c) x = 0.
Proof. unfold drift. replace (2 * x - 2 * c) with (2 * (x - c)) by lia. rewrite !quot_double. lia. Qed.
Lemma exact_sections ux uy : forall l n px py, forallb off_change l = true -> vp3_steps px py l ->
  coloured n (any_view (2 * ux) (2 * uy) 0 0 px py l) = coloured n l.
Proof.
  induction l as [|s r IH]; intros n px py Ho H; [reflexivity|]. cbn [forallb] in Ho. apply andb_true_iff in Ho. destruct Ho as [Hs Ho].
  cbn [vp3_steps] in H. cbn [any_view coloured]. unfold is_cmd. change (Z.land (scmd s) 255) with (cmd_of (scmd s)).
  destruct H as [(Ec & _ & H) | [(Ec & H) | [(Ec & H) | (Ec & ->)]]].
  - rewrite Ec. cbn [Z.eqb Pos.eqb STITCH COLOR_CHANGE coloured]. unfold is_cmd. cbn [scmd sx sy]. change (Z.land STITCH 255 =? COLOR_CHANGE) with false. change (Z.land STITCH 255 =? STITCH) with true. cbn match. rewrite !Z.add_0_r. f_equal. apply IH; assumption.
  - destruct Ec as [Ec|Ec].
    + rewrite Ec. cbn [Z.eqb Pos.eqb STITCH COLOR_CHANGE TRIM]. apply IH; assumption.
    + destruct Ec as [Ec | [Ec | [Ec | [Ec | []]]]]; rewrite <- Ec; cbn [Z.eqb Pos.eqb STITCH COLOR_CHANGE TRIM END JUMP STOP SEQUIN_MODE SEQUIN_EJECT];
        apply IH; assumption.
  - rewrite Ec. cbn [Z.eqb Pos.eqb STITCH COLOR_CHANGE TRIM END].
    unfold off_change in Hs. rewrite Ec in Hs. cbn [Z.eqb Pos.eqb COLOR_CHANGE negb orb] in Hs.
    unfold jump_near, section_shift. rewrite !drift_even, !Z.add_0_r. cbv zeta. rewrite Hs. cbn [fst snd app].
    cbn [coloured]. unfold is_cmd. cbn [scmd sx sy]. change (Z.land COLOR_CHANGE 255 =? COLOR_CHANGE) with true. cbn match.
    change (Z.land JUMP 255 =? COLOR_CHANGE) with false. change (Z.land JUMP 255 =? STITCH) with false. cbn match.
    apply IH; assumption.
  - rewrite Ec. reflexivity.
Qed.

(** ** Whole files *)
Lemma blocks_q_threads {T} (get : Z -> T) : forall l i blk,
  map snd (vp3_blocks_q get i blk l) = map (fun k => get (i + Z.of_nat k)) (seq 0 (S (color_changes l))).
Proof.
  induction l as [|s r IH]; intros i blk.
  - cbn. rewrite Z.add_0_r. reflexivity.
  - cbn [vp3_blocks_q]. unfold color_changes. cbn [filter]. destruct (cmd_of (scmd s) =? COLOR_CHANGE).
    + cbn [map snd]. rewrite IH. fold (color_changes r). cbn [length]. fold (color_changes r).
      rewrite <- (cons_seq (S (color_changes r)) 0). cbn [map]. rewrite Z.add_0_r. f_equal.
      rewrite <- seq_shift, map_map. apply map_ext. intros k. f_equal. lia.
    + rewrite IH. reflexivity.
Qed.
Lemma cut_blocks_snd {T} cx cy : forall (bs : list (list (stitch Q) * T)) first, map snd (cut_blocks cx cy first bs) = map snd bs.
Proof. induction bs as [|[b t] r IH]; intros first; [reflexivity|]. cbn [cut_blocks map snd]. rewrite IH. reflexivity. Qed.
Lemma colorblocks_bytes cx cy get : forall bs i first, shape get i first bs ->
  vp3_colorblocks first (2 * q_cut cx) (2 * q_cut cy) (cut_blocks cx cy first bs) = vp3_colorblocks_q first cx cy bs.
Proof.
  induction bs as [|[b t] r IH]; intros i first H; [reflexivity|]. cbn [shape] in H. destruct H as (_ & Hh & _ & Hc & _ & Hr).
  cbn [cut_blocks vp3_colorblocks vp3_colorblocks_q]. rewrite cut_block_bytes by assumption.
  destruct (vp3_colorblock_q first cx cy b t); [|reflexivity]. cbn [bindr]. rewrite (IH (i + 1) false Hr). reflexivity.
Qed.
Lemma filler_texts {C} filler (l : list (stitch C)) threads : Forall plain_texts threads -> (forall i, plain_texts (filler i)) ->
  forall i, plain_texts (get_thread_or_filler filler (fix_color_count filler l threads) i).
Proof.
  intros Ht Hf i. unfold fix_color_count. rewrite PatternProofs.add_fillers_spec. unfold get_thread_or_filler.
  destruct (nth_error _ (Z.to_nat i)) as [t|] eqn:E; [|apply Hf]. apply nth_error_In in E. apply in_app_or in E. destruct E as [E|E].
  - rewrite Forall_forall in Ht. apply Ht. exact E.
  - apply in_map_iff in E. destruct E as (k & <- & _). apply Hf.
Qed.
Lemma bounds_field l : l <> [] -> in_field l -> exists x0 y0 x1 y1, bounds l = (Some x0, Some y0, Some x1, Some y1) /\
  (Qabs x0 <= 16000)%Q /\ (Qabs y0 <= 16000)%Q /\ (Qabs x1 <= 16000)%Q /\ (Qabs y1 <= 16000)%Q.
Proof.
  intros N F. pose proof (PatternProofs.bounds_covers l) as H. destruct (bounds l) as [[[x0 y0] x1] y1].
  unfold PatternProofs.covers in H. unfold in_field in F. rewrite Forall_forall in F.
  destruct x0 as [x0|], y0 as [y0|], x1 as [x1|], y1 as [y1|]; try contradiction.
  destruct H as (_ & (a & A1 & <-) & (b & B1 & <-) & (c & C1 & <-) & (d & D1 & <-)).
  exists (sx a), (sy b), (sx c), (sy d). split; [reflexivity|]. split; [apply (F a A1)|]. split; [apply (F b B1)|]. split; [apply (F c C1)|apply (F d D1)].
Qed.
Lemma middle_field a b : (Qabs a <= 16000)%Q -> (Qabs b <= 16000)%Q -> Z.abs (q_cut (b - (b - a) / 2)) <= 16000.
Proof.
  intros Ha Hb. apply q_cut_le. apply abs_le in Ha, Hb. apply Qabs_Qle_condition. change (inject_Z 16000) with (16000 # 1)%Q.
  split; unfold Qdiv; change (/ 2)%Q with (1 # 2)%Q; Lqa.lra.
Qed.

Lemma vp3_roundtrip_q filler threads p :
  p <> [] -> vp3_commands p -> in_field p ->
  Z.of_nat (color_changes p) < 65535 ->
  Forall plain_texts threads -> (forall i, plain_texts (filler i)) ->
  exists file cx cy bs, vp3_write_q filler p threads = Ok file /\
    bs = vp3_blocks_q (get_thread_or_filler filler (fix_color_count filler p threads)) 0 [] p /\
    (zlen file < 2 ^ 32 ->
     vp3_read file = Ok (in_hundredths (any_view (2 * q_cut cx) (2 * q_cut cy) 0 0 0 0 (concat (map fst (cut_blocks cx cy true bs)))),
                         map thread_kept (block_threads filler threads (S (color_changes p))))).
Proof.
  intros Hne Hc Hs Hn Ht Hf.
  destruct (bounds_field p Hne Hs) as (x0 & y0 & x1 & y1 & Ee & B1 & B2 & B3 & B4).
  unfold vp3_write_q. pose proof (filler_texts filler p threads Ht Hf) as Hget.
  set (get := get_thread_or_filler filler (fix_color_count filler p threads)) in *.
  destruct (blocks_shape get p 0 [] true) as [Sh Cat]; [exact I|constructor|exact Hc|]. cbn [app] in Cat.
  assert (Bn : vp3_blocks_q get 0 [] p <> []).
  { intros E. pose proof (blocks_q_threads get p 0 []) as X. rewrite E in X. discriminate X. }
  set (bs := vp3_blocks_q get 0 [] p) in *.
  unfold vp3_file_q. rewrite Ee. unfold vp3_design_block_q.
  set (cx := (x1 - (x1 - x0) / 2)%Q). set (cy := (y1 - (y1 - y0) / 2)%Q). cbv zeta.
  pose proof (middle_field x0 x1 B1 B3) as Sx. fold cx in Sx. pose proof (middle_field y0 y1 B2 B4) as Sy. fold cy in Sy.
  set (p' := concat (map fst (cut_blocks cx cy true bs))).
  assert (Bl : vp3_blocks get 0 [] p' = cut_blocks cx cy true bs) by (apply blocks_cut; assumption).
  assert (St : vp3_steps 0 0 p').
  { refine (proj2 (cut_steps cx cy get bs 0 true _ Sh) eq_refl). rewrite Cat. exact Hs. }
  assert (Sm : Forall small p') by (refine (cut_small cx cy get bs true _); rewrite Cat; exact Hs).
  assert (F0 : section_shift (2 * q_cut cx) (2 * q_cut cy) 0 0 0 0 = (0, 0)) by (unfold section_shift; rewrite !drift_zero; reflexivity).
  assert (J0 : jump_near (2 * q_cut cx) (2 * q_cut cy) 0 0 = []) by (unfold jump_near; rewrite !drift_zero; reflexivity).
  destruct (read_blocks_any (2 * q_cut cx) (2 * q_cut cy) get ltac:(lia) ltac:(lia) Hget p' true [] [] 0 0 0 0 0 (0, 0)) as (cb & Ecb & Rcb);
    [repeat split|lia|lia|exact Sm|exact I|exact St|exact F0|].
  rewrite J0 in Rcb. cbn [app] in Ecb, Rcb.
  rewrite Bl in Ecb, Rcb. rewrite (colorblocks_bytes cx cy get bs 0 true Sh) in Ecb.
  assert (Tk : map (fun lt : list (stitch Z) * thread => thread_kept (snd lt)) (cut_blocks cx cy true bs)
               = map thread_kept (block_threads filler threads (S (color_changes p)))).
  { rewrite <- (map_map snd thread_kept), cut_blocks_snd. unfold bs. rewrite blocks_q_threads. f_equal. unfold block_threads. apply map_ext.
    intros k. unfold get, fix_color_count. rewrite add_fillers_get by lia. unfold get_thread_or_filler.
    cbn [Z.add]. rewrite Nat2Z.id. reflexivity. }
  assert (Ln : length bs = S (color_changes p)).
  { unfold bs. rewrite <- (map_length snd), blocks_q_threads, map_length, seq_length. reflexivity. }
  assert (Lc : length (cut_blocks cx cy true bs) = length bs) by apply blocks_length.
  rewrite Tk, Lc in Rcb.
  rewrite Ecb. cbn [bindr]. unfold patched.
  match goal with |- context [[0; 3; 0] ++ write_int_32be (zlen ?d) ++ _] => set (design := d) end.
  cbn [bindr].
  match goal with |- context [[0; 2; 0] ++ write_int_32be (zlen ?d) ++ _] => set (fbody := d) end.
  eexists. exists cx, cy, bs. split; [reflexivity|]. split; [reflexivity|]. fold p'. intros Hlen.
  assert (Hcb : zlen cb < 2 ^ 32).
  { pose proof (zlen_nonneg (vp3_string_16 produced)). revert Hlen. unfold fbody. rewrite !zlen_app.
    unfold design. rewrite !zlen_app. intros Hlen.
    repeat match type of Hlen with context [zlen ?x] =>
      lazymatch x with cb => fail | _ => let z := fresh "z" in pose proof (zlen_nonneg x); set (z := zlen x) in * end end.
    lia. }
  unfold vp3_read.
  change ([37; 118; 115; 109; 37] ++ write_int_8 0 ++ vp3_string_16 produced ++ [0; 2; 0] ++ write_int_32be (zlen fbody) ++ fbody)
    with ([37; 118; 115; 109; 37; 0] ++ vp3_string_16 produced ++ [0; 2; 0] ++ write_int_32be (zlen fbody) ++ fbody).
  rewrite s_read_app by reflexivity. rewrite skip_string_16 by reflexivity. cbn [bindr].
  rewrite (app_assoc [0; 2; 0]). rewrite s_seek_app by reflexivity.
  unfold fbody. rewrite skip_string_16 by reflexivity. cbn [bindr].
  match goal with |- context [s_seek 32 (?p, ?a ++ ?b ++ ?c ++ ?d ++ ?e ++ ?g ++ ?i ++ ?j ++ ?k ++ ?m ++ ?n ++ ?q ++ ?r)] =>
    replace (a ++ b ++ c ++ d ++ e ++ g ++ i ++ j ++ k ++ m ++ n ++ q ++ r) with
      ((a ++ b ++ c ++ d ++ e ++ g ++ i ++ j ++ k ++ m ++ n ++ q) ++ r) by (rewrite <- !app_assoc; reflexivity) end.
  rewrite s_seek_app by reflexivity.
  unfold design. rewrite s_32be. cbn [some bindr]. rewrite s_32be. cbn [some bindr].
  match goal with |- context [s_seek 27 (?p, ?a ++ ?b ++ ?c ++ ?d ++ ?e ++ ?g ++ ?i ++ ?r)] =>
    replace (a ++ b ++ c ++ d ++ e ++ g ++ i ++ r) with
      ((a ++ b ++ c ++ d ++ e ++ g ++ i) ++ r) by (rewrite <- !app_assoc; reflexivity) end.
  rewrite s_seek_app by reflexivity.
  rewrite skip_string_16 by reflexivity. cbn [bindr].
  match goal with |- context [s_seek 24 (?p, ?a ++ ?b ++ ?c ++ ?d ++ ?e ++ ?g ++ ?r)] =>
    replace (a ++ b ++ c ++ d ++ e ++ g ++ r) with
      ((a ++ b ++ c ++ d ++ e ++ g) ++ r) by (rewrite <- !app_assoc; reflexivity) end.
  rewrite s_seek_app by reflexivity.
  rewrite skip_string_16 by reflexivity. cbn [bindr].
  rewrite s_16be. cbn [some bindr].
  rewrite (Z.mod_small (zlen bs)) by (unfold zlen; rewrite Ln; change (2 ^ 16) with 65536; lia).
  unfold zlen at 1. rewrite Nat2Z.id.
  rewrite !signed32_small by lia.
  rewrite !quot_double in Rcb.
  replace (q_cut cx * 100) with (100 * q_cut cx) by lia. replace (- (q_cut cy * -100)) with (100 * q_cut cy) by lia.
  rewrite <- (app_nil_r cb).
  destruct (Rcb Hcb (0 + 6 + 2 + 2 * zlen produced + 7 + 2 + 2 * zlen (@nil Z) + 32 + 4 + 4 + 27 + 2 + 2 * zlen (@nil Z) + 24 + 2 + 2 * zlen produced + 2)
              [] [] []) as (o & R1 & R2).
  change (100 * 0) with 0 in R1. cbn [app] in R1. rewrite R1. cbn [bindr].
  rewrite R2. cbn [block_view shifted map app fst snd block_last]. reflexivity.
Qed.

Lemma kept_put dr sh l m : Forall2 (kept_with dr) l m ->
  Forall2 (kept_with (fun k => (fst (dr k) + inject_Z (fst (sh k)), snd (dr k) + inject_Z (snd (sh k)))%Q)) l (map (put_by sh) m).
Proof.
  induction 1 as [|a b l m H _ IH]; [constructor|]. cbn [map]. constructor; [|exact IH]. destruct H as (E & H1 & H2).
  unfold kept_with, put_by in *. cbn [fst snd]. rewrite <- E. split; [reflexivity|]. apply abs_lt in H1, H2. rewrite !inject_Z_plus.
  split; apply Qabs_Qlt_condition; split; Lqa.lra.
Qed.
Lemma vp3_sections_q filler threads p :
  p <> [] -> vp3_commands p -> in_field p ->
  Z.of_nat (color_changes p) < 65535 ->
  Forall plain_texts threads -> (forall i, plain_texts (filler i)) ->
  exists file, vp3_write_q filler p threads = Ok file /\
    (zlen file < 2 ^ 32 -> exists l dr,
     vp3_read file = Ok (in_hundredths l, map thread_kept (block_threads filler threads (S (color_changes p)))) /\
     dr 0%nat = (0%Q, 0%Q) /\
     Forall2 (kept_with dr) (coloured 0 p) (coloured 0 l) /\
     (changes_off_axes p -> forall k, below_two (dr k))).
Proof.
  intros Hne Hc Hs Hn Ht Hf. destruct (vp3_roundtrip_q filler threads p Hne Hc Hs Hn Ht Hf) as (file & cx & cy & bs & W & Eb & R).
  exists file. split; [exact W|]. intros L. specialize (R L). set (get := get_thread_or_filler filler (fix_color_count filler p threads)) in *.
  destruct (blocks_shape get p 0 [] true) as [Sh Cat]; [exact I|constructor|exact Hc|]. cbn [app] in Cat. rewrite <- Eb in Sh, Cat.
  destruct (cut_near cx cy get bs Sh) as (dr & D0 & D1 & D2). rewrite Cat in D2.
  set (p' := concat (map fst (cut_blocks cx cy true bs))) in *.
  assert (St : vp3_steps 0 0 p').
  { refine (proj2 (cut_steps cx cy get bs 0 true _ Sh) eq_refl). rewrite Cat. exact Hs. }
  eexists. destruct (forallb off_change p') eqn:Eo.
  - exists dr. split; [exact R|]. split; [exact D0|]. split; [|intros _; exact D1]. rewrite exact_sections by assumption. exact D2.
  - destruct (any_sections (2 * q_cut cx) (2 * q_cut cy) p' 0%nat 0 0 0 0 St) as (sh & S1 & S2 & _).
    exists (fun k => if (k =? 0)%nat then (0%Q, 0%Q) else (fst (dr k) + inject_Z (fst (sh k)), snd (dr k) + inject_Z (snd (sh k)))%Q).
    split; [exact R|]. split; [reflexivity|]. split.
    + rewrite S2. pose proof (kept_put dr sh _ _ D2) as K. clear -K D0 S1.
      induction K as [|a b l m H _ IH]; constructor; [|exact IH]. unfold kept_with in *. cbn beta in *.
      destruct (Nat.eqb_spec (fst a) 0) as [E|E]; [|exact H]. rewrite E, D0, S1 in H. cbn [fst snd] in *.
      destruct H as (H0 & H1 & H2). split; [congruence|]. change (inject_Z 0) with 0%Q in *. apply abs_lt in H1, H2.
      split; apply Qabs_Qlt_condition; split; Lqa.lra.
    + intros O. rewrite <- Cat in O. pose proof (cut_off cx cy get bs 0 true Sh O) as X. fold p' in X. congruence.
Qed.
