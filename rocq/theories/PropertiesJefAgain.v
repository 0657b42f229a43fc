(** Property C203: saving a loaded JEF file again and again. *)
From Coq Require Import ZArith QArith Qabs List Bool Lia Lqa.
From Verif Require Import PyBase EmbConst StreamModel HelperModel StreamSpec StreamProofs FunctionsModel ThreadModel PropertiesThread NumModel NumQ
  MatrixModel EncoderModel EncoderProofs EncoderSpec EncoderColorSpec MetricSpec EncoderMetricProofs QuantModel QuantProofs PatternModel
  DstFileModel JefModel JefSpec JefProofs JefFileModel JefThreads JefWriteModel BlockFileSpec PropertiesFormats PropertiesEncoder SettingsModel PropertiesSettings
  PropertiesPipeline PropertiesColor PropertiesFidelity PropertiesBlockFiles ConvertSpec PropertiesConvert ResaveSpec EncoderSettleProofs EncoderAgainProofs PropertiesResave
  PropertiesDstAgain EqualProofs PropertiesJefColors DstAnyProofs ConvertProofs JefAgainSpec JefAgainProofs JefSettleProofs EncoderApproachProofs.
Import ListNotations.
Open Scope Z_scope.
Notation walk := (representable 127 [STITCH; JUMP] [TRIM; COLOR_CHANGE; STOP; END]).

(** ** The palette *)
Lemma near_entry : forall missing n u, nth_error jef_threads n = Some (Some u) -> jef_near (jef_thread_of missing (Z.of_nat n)) = Z.of_nat n.
Proof.
  intros missing n u E. rewrite (thread_of_entry missing n u E). destruct (near_spec u) as (i & v & -> & Ev & [Iv M]). f_equal.
  assert (Iu : In (Some u) jef_threads) by exact (nth_error_In _ _ E). specialize (M u Iu).
  assert (D : forall a b, 0 <= colour_distance a b /\ (colour_distance a b = 0 <-> rgb a = rgb b)) by exact (proj1 (proj2 (proj2 (C41_nearest_minimum 0 [])))).
  assert (D0 : colour_distance (t_color u) (t_color u) = 0) by (apply D; reflexivity).
  pose proof (D (t_color u) (t_color v)) as [D1 D2].
  assert (v = u) by (apply table_rgb; [exact Iv|exact Iu|symmetry; apply D2; lia]). subst v.
  pose proof table_colours as ND. rewrite NoDup_nth_error in ND. apply ND.
  - rewrite map_length. apply nth_error_Some. rewrite Ev. discriminate.
  - rewrite !nth_error_map, Ev, E. reflexivity.
Qed.
Definition entry (n : Z) : Prop := exists i u, n = Z.of_nat i /\ nth_error jef_threads i = Some (Some u).
Lemma numbers_entries : forall last ts numbers, jef_numbers thread_eqb jef_near jef_near2 last ts numbers -> Forall entry numbers.
Proof.
  intros last ts numbers H. induction H as [|last t ts i r Hi _ IH]; constructor; [|exact IH].
  assert (A : entry (jef_near t)) by (destruct (near_spec t) as (j & u & -> & E & _); exists j, u; auto).
  assert (B : entry (jef_near2 t (jef_near t))) by (destruct (near2_spec t (jef_near t)) as (j & u & -> & E & _); exists j, u; auto).
  subst i. destruct last as [[n u]|]; [|exact A]. destruct (_ && _); assumption.
Qed.
Lemma numbers_again : forall missing numbers last numbers', Forall entry numbers ->
  match last with Some (n, t) => t = jef_thread_of missing n | None => True end ->
  jef_numbers thread_eqb jef_near jef_near2 last (map (jef_thread_of missing) numbers) numbers' -> numbers' = numbers.
Proof.
  intros missing. induction numbers as [|n numbers IH]; intros last numbers' H L J; inversion J as [|? ? ? i r Hi Hr]; subst; [reflexivity|].
  apply Forall_cons_iff in H. destruct H as [(j & u & -> & E) H].
  assert (X : match last with Some (n, u) => if (n =? jef_near (jef_thread_of missing (Z.of_nat j))) && negb (thread_eqb u (jef_thread_of missing (Z.of_nat j)))
      then jef_near2 (jef_thread_of missing (Z.of_nat j)) (jef_near (jef_thread_of missing (Z.of_nat j))) else jef_near (jef_thread_of missing (Z.of_nat j))
      | None => jef_near (jef_thread_of missing (Z.of_nat j)) end = Z.of_nat j).
  { rewrite (near_entry missing j u E). destruct last as [[n t]|]; [|reflexivity]. destruct (Z.eqb_spec n (Z.of_nat j)) as [e|_]; [|reflexivity].
    subst n t. pose proof (same_refl (jef_thread_of missing (Z.of_nat j))) as S. unfold same in S. rewrite S. reflexivity. }
  rewrite X in *. f_equal. refine (IH _ _ H _ Hr). reflexivity.
Qed.

(** ** The sizes *)
Definition covers (b : sides) (x y : Q) : Prop := forall c, bounds_step b (mkS x y c) = b.
Lemma step_covers : forall b s, covers (bounds_step b s) (sx s) (sy s).
Proof.
  intros [[[x0 y0] x1] y1] s c. unfold bounds_step. cbn [sx sy].
  assert (A : forall v m, above v (if above v m then Some v else m) = false \/ (if above v (if above v m then Some v else m) then Some v else if above v m then Some v else m) = (if above v m then Some v else m)).
  { intros v m. destruct (above v m) eqn:E; [right; destruct (above v (Some v)); reflexivity|left; exact E]. }
  assert (A' : forall v m, (if above v (if above v m then Some v else m) then Some v else if above v m then Some v else m) = (if above v m then Some v else m)).
  { intros v m. destruct (A v m) as [H|H]; [rewrite H; reflexivity|exact H]. }
  assert (B' : forall v m, (if below v (if below v m then Some v else m) then Some v else if below v m then Some v else m) = (if below v m then Some v else m)).
  { intros v m. destruct (below v m) eqn:E; [destruct (below v (Some v)); reflexivity|rewrite E; reflexivity]. }
  rewrite !A', !B'. reflexivity.
Qed.
Lemma bounds_untrimmed : forall l px py b, walk px py l -> (covers b (inject_Z px) (inject_Z py) \/ match l with a :: _ => cmd_of (scmd a) <> TRIM | [] => True end) ->
  fold_left bounds_step (map of_int l) b = fold_left bounds_step (map of_int (untrimmed l)) b.
Proof.
  induction l as [|a l IH]; intros px py b W C; [reflexivity|]. cbn [representable] in W. destruct W as [W1 W2].
  cbn [map fold_left untrimmed filter]. fold (untrimmed l).
  assert (S : fold_left bounds_step (map of_int l) (bounds_step b (of_int a)) = fold_left bounds_step (map of_int (untrimmed l)) (bounds_step b (of_int a))).
  { apply (IH (sx a) (sy a)); [exact W2|]. left. exact (step_covers b (of_int a)). }
  rewrite S. destruct (Z.eqb_spec (cmd_of (scmd a)) TRIM) as [E|E]; [|reflexivity]. cbn [negb].
  destruct C as [C|C]; [|contradiction]. rewrite E in W1. destruct W1 as [[W1 _]|[_ [X Y]]]; [cbn in W1; intuition discriminate|].
  f_equal. unfold of_int. rewrite X, Y. apply C.
Qed.
Lemma bounds_some : forall l b, match b with (Some _, Some _, Some _, Some _) => True | _ => False end ->
  match fold_left bounds_step l b with (Some _, Some _, Some _, Some _) => True | _ => False end.
Proof.
  induction l as [|a l IH]; intros b H; [exact H|]. cbn [fold_left]. apply IH. destruct b as [[[[x0|] [y0|]] [x1|]] [y1|]]; try contradiction.
  unfold bounds_step. destruct (above _ _), (below _ _), (above _ _), (below _ _); exact I.
Qed.

(** ** What the writer sees *)
Definition jef_points (l : list (stitch Z)) : Z := 1 + jef_point_count false 0 (map (fun s => cmd_of (scmd s)) l).
Lemma points_untrimmed : forall n l, jef_point_count false n (map (fun s : stitch Z => cmd_of (scmd s)) l) = jef_point_count false 0 (map (fun s => cmd_of (scmd s)) (untrimmed l)).
Proof.
  intros n. induction l as [|a l IH]; [reflexivity|]. cbn [map jef_point_count untrimmed filter]. fold (untrimmed l).
  destruct (Z.eqb_spec (cmd_of (scmd a)) TRIM) as [E|E]; cbn [negb].
  - rewrite E. change (TRIM =? STITCH) with false. change (TRIM =? JUMP) with false. change (TRIM =? TRIM) with true. cbv iota. exact IH.
  - cbn [map jef_point_count]. rewrite IH. apply Z.eqb_neq in E. rewrite E. reflexivity.
Qed.
Lemma quantise_cons : forall a l px py, quantise qz_int px py (a :: l) = mkS (sx a - px) (sy a - py) (scmd a) :: quantise qz_int (sx a) (sy a) l.
Proof. intros a l px py. cbn [quantise]. unfold qz_int. f_equal. replace (px + (sx a - px)) with (sx a) by lia. replace (py + (sy a - py)) with (sy a) by lia. reflexivity. Qed.
Lemma body_untrimmed : forall n l px py, walk px py l -> jef_loop false n (quantise qz_int px py l) = jef_loop false 0 (quantise qz_int px py (untrimmed l)).
Proof.
  intros n. induction l as [|a l IH]; intros px py W; [reflexivity|]. cbn [representable] in W. destruct W as [W1 W2].
  cbn [untrimmed filter]. fold (untrimmed l). rewrite quantise_cons. specialize (IH (sx a) (sy a) W2).
  destruct (Z.eqb_spec (cmd_of (scmd a)) TRIM) as [E|E]; cbn [negb].
  - cbn [jef_loop scmd]. rewrite E. change (TRIM =? STITCH) with false. change ((TRIM =? COLOR_CHANGE) || (TRIM =? STOP)) with false. change (TRIM =? TRIM) with true. cbv iota. cbn [app].
    rewrite IH. rewrite E in W1. destruct W1 as [[W1 _]|[_ [X Y]]]; [cbn in W1; intuition discriminate|]. rewrite X, Y. reflexivity.
  - rewrite quantise_cons. cbn [jef_loop scmd sx sy]. rewrite IH. apply Z.eqb_neq in E. rewrite E. reflexivity.
Qed.
Lemma body_kinds : forall n out l, same_commands out l -> forall xx yy, jef_loop false n (quantise qz_q xx yy out) = jef_loop false n (quantise qz_int xx yy l).
Proof.
  intros n out l H. induction H as [|a b out l (H1 & H2 & H3) _ IH]; intros xx yy; [reflexivity|]. cbn [quantise jef_loop scmd sx sy]. rewrite H1, H2, H3, !qz_q_int, IH. reflexivity.
Qed.

Lemma palette_untrimmed : forall l last tog rest, jef_palette thread_eqb jef_near jef_near2 last tog rest true (map (fun s : stitch Z => cmd_of (scmd s)) l) =
  jef_palette thread_eqb jef_near jef_near2 last tog rest true (map (fun s => cmd_of (scmd s)) (untrimmed l)).
Proof.
  induction l as [|a l IH]; intros last tog rest; [reflexivity|]. cbn [map untrimmed filter]. fold (untrimmed l).
  destruct (Z.eqb_spec (cmd_of (scmd a)) TRIM) as [E|E]; cbn [negb].
  - cbn [jef_palette]. rewrite E. cbn. apply IH.
  - cbn [map jef_palette]. destruct (_ || _); [destruct rest as [|t rest]; [reflexivity|]; rewrite !IH; reflexivity|]. rewrite !IH. reflexivity.
Qed.
Lemma palette_whole : forall threads (l : list (stitch Z)), match l with a :: _ => cmd_of (scmd a) <> TRIM | [] => True end ->
  jef_write_palette thread_eqb jef_near jef_near2 threads l = jef_write_palette thread_eqb jef_near jef_near2 threads (untrimmed l).
Proof.
  intros threads [|a l] H; [reflexivity|]. unfold jef_write_palette. cbn [untrimmed filter]. fold (untrimmed l). apply Z.eqb_neq in H. rewrite H. cbn [negb map jef_palette orb].
  rewrite orb_true_r. destruct threads as [|t rest]; [reflexivity|]. destruct (cmd_of (scmd a) =? STOP); rewrite (palette_untrimmed l); reflexivity.
Qed.
Lemma palette_numbers : forall cmds li lt rest p,
  Forall (fun c => c <> STOP) cmds -> jef_palette thread_eqb jef_near jef_near2 (Some (li, lt)) false rest true cmds = Ok p ->
  List.length (filter (fun c => c =? COLOR_CHANGE) cmds) = List.length rest ->
  jef_numbers thread_eqb jef_near jef_near2 (Some (li, lt)) rest p.
Proof.
  induction cmds as [|c cmds IH]; intros li lt rest p Hs H L; cbn [jef_palette] in H.
  { injection H as <-. destruct rest; [constructor|discriminate]. }
  inversion Hs as [|? ? Hc Hs']; subst. cbn [filter] in L. rewrite orb_false_r in H.
  destruct (c =? COLOR_CHANGE).
  - destruct rest as [|t rest]; [discriminate|]. apply Z.eqb_neq in Hc. rewrite Hc in H.
    set (i := if (li =? jef_near t) && negb (thread_eqb lt t) then jef_near2 t (jef_near t) else jef_near t) in *.
    destruct (jef_palette _ _ _ _ _ _ _ _) as [q|] eqn:Eq in H; cbn [bindr] in H; [|discriminate]. injection H as <-.
    cbn [List.length] in L. injection L as L. specialize (IH i t rest q Hs' Eq L). econstructor; [reflexivity|exact IH].
  - apply Z.eqb_neq in Hc. rewrite Hc in H. eapply IH; eauto.
Qed.

(** ** What a plain file holds *)
Definition changes (l : list (stitch Z)) : nat := List.length (filter (fun s => cmd_of (scmd s) =? COLOR_CHANGE) l).
Record plain_body (b : list (stitch Z)) : Prop := mkPlain {
  p_three : Forall three b;
  p_walk : walk 0 0 b;
  p_sews : sews_first b;
  p_changes : Z.of_nat (changes b) < 2 ^ 27 }.
Definition last_of (b : list (stitch Z)) : stitch Z := let '(x, y) := needle_after 0 0 b in mkS x y END.
Lemma closed_last : forall b, closed b = b ++ [last_of b].
Proof. intros b. unfold closed, last_of. destruct (needle_after 0 0 b). reflexivity. Qed.
Lemma last_end : forall b, scmd (last_of b) = END.
Proof. intros b. unfold last_of. destruct (needle_after 0 0 b). reflexivity. Qed.
Lemma walk_closed : forall b, walk 0 0 b -> walk 0 0 (closed b).
Proof.
  intros b W. unfold closed. pose proof (walk_app b) as A. destruct (needle_after 0 0 b) as [x y] eqn:E. apply A; [exact W|]. rewrite E. cbn [representable scmd sx sy].
  split; [|exact I]. right. split; [cbn; auto|auto].
Qed.
Lemma walk_last : forall a b, walk 0 0 a -> needle_after 0 0 a = needle_after 0 0 b -> walk 0 0 (a ++ [last_of b]).
Proof. intros a b W E. unfold last_of. rewrite <- E. change (walk 0 0 (a ++ [last_of a])). rewrite <- closed_last. exact (walk_closed a W). Qed.
Lemma passed_end : forall dist l e tr r px py, scmd e = END -> passed dist tr r px py (l ++ [e]) = passed dist tr r px py l ++ [e].
Proof.
  intros dist l e. induction l as [|s l IH]; intros tr r px py He; cbn [app passed].
  - rewrite He. reflexivity.
  - destruct (cmd_of (scmd s) =? JUMP).
    + destruct (match r with Some v => v | None => _ end) as [[[x0 y0] m] J]. apply IH. exact He.
    + rewrite (IH _ _ _ _ He), <- app_assoc. reflexivity.
Qed.
Lemma approached_end : forall l e cut px py, scmd e = END -> approached cut px py (l ++ [e]) = approached cut px py l ++ [e].
Proof.
  intros l e. induction l as [|s l IH]; intros cut px py He; cbn [app approached].
  - rewrite He. change (cmd_of END =? TRIM) with false. change (cmd_of END =? STITCH) with false. rewrite !andb_false_r. reflexivity.
  - rewrite (IH _ _ _ He), <- app_assoc. reflexivity.
Qed.
Lemma approached_first : forall l px py, match approached true px py l with a :: _ => cmd_of (scmd a) <> TRIM | [] => True end.
Proof.
  induction l as [|s l IH]; intros px py; [exact I|]. cbn [approached andb].
  destruct (Z.eqb_spec (cmd_of (scmd s)) TRIM) as [E|E].
  - cbn [app]. replace (cut_by true (scmd s)) with true; [apply IH|]. unfold cut_by. rewrite E. reflexivity.
  - destruct (_ && _); [discriminate|]. exact E.
Qed.
Lemma kept_changes : forall a b, filter kept a = filter kept b -> changes a = changes b.
Proof. intros a b E. unfold changes. rewrite <- (changes_kept a), <- (changes_kept b), E. reflexivity. Qed.
Lemma kept_sews : forall a b, filter kept a = filter kept b -> sews_first b -> sews_first a.
Proof. intros a b E H. apply sews_kept. rewrite E. apply sews_kept. exact H. Qed.
Lemma plain_next : forall dist b, plain_body b -> plain_body (stored (interp dist b)) /\ needle_after 0 0 (stored (interp dist b)) = needle_after 0 0 b /\ filter kept (stored (interp dist b)) = filter kept b.
Proof.
  intros dist b [H1 H2 H3 H4]. destruct (generation dist b H1 H2) as (K1 & K2 & K3 & K4). split; [|auto].
  constructor; [exact K1|exact K2|exact (kept_sews _ _ K4 H3)|rewrite (kept_changes _ _ K4); exact H4].
Qed.

(** ** Writing and reading *)
Definition jef_file (date : list Z) (threads : list thread) (b : list (stitch Z)) : res (list Z) :=
  match bounds (map of_int (closed b)) with
  | (Some min_x, Some min_y, Some max_x, Some max_y) =>
      let w := q_round (max_x - min_x) in
      let h := q_round (max_y - min_y) in
      jef_write qz_int thread_eqb jef_near jef_near2 false 0 date w h (q_round (w # 2)) (q_round (h # 2)) threads (closed b)
  | _ => Err OverflowError
  end.
Lemma bounds_same : forall out l, same_commands out l -> forall b, fold_left bounds_step out b = fold_left bounds_step (map of_int l) b.
Proof.
  intros out l H. induction H as [|a c out l (H1 & H2 & _) _ IH]; intros b; [reflexivity|]. cbn [map fold_left]. rewrite IH. f_equal.
  unfold bounds_step. cbn [of_int sx sy]. rewrite H1, H2. reflexivity.
Qed.
Lemma commands_same : forall out l, same_commands out l -> map (fun s => cmd_of (scmd s)) out = map (fun s => cmd_of (scmd s)) l.
Proof. intros out l H. induction H as [|a c out l (_ & _ & H) _ IH]; [reflexivity|]. cbn [map]. rewrite H, IH. reflexivity. Qed.
Lemma untrimmed_end : forall l b, untrimmed (l ++ [last_of b]) = untrimmed l ++ [last_of b].
Proof. intros l b. rewrite untrimmed_app. f_equal. cbn [untrimmed filter]. rewrite last_end. reflexivity. Qed.
Lemma written_file : forall n date threads out b l, plain_body b -> Forall four l -> walk 0 0 l -> needle_after 0 0 l = needle_after 0 0 b ->
  same_commands out (approached true 0 0 l ++ [last_of b]) -> jef_write_file false n date threads out = jef_file date threads (stored l).
Proof.
  intros n date threads out b l P H4 W Hn K. destruct (approached_walk l true 0 0 H4 W) as (A1 & A2 & A3). destruct (untrimmed_walk _ 0 0 A3 A1) as (U1 & U2 & U3).
  fold (stored l) in U1, U2, U3. set (a := approached true 0 0 l) in *.
  assert (E : untrimmed (a ++ [last_of b]) = closed (stored l)).
  { assert (Hl : last_of (stored l) = last_of b) by (unfold last_of; rewrite U2, A2, Hn; reflexivity).
    rewrite untrimmed_end, closed_last, Hl. reflexivity. }
  assert (Wa : walk 0 0 (a ++ [last_of b])) by (apply walk_last; [exact A1|congruence]).
  assert (F : match a ++ [last_of b] with x :: _ => cmd_of (scmd x) <> TRIM | [] => True end).
  { pose proof (approached_first l 0 0) as F. fold a in F. destruct a; [cbn [app]; rewrite last_end; discriminate|exact F]. }
  unfold jef_write_file, jef_file, bounds. rewrite (bounds_same _ _ K), (bounds_untrimmed _ 0 0 _ Wa (or_intror F)), E.
  destruct (fold_left bounds_step (map of_int (closed (stored l))) (None, None, None, None)) as [[[[x0|] [y0|]] [x1|]] [y1|]]; try reflexivity.
  unfold jef_write. assert (Pal : jef_write_palette thread_eqb jef_near jef_near2 threads out = jef_write_palette thread_eqb jef_near jef_near2 threads (closed (stored l))).
  { rewrite <- E, <- (palette_whole threads _ F). unfold jef_write_palette. rewrite (commands_same _ _ K). reflexivity. }
  rewrite Pal, (commands_same _ _ K), points_untrimmed, E. clear Pal. destruct (jef_write_palette thread_eqb jef_near jef_near2 threads (closed (stored l))) as [p|x]; cbn [bindr]; [|reflexivity]. do 2 f_equal.
  unfold jef_body. rewrite (body_kinds n _ _ K 0 0), (body_untrimmed n _ 0 0 Wa), E. reflexivity.
Qed.

Lemma closed_nonempty : forall b, exists a r, closed b = a :: r.
Proof. intros b. rewrite closed_last. destruct b as [|a r]; eexists; eexists; reflexivity. Qed.
Lemma bounds_closed : forall b, exists x0 y0 x1 y1, bounds (map of_int (closed b)) = (Some x0, Some y0, Some x1, Some y1).
Proof.
  intros b. destruct (closed_nonempty b) as (a & r & ->). unfold bounds. cbn [map fold_left].
  pose proof (bounds_some (map of_int r) (bounds_step (None, None, None, None) (of_int a)) I) as H.
  destruct (fold_left bounds_step _ _) as [[[[x0|] [y0|]] [x1|]] [y1|]]; try contradiction. repeat eexists.
Qed.
Lemma walk_jef : forall l px py, walk px py l -> representable 127 [STITCH; JUMP] [COLOR_CHANGE; STOP; TRIM; END] px py l.
Proof.
  induction l as [|a l IH]; intros px py H; [exact I|]. cbn [representable] in *. destruct H as [H1 H2]. split; [|exact (IH _ _ H2)].
  destruct H1 as [H1|[H1 H3]]; [left; exact H1|right]. split; [cbn [In] in *; tauto|exact H3].
Qed.
Lemma three_not_end : forall b, Forall three b -> before_end (closed b) = b.
Proof.
  intros b H. rewrite closed_last. pose proof (last_end b) as E. revert E. generalize (last_of b). intros e E. induction H as [|a b Ha _ IH]; cbn [app before_end].
  - rewrite E. reflexivity.
  - unfold three in Ha. cbn [In] in Ha. rewrite IH. destruct Ha as [Ha|[Ha|[Ha|[]]]]; rewrite <- Ha; reflexivity.
Qed.
Lemma three_view : forall b, Forall three b -> jef_view 0 false b = b.
Proof.
  intros b H. rewrite C11_jef_view_plain.
  - unfold relabel. induction H as [|a b Ha _ IH]; [reflexivity|]. cbn [map]. rewrite IH. f_equal. destruct a as [x y c]. cbn [scmd sx sy] in *.
    unfold three in Ha. cbn [In scmd] in Ha. destruct Ha as [<-|[<-|[<-|[]]]]; reflexivity.
  - eapply Forall_impl; [|exact H]. intros a Ha. unfold three in Ha. cbn [In] in Ha. destruct Ha as [Ha|[Ha|[Ha|[]]]]; rewrite <- Ha; split; discriminate.
Qed.
Lemma closed_changes : forall b, color_changes (closed b) = changes b.
Proof.
  intros b. rewrite closed_last. unfold color_changes, changes. rewrite filter_app, app_length. cbn [filter]. rewrite last_end. cbn. lia.
Qed.
Lemma closed_thread_commands : forall b, Forall three b -> thread_commands (closed b) = changes b.
Proof.
  intros b H. rewrite closed_last. unfold thread_commands. rewrite filter_app, app_length. cbn [filter]. rewrite last_end.
  change ((cmd_of END =? COLOR_CHANGE) || (cmd_of END =? STOP)) with false. cbv iota. cbn [List.length]. rewrite Nat.add_0_r. unfold changes. f_equal. induction H as [|a b Ha _ IH]; [reflexivity|]. cbn [filter]. rewrite IH.
  unfold three in Ha. cbn [In] in Ha. destruct Ha as [Ha|[Ha|[Ha|[]]]]; rewrite <- Ha; reflexivity.
Qed.
Lemma starts_plain : forall b, sews_first b -> starts_sewing (closed b).
Proof. intros [|a b] H; [contradiction|]. rewrite closed_last. cbn [app starts_sewing sews_first] in *. destruct H as [H|[H _]]; [rewrite H; discriminate|exact H]. Qed.
Lemma near_nz : forall t, nz (jef_near t).
Proof. intros t. destruct (near_spec t) as (i & u & -> & Eu & _). apply table_entries in Eu. unfold nz. change (2 ^ 32) with 4294967296. lia. Qed.
Lemma near2_nz : forall t i, nz (jef_near2 t i).
Proof. intros t i. destruct (near2_spec t i) as (j & u & -> & Eu & _). apply table_entries in Eu. unfold nz. change (2 ^ 32) with 4294967296. lia. Qed.
Lemma entries_marked : forall p, Forall entry p -> filter JefProofs.mark_of p = p.
Proof.
  intros p H. induction H as [|n p (i & u & -> & E) _ IH]; [reflexivity|]. cbn [filter]. apply table_entries in E. unfold JefProofs.mark_of at 1.
  destruct (Z.eqb_spec (Z.of_nat i) 0) as [e|_]; [lia|]. cbn [negb]. rewrite IH. reflexivity.
Qed.
Lemma palette_of : forall threads b p, Forall three b -> sews_first b -> List.length threads = S (changes b) ->
  jef_write_palette thread_eqb jef_near jef_near2 threads (closed b) = Ok p -> jef_numbers thread_eqb jef_near jef_near2 None threads p.
Proof.
  intros threads b p H3 Hs L E. pose proof (starts_plain b Hs) as St. rewrite <- closed_changes in L.
  assert (Ns : Forall (fun c => c <> STOP) (map (fun s => cmd_of (scmd s)) (closed b))).
  { apply Forall_map. rewrite closed_last. apply Forall_app. split; [|constructor; [rewrite last_end; discriminate|constructor]].
    eapply Forall_impl; [|exact H3]. intros a Ha. unfold three in Ha. cbn [In] in Ha. destruct Ha as [Ha|[Ha|[Ha|[]]]]; rewrite <- Ha; discriminate. }
  unfold jef_write_palette in E. unfold color_changes in L. destruct (closed b) as [|a r]; [contradiction|]. cbn [starts_sewing] in St. cbn [map] in *.
  apply Forall_cons_iff in Ns. destruct Ns as [N1 N2]. cbn [jef_palette] in E. rewrite orb_true_r in E. destruct threads as [|t rest]; [discriminate|].
  apply Z.eqb_neq in N1, St. rewrite N1 in E. destruct (jef_palette _ _ _ _ _ _ _ _) as [q|] eqn:Eq in E; cbn [bindr] in E; [|discriminate]. injection E as <-.
  econstructor; [reflexivity|]. apply (palette_numbers _ _ _ _ _ N2 Eq). cbn [filter List.length] in L. rewrite St in L. injection L as L. rewrite L.
  clear. induction r as [|x r IH]; [reflexivity|]. cbn [map filter]. destruct (_ =? _); cbn [List.length]; rewrite IH; reflexivity.
Qed.
Lemma file_read : forall date threads b missing, plain_body b -> List.length threads = S (changes b) -> List.length date = 14%nat ->
  exists file numbers, jef_file date threads b = Ok file /\ jef_numbers thread_eqb jef_near jef_near2 None threads numbers /\
    jef_write_palette thread_eqb jef_near jef_near2 threads (closed b) = Ok numbers /\
    jef_read (jef_thread_of missing) file = Ok (closed b, map Some (map (jef_thread_of missing) numbers)).
Proof.
  intros date threads b missing [H1 H2 H3 H4] L Hd. unfold jef_file. destruct (bounds_closed b) as (x0 & y0 & x1 & y1 & ->). cbv zeta.
  destruct (jef_roundtrip thread thread_eqb jef_near jef_near2 (jef_thread_of missing) false 0 date (q_round (x1 - x0)) (q_round (y1 - y0))
    (q_round (q_round (x1 - x0) # 2)) (q_round (q_round (y1 - y0) # 2)) threads (closed b)) as (p & file & E1 & E2 & _ & E3).
  - exact near_nz.
  - exact near2_nz.
  - exact Hd.
  - apply walk_jef, walk_closed. exact H2.
  - apply starts_plain. exact H3.
  - right. exists (last_of b). rewrite three_not_end by exact H1. apply closed_last.
  - rewrite closed_changes, L. lia.
  - rewrite closed_thread_commands by exact H1. exact H4.
  - exists file, p. pose proof (palette_of threads b p H1 H3 L E2) as J. split; [exact E1|]. split; [exact J|]. split; [exact E2|]. rewrite E3.
    rewrite three_not_end, three_view by exact H1. rewrite (entries_marked p (numbers_entries _ _ _ J)), map_map. reflexivity.
Qed.
Lemma same_palette : forall date threads threads' b p, jef_write_palette thread_eqb jef_near jef_near2 threads (closed b) = Ok p ->
  jef_write_palette thread_eqb jef_near jef_near2 threads' (closed b) = Ok p -> jef_file date threads b = jef_file date threads' b.
Proof.
  intros date threads threads' b p E E'. unfold jef_file, jef_write. rewrite E, E'. reflexivity.
Qed.

(** ** Any file *)
Definition record (a : stitch Z) : Prop := (scmd a = COLOR_CHANGE -> sx a = 0 /\ sy a = 0) /\ In (scmd a) [STITCH; JUMP; COLOR_CHANGE; STOP].
Lemma still_changes : forall T n s (threads : list (option T)) i l th, (List.length s <= n)%nat ->
  jef_read_loop threads i s = Ok (l, th) -> Forall record l.
Proof.
  intros T. induction n as [|n IH]; intros s threads i l th L E.
  { destruct s; [|cbn in L; lia]. injection E as <- <-. constructor. }
  destruct s as [|b0 [|b1 r]]; try (injection E as <- <-; constructor).
  cbn [jef_read_loop] in E. cbn [List.length] in L.
  assert (R : forall r' a threads' i', (List.length r' <= List.length r)%nat -> record a ->
     (do '(t, u) <- jef_read_loop threads' i' r'; Ok (a :: t, u)) = Ok (l, th) -> Forall record l).
  { intros r' a threads' i' Lr Ha X. destruct (jef_read_loop threads' i' r') as [[t u]|] eqn:Et; [|discriminate]. cbn [bindr] in X.
    injection X as <- <-. constructor; [exact Ha|]. exact (IH r' threads' i' t u ltac:(lia) Et). }
  destruct (negb (b0 =? 128)); [refine (R _ _ _ _ _ _ E); [lia|split; [discriminate|cbn; auto]]|].
  destruct r as [|c0 [|c1 r]]; try (injection E as <- <-; constructor).
  cbn [List.length] in R.
  destruct (b1 =? 2); [refine (R _ _ _ _ _ _ E); [lia|split; [discriminate|cbn; auto]]|].
  destruct (b1 =? 1); [|injection E as <- <-; constructor].
  destruct (nth_error threads i) as [[t|]|]; [|refine (R _ _ _ _ _ _ E); [lia|split; [discriminate|cbn; auto]]|discriminate].
  refine (R _ _ _ _ _ _ E); [lia|]. split; [intros _; split; reflexivity|cbn; auto].
Qed.
Lemma apply_walk : forall l px py, Forall record l -> Forall (fun a => scmd a <> STOP) l ->
  within 127 px py (apply_rel px py l) -> walk px py (apply_rel px py l) /\ Forall three (apply_rel px py l).
Proof.
  induction l as [|a l IH]; intros px py H1 H2 W; [split; [exact I|constructor]|]. apply Forall_cons_iff in H1, H2. destruct H1 as [[A2 A1] H1], H2 as [A3 H2].
  cbn [apply_rel within representable sx sy scmd] in *. destruct W as [W1 W2]. destruct (IH _ _ H1 H2 W2) as [I1 I2].
  assert (A : In (scmd a) [STITCH; JUMP; COLOR_CHANGE]) by (cbn [In] in *; intuition congruence).
  split; [|constructor; [exact A|exact I2]]. split; [|exact I1]. cbn [In] in A.
  destruct A as [A|[A|[A|[]]]]; rewrite <- A in *; [left; split; [cbn; auto|exact W1]|left; split; [cbn; auto|exact W1]|].
  right. destruct (A2 eq_refl) as [X Y]. rewrite X, Y. split; [cbn; auto|]. lia.
Qed.
Lemma within_app : forall m a b px py, within m px py (a ++ b) -> within m px py a.
Proof. intros m. induction a as [|s a IH]; intros b px py H; [exact I|]. cbn [app within] in *. destruct H as [H1 H2]. split; [exact H1|exact (IH _ _ _ H2)]. Qed.
Lemma sews_end : forall (b : list (stitch Z)) e, scmd e = END -> sews_first (b ++ [e]) -> sews_first b.
Proof.
  induction b as [|a b IH]; intros e He H; cbn [app sews_first] in *; [rewrite He in H; destruct H as [H|[_ []]]; discriminate H|].
  destruct H as [H|[H1 H2]]; [left; exact H|right; split; [exact H1|exact (IH e He H2)]].
Qed.

(** A JEF file without stops, with steps of at most 127 units, where something is sewn and that before the
    first colour change. *)
Definition plain_jef (missing : thread) (file : list Z) : Prop :=
  exists raw threads, jef_read (jef_thread_of missing) file = Ok (raw, threads) /\ Forall (fun a => scmd a <> STOP) raw /\
    within 127 0 0 raw /\ sews_first raw /\ Z.of_nat (color_changes raw) < 2 ^ 27.
Lemma plain_read : forall missing file, plain_jef missing file -> exists b threads, jef_read (jef_thread_of missing) file = Ok (closed b, threads) /\ plain_body b.
Proof.
  intros missing file (raw & threads & E & Hs & Hw & Hf & Hc). pose proof E as E0. unfold jef_read in E.
  destruct (read_int_32le file) as [[o|] r1]; [|destruct (read_int_32le (skipn 24 file)) as [[]]; discriminate].
  destruct (read_int_32le (skipn 24 file)) as [[c|] r2]; [|discriminate].
  destruct (jef_read_colors _ _ _) as [th|]; [|discriminate]. cbn [bindr] in E. unfold jef_read_stitches in E.
  destruct (jef_read_loop th 1 _) as [[l th']|] eqn:El; [|discriminate]. cbn [bindr] in E. rewrite apply_rel_end in E.
  pose proof (still_changes _ _ _ _ _ _ _ (Nat.le_refl _) El) as Sc.
  assert (Er : raw = closed (apply_rel 0 0 l)) by congruence. subst raw. exists (apply_rel 0 0 l), threads. split; [exact E0|].
  rewrite closed_changes in Hc. rewrite closed_last in Hs, Hw, Hf. apply Forall_app in Hs. destruct Hs as [Hs _]. apply within_app in Hw.
  assert (Ns : Forall (fun a => scmd a <> STOP) l).
  { clear - Hs. revert Hs. generalize 0 at 1. generalize 0. induction l as [|a l IH]; intros y x H; [constructor|]. cbn [apply_rel] in H. apply Forall_cons_iff in H. destruct H as [H1 H2].
    constructor; [exact H1|exact (IH _ _ H2)]. }
  destruct (apply_walk l 0 0 Sc Ns Hw) as [W T]. constructor; [exact T|exact W|exact (sews_end _ _ (last_end _) Hf)|exact Hc].
Qed.
Lemma walk_within : forall l x y, walk x y l -> within 127 x y l.
Proof.
  induction l as [|a l IH]; intros x y W; [exact I|]. cbn [representable within] in *. destruct W as [[[_ W]|[_ [X Y]]] W2]; (split; [|exact (IH _ _ W2)]); [exact W|].
  unfold step_within. lia.
Qed.
Lemma plain_file : forall missing file b threads, plain_body b -> jef_read (jef_thread_of missing) file = Ok (closed b, threads) -> plain_jef missing file.
Proof.
  intros missing file b threads [H1 H2 H3 H4] E. exists (closed b), threads. split; [exact E|]. split; [|split; [|split]].
  - rewrite closed_last. apply Forall_app. split; [|constructor; [rewrite last_end; discriminate|constructor]].
    eapply Forall_impl; [|exact H1]. intros a Ha. unfold three in Ha. cbn [In] in Ha. destruct Ha as [Ha|[Ha|[Ha|[]]]]; rewrite <- Ha; discriminate.
  - apply walk_within, walk_closed. exact H2.
  - rewrite closed_last. generalize (last_of b). intros e. clear - H3. induction b as [|a b IH]; [contradiction|]. cbn [app sews_first] in *. destruct H3 as [H|[Ha Hb]]; [left; exact H|right; split; [exact Ha|exact (IH Hb)]].
  - rewrite closed_changes. exact H4.
Qed.

(** [l] and [threads] are loaded from [file], whose trims are put in where the needle travels further than
    [dist] millimetres. *)
Definition opened (missing : thread) (dist : option Q) (file : list Z) (l : list (stitch Q)) (threads : list (option thread)) : Prop :=
  exists fuel, jef_read_file (jef_thread_of missing) None false dist true fuel file = Ok (l, threads).
Definition tenths (dist : option Q) : option Q := match dist with Some d => Some (d * 10)%Q | None => None end.
Lemma opened_list : forall missing dist file l threads b th, opened missing dist file l threads -> jef_read (jef_thread_of missing) file = Ok (closed b, th) -> plain_body b ->
  l = map of_int (interp (tenths dist) b ++ [last_of b]) /\ threads = th.
Proof.
  intros missing dist file l threads b th (fuel & E) Er P. unfold jef_read_file in E. rewrite Er in E. cbn [bindr] in E.
  destruct (interpolate_trims _ _ _ _ _) as [l'|] eqn:Ei; [|discriminate]. cbn [bindr] in E. injection E as <- <-. split; [|reflexivity].
  rewrite closed_last in Ei. rewrite (interpolated_passed (tenths dist) b (last_of b) fuel l' (last_end b) (p_three b P) Ei), passed_end by apply last_end. reflexivity.
Qed.
Section Resave.
Variables (qcos qsin : Q -> Q) (qorient : Q -> Q -> Q -> Q -> Q -> Q * Q).
Notation N := (QNum qcos qsin qorient).
Hypothesis Hturn : forall t, ~ (qcos t * qcos t + qsin t * qsin t == 0)%Q.
Notation resaving := (resaving qcos qsin qorient).
Notation loaded := (loaded qcos qsin qorient).
Lemma opens : forall missing dist file b th, jef_read (jef_thread_of missing) file = Ok (closed b, th) -> exists l, opened missing dist file l th.
Proof.
  intros missing dist file b th E. destruct (interpolate_trims_total None (tenths dist) true (List.length (map of_int (closed b))) (map of_int (closed b)) (Nat.le_refl _)) as [l' El].
  exists l'. exists (List.length (map of_int (closed b))). unfold jef_read_file. rewrite E. cbn [bindr]. fold (tenths dist). rewrite El. reflexivity.
Qed.

(** The thread in the place of one the design does not have is any. *)
Definition resolves (r : tref) (t : thread) : Prop := match r with Own u => t = u | Filler => True end.
(** Saving [l] and [threads] may write [file]. *)
Definition saved_jef (set : settings N) (trim_at : Z) (date : list Z) (l : list (stitch Q)) (threads : list thread) (file : list Z) : Prop :=
  exists out refs ths, transcode N set (loaded l threads) = Ok (out, refs) /\ Forall2 resolves refs ths /\ jef_write_file false trim_at date ths out = Ok file.
(** Settings that ask for nothing but JEF's steps. *)
Definition jef_resaving (set : settings N) : Prop := resaving 127 set /\ s_full_jump N set = Some true /\ s_needle_count N set <> Some 0.

Lemma interp_facts : forall dist b, plain_body b -> walking 127 (interp dist b ++ [last_of b]) /\ sewn_first (interp dist b ++ [last_of b]) /\
  Forall four (interp dist b) /\ walk 0 0 (interp dist b) /\ needle_after 0 0 (interp dist b) = needle_after 0 0 b.
Proof.
  intros dist b [H1 H2 H3 H4]. destruct (passed_walk dist b true None 0 0 0 0 I H1 H2 eq_refl) as (P1 & P2 & P3). fold (interp dist b) in P1, P2, P3.
  split; [|split; [|auto]].
  - split; [|apply walk_last; assumption]. exists (interp dist b), (last_of b). split; [reflexivity|]. split; [apply last_end|]. eapply Forall_impl; [|exact P3].
    intros a Ha. unfold four in Ha. cbn [In] in *. tauto.
  - assert (S : sews_first (interp dist b)) by (apply (kept_sews _ b); [exact (passed_kept dist b true None 0 0 I H1 H2)|exact H3]).
    revert S. generalize (interp dist b). induction l as [|a l IH]; intros S; [contradiction|]. cbn [app sews_first sewn_first] in *. destruct S as [S|[S1 S2]]; [left; exact S|right; auto].
Qed.
Lemma resolved_length : forall refs ths, Forall2 resolves refs ths -> List.length ths = List.length refs.
Proof. intros refs ths H. induction H; cbn [List.length]; congruence. Qed.
Lemma saved_file : forall (set : settings N) dist b threads out refs ths n date, jef_resaving set -> plain_body b ->
  transcode N set (loaded (map of_int (interp dist b ++ [last_of b])) threads) = Ok (out, refs) -> Forall2 resolves refs ths ->
  List.length refs = S (changes (stored (interp dist b))) /\ (forall k t, nth_error refs k = Some t -> t = EncoderModel.get_thread_or_filler threads (Z.of_nat k)) /\
  jef_write_file false n date ths out = jef_file date ths (stored (interp dist b)).
Proof.
  intros set dist b threads out refs ths n date (R & J & Nc) P E Hr. destruct (interp_facts dist b P) as (W & Sf & F4 & Wi & Hn).
  destruct (plain_next dist b P) as (Pn & _ & Kn).
  pose proof (encoded_approached qcos qsin qorient 127 set _ threads out refs R J W Sf E) as K. rewrite approached_end in K by apply last_end.
  assert (Pl : Forall (fun a => In (scmd a) [STITCH; JUMP; TRIM; COLOR_CHANGE; END]) (EncoderModel.p_stitches N (loaded (map of_int (interp dist b ++ [last_of b])) threads))).
  { cbn [EncoderModel.p_stitches PropertiesConvert.loaded]. rewrite Forall_map. apply Forall_app. split; [eapply Forall_impl; [|exact F4]; intros a Ha; unfold four in Ha; cbn [of_int scmd In] in *; tauto|].
    constructor; [cbn [of_int scmd]; rewrite last_end; cbn; auto 8|constructor]. }
  assert (G : forall Q : stitch Q -> Prop, (forall a, In (scmd a) [STITCH; JUMP; TRIM; COLOR_CHANGE; END] -> Q a) ->
    Forall Q (EncoderModel.p_stitches N (loaded (map of_int (interp dist b ++ [last_of b])) threads))) by (intros Q HQ; eapply Forall_impl; [|exact Pl]; exact HQ).
  assert (Rc : requested_change set = COLOR_CHANGE) by (rewrite <- requested_ok; exact (r_change _ _ _ _ _ R)).
  assert (St : EncoderSpec.sews out).
  { assert (S : sews_first (approached true 0 0 (interp dist b))).
    { apply (kept_sews _ b); [rewrite approached_kept; exact (passed_kept (dist) b true None 0 0 I (p_three b P) (p_walk b P))|exact (p_sews b P)]. }
    revert K S. generalize [last_of b]. generalize (approached true 0 0 (interp dist b)). clear. intros l e K. revert out K.
    induction l as [|a l IH]; intros out K S; [contradiction|]. cbn [app] in K. inversion K as [|x y o r (_ & _ & H) K']; subst. cbn [sews_first] in S.
    destruct S as [S|[_ S]]; [left; left; unfold is_cmd; change (Z.land (scmd x) 255) with (cmd_of (scmd x)); rewrite H, S; reflexivity|right; exact (IH _ K' S)]. }
  assert (K0 : forall (a : stitch Q) k, In (scmd a) [STITCH; JUMP; TRIM; COLOR_CHANGE; END] -> ~ In k [STITCH; JUMP; TRIM; COLOR_CHANGE; END] -> is_cmd k a = false).
  { intros a k Ha Hk. unfold is_cmd. apply Z.eqb_neq. intros X. apply Hk. cbn [In] in Ha. destruct Ha as [Ha|[Ha|[Ha|[Ha|[Ha|[]]]]]]; rewrite <- Ha in X; rewrite <- X; cbn; auto 8. }
  assert (T0 : Forall (fun a => is_cmd TIE_ON a = false /\ is_cmd TIE_OFF a = false) (EncoderModel.p_stitches N (loaded (map of_int (interp dist b ++ [last_of b])) threads))).
  { apply G. intros a Ha. split; (apply K0; [exact Ha|]); cbn; intuition discriminate. }
  pose proof (C25_threads_match_changes N set _ out refs E Rc T0 St) as C.
  assert (Cc : count_cmd COLOR_CHANGE out = Z.of_nat (changes (stored (interp dist b)))).
  { unfold count_cmd. f_equal. transitivity (changes (approached true 0 0 (interp dist b) ++ [last_of b])).
    - unfold changes. revert K. generalize (approached true 0 0 (interp dist b) ++ [last_of b]). clear. intros l K. induction K as [|x y o r (_ & _ & H) _ IH]; [reflexivity|].
      cbn [filter]. unfold is_cmd at 1. change (Z.land (scmd x) 255) with (cmd_of (scmd x)). rewrite H. destruct (_ =? _); cbn [List.length]; rewrite IH; reflexivity.
    - unfold changes. rewrite filter_app, app_length. cbn [filter]. rewrite last_end. change (cmd_of END =? COLOR_CHANGE) with false. cbv iota. cbn [List.length]. rewrite Nat.add_0_r.
      apply (kept_changes (approached true 0 0 (interp dist b)) (stored (interp dist b))). unfold stored. rewrite untrimmed_kept. reflexivity. }
  split; [lia|]. split.
  - refine (proj1 (proj2 (proj2 (colours_of_transcode N set _ out refs E Rc _ _ _ _)))).
    + rewrite Forall_forall. intros a Ia. apply until_end_in in Ia. revert a Ia. apply Forall_forall. apply G. intros a Ha. cbv [has_command existsb matrix_commands]. rewrite !K0; try exact Ha; try reflexivity; cbn; intuition discriminate.
    + apply G. intros a Ha. assert (X : 0 <= scmd a < 256) by (cbn [In] in Ha; destruct Ha as [Ha|[Ha|[Ha|[Ha|[Ha|[]]]]]]; rewrite <- Ha; split; vm_compute; congruence). exact (fun _ => X).
    + apply G. intros a Ha. apply K0; [exact Ha|]. cbn; intuition discriminate.
    + apply G. intros a Ha. assert (X : thread_number a = None) by (cbn [In] in Ha; unfold thread_number; destruct Ha as [Ha|[Ha|[Ha|[Ha|[Ha|[]]]]]]; rewrite <- Ha; reflexivity). exact (fun _ => X).
  - exact (written_file n date ths out b (interp dist b) P F4 Wi Hn K).
Qed.
Lemma by_places : forall A (l l' : list A), (forall k, nth_error l k = nth_error l' k) -> l = l'.
Proof.
  induction l as [|a l IH]; intros [|b l'] H; [reflexivity|discriminate (H 0%nat)|discriminate (H 0%nat)|].
  f_equal; [pose proof (H 0%nat) as H0; cbn in H0; congruence|]. apply IH. intros k. exact (H (S k)).
Qed.
(** The threads of the file itself are taken over. *)
Lemma own_threads : forall refs ths threads, Forall2 resolves refs ths -> List.length refs = List.length threads ->
  (forall k t, nth_error refs k = Some t -> t = EncoderModel.get_thread_or_filler threads (Z.of_nat k)) -> ths = threads.
Proof.
  intros refs ths threads H L G.
  assert (X : refs = map Own threads).
  { apply by_places. intros k. rewrite nth_error_map. destruct (nth_error refs k) as [t|] eqn:E.
    - assert (k < List.length refs)%nat by (apply nth_error_Some; congruence). rewrite (G k t E). unfold EncoderModel.get_thread_or_filler.
      destruct (Z.leb_spec (Z.of_nat (List.length threads)) (Z.of_nat k)); [lia|]. rewrite Nat2Z.id.
      destruct (nth_error threads k) as [u|] eqn:Eu; [reflexivity|]. apply nth_error_None in Eu. lia.
    - apply nth_error_None in E. destruct (nth_error threads k) as [u|] eqn:Eu; [|reflexivity]. assert (k < List.length threads)%nat by (apply nth_error_Some; congruence). lia. }
  subst refs. clear G L. revert ths H. induction threads as [|t threads IH]; intros ths H; inversion H as [|? u ? r Hr H']; subst; [reflexivity|].
  cbn [resolves] in Hr. subst u. f_equal. exact (IH _ H').
Qed.

(** One save of what was loaded: what the file is. *)
Lemma one_save : forall missing dist b th file l set n date threads file', plain_body b -> jef_read (jef_thread_of missing) file = Ok (closed b, th) ->
  opened missing dist file l th -> jef_resaving set -> List.length date = 14%nat -> saved_jef set n date l threads file' ->
  let u := stored (interp (tenths dist) b) in
  plain_body u /\ exists ths numbers, jef_file date ths u = Ok file' /\ List.length ths = S (changes u) /\
    jef_numbers thread_eqb jef_near jef_near2 None ths numbers /\ jef_write_palette thread_eqb jef_near jef_near2 ths (closed u) = Ok numbers /\
    jef_read (jef_thread_of missing) file' = Ok (closed u, map Some (map (jef_thread_of missing) numbers)) /\
    (List.length threads = S (changes b) -> ths = threads).
Proof.
  intros missing dist b th file l set n date threads file' P Er Ho R Hd (out & refs & ths & Et & Hr & Ew) u.
  destruct (opened_list missing dist file l th b th Ho Er P) as [-> _]. destruct (plain_next (tenths dist) b P) as (Pu & _ & Ku). fold u in Pu, Ku. split; [exact Pu|].
  destruct (saved_file set (tenths dist) b threads out refs ths n date R P Et Hr) as (L & G & W). fold u in L, W. rewrite W in Ew.
  assert (Lt : List.length ths = S (changes u)) by (rewrite (resolved_length _ _ Hr); exact L).
  destruct (file_read date ths u missing Pu Lt Hd) as (f & numbers & E1 & E2 & E3 & E4). rewrite Ew in E1. injection E1 as <-.
  exists ths, numbers. split; [exact Ew|]. split; [exact Lt|]. split; [exact E2|]. split; [exact E3|]. split; [exact E4|].
  intros Lx. apply (own_threads refs ths threads Hr); [rewrite L, Lx, (kept_changes _ _ Ku); reflexivity|exact G].
Qed.

(** ** C203 *)
(** The stitches and colour changes of a list. *)
Definition sewn {C} (l : list (stitch C)) : list (stitch C) := filter (fun a => (cmd_of (scmd a) =? STITCH) || (cmd_of (scmd a) =? COLOR_CHANGE)) l.
Lemma sewn_int : forall l, sewn (map of_int l) = map of_int (filter kept l).
Proof. intros l. unfold sewn. induction l as [|a l IH]; [reflexivity|]. cbn [map filter]. unfold kept at 1. cbn [of_int scmd]. rewrite IH. destruct (_ || _); reflexivity. Qed.
Lemma sewn_loaded : forall dist b, plain_body b -> sewn (map of_int (interp dist b ++ [last_of b])) = map of_int (filter kept b).
Proof.
  intros dist b P. rewrite sewn_int, filter_app, (passed_kept dist b true None 0 0 I (p_three b P) (p_walk b P) : filter kept (interp dist b) = _).
  cbn [filter]. unfold kept at 2. rewrite last_end, app_nil_r. reflexivity.
Qed.
(** Such a file can be loaded, and what is loaded can be saved; the new file is of the same sort, and has the
    same stitches and colour changes at the same places. *)
Theorem C203_jef_saved_again : forall missing dist file, plain_jef missing file ->
  exists l th, opened missing dist file l th /\
  forall set trim_at date threads, jef_resaving set -> List.length date = 14%nat ->
  exists file', saved_jef set trim_at date l threads file' /\ plain_jef missing file' /\
    exists l' threads', opened missing dist file' l' (map Some threads') /\ sewn l' = sewn l.
Proof.
  intros missing dist file H. destruct (plain_read missing file H) as (b & th & Er & P). destruct (opens missing dist file b th Er) as [l Ho]. exists l, th. split; [exact Ho|].
  intros set n date threads R Hd. destruct (opened_list missing dist file l th b th Ho Er P) as [El _].
  destruct (interp_facts (tenths dist) b P) as (W & Sf & F4 & Wi & Hn).
  destruct R as (R & J & Nc). destruct (walking_total qcos qsin qorient Hturn 127 set _ threads ltac:(lia) R Nc W) as (out & refs & Et). rewrite <- El in Et.
  assert (X : exists ths, Forall2 resolves refs ths).
  { exists (map (own missing) refs). clear. induction refs as [|r refs IH]; cbn [map]; constructor; [destruct r; cbn; auto|exact IH]. }
  destruct X as [ths Hr].
  assert (E2 : transcode N set (loaded (map of_int (interp (tenths dist) b ++ [last_of b])) threads) = Ok (out, refs)) by (rewrite <- El; exact Et).
  destruct (saved_file set (tenths dist) b threads out refs ths n date (conj R (conj J Nc)) P E2 Hr) as (L & _ & Ew).
  destruct (plain_next (tenths dist) b P) as (Pu & _ & Ku).
  destruct (file_read date ths _ missing Pu) as (file' & numbers & F1 & _ & _ & F2); [rewrite (resolved_length _ _ Hr); exact L|exact Hd|].
  exists file'. split; [exists out, refs, ths; rewrite Ew; auto|]. split; [exact (plain_file _ _ _ _ Pu F2)|].
  destruct (opens missing dist file' _ _ F2) as [l' Ho']. exists l', (map (jef_thread_of missing) numbers). split; [exact Ho'|].
  destruct (opened_list missing dist file' l' _ _ _ Ho' F2 Pu) as [-> _]. rewrite El, !sewn_loaded by assumption. rewrite Ku. reflexivity.
Qed.

(** From the second save on the file does not change any more: loading the second file and saving it gives the
    second file, byte for byte, whatever threads the first was saved with and whatever the settings. *)
Lemma same_numbers : forall missing numbers numbers', Forall entry numbers ->
  jef_numbers thread_eqb jef_near jef_near2 None (map (jef_thread_of missing) numbers) numbers' -> numbers' = numbers.
Proof. intros missing numbers numbers' H J. exact (numbers_again missing numbers None numbers' H I J). Qed.
Lemma some_inj : forall (a b : list thread), map Some a = map Some b -> a = b.
Proof. induction a as [|x a IH]; intros [|y b] E; try discriminate; [reflexivity|]. cbn [map] in E. injection E as -> E. f_equal. exact (IH _ E). Qed.
(** A file that was saved from plain threads, loaded and saved with the threads it has. *)
Lemma next_save : forall missing dist date u ths numbers file l threads set n file', plain_body u -> List.length date = 14%nat ->
  jef_numbers thread_eqb jef_near jef_near2 None ths numbers -> List.length ths = S (changes u) ->
  jef_read (jef_thread_of missing) file = Ok (closed u, map Some (map (jef_thread_of missing) numbers)) ->
  opened missing dist file l (map Some threads) -> jef_resaving set -> saved_jef set n date l threads file' ->
  let v := stored (interp (tenths dist) u) in
  plain_body v /\ jef_file date (map (jef_thread_of missing) numbers) v = Ok file' /\
  List.length (map (jef_thread_of missing) numbers) = S (changes v) /\
  jef_numbers thread_eqb jef_near jef_near2 None (map (jef_thread_of missing) numbers) numbers /\
  jef_write_palette thread_eqb jef_near jef_near2 (map (jef_thread_of missing) numbers) (closed v) = Ok numbers /\
  jef_read (jef_thread_of missing) file' = Ok (closed v, map Some (map (jef_thread_of missing) numbers)).
Proof.
  intros missing dist date u ths numbers file l threads set n file' P Hd Jn Ln Er Ho R Hs v.
  destruct (opened_list missing dist file l _ u _ Ho Er P) as [_ Et]. pose proof (some_inj _ _ Et) as E0. subst threads. clear Et.
  assert (Lm : List.length (map (jef_thread_of missing) numbers) = S (changes u)).
  { rewrite map_length, <- Ln. clear - Jn. induction Jn; cbn [List.length]; congruence. }
  destruct (one_save missing dist u _ file l set n date _ file' P Er Ho R Hd Hs) as (Pv & ths' & numbers' & F1 & F2 & F3 & F4 & F5 & F6). fold v in Pv, F1, F2, F4, F5.
  specialize (F6 Lm). subst ths'. pose proof (same_numbers missing numbers numbers' (numbers_entries _ _ _ Jn) F3) as E. subst numbers'. auto 8.
Qed.
Theorem C203_jef_settles : forall missing dist date file0 l0 th0 threads0 file1 l1 threads1 file2 l2 threads2 file3 set1 set2 set3 n1 n2 n3,
  plain_jef missing file0 -> List.length date = 14%nat -> jef_resaving set1 -> jef_resaving set2 -> jef_resaving set3 ->
  opened missing dist file0 l0 th0 -> saved_jef set1 n1 date l0 threads0 file1 ->
  opened missing dist file1 l1 (map Some threads1) -> saved_jef set2 n2 date l1 threads1 file2 ->
  opened missing dist file2 l2 (map Some threads2) -> saved_jef set3 n3 date l2 threads2 file3 ->
  file3 = file2 /\ threads2 = threads1.
Proof.
  intros missing dist date file0 l0 th0 threads0 file1 l1 threads1 file2 l2 threads2 file3 set1 set2 set3 n1 n2 n3 H Hd R1 R2 R3 O0 S1 O1 S2 O2 S3.
  destruct (plain_read missing file0 H) as (b & th & Er & P).
  assert (Eth : th0 = th) by exact (proj2 (opened_list missing dist file0 l0 th0 b th O0 Er P)). subst th0.
  destruct (one_save missing dist b th file0 l0 set1 n1 date threads0 file1 P Er O0 R1 Hd S1) as (P1 & ths1 & numbers & A1 & A2 & A3 & A4 & A5 & _).
  destruct (next_save missing dist date _ ths1 numbers file1 l1 threads1 set2 n2 file2 P1 Hd A3 A2 A5 O1 R2 S2) as (P2 & B1 & B2 & B3 & B4 & B5).
  destruct (next_save missing dist date _ _ numbers file2 l2 threads2 set3 n3 file3 P2 Hd B3 B2 B5 O2 R3 S3) as (P3 & C1 & _).
  destruct (landed_settled (tenths dist) _ (p_three _ P1) (p_walk _ P1) (second_lands (tenths dist) b (p_three b P) (p_walk b P))) as [E _].
  rewrite E, B1 in C1. injection C1 as <-. split; [reflexivity|].
  assert (T1 : map Some threads1 = map Some (map (jef_thread_of missing) numbers)) by exact (proj2 (opened_list missing dist file1 l1 _ _ _ O1 A5 P1)).
  assert (T2 : map Some threads2 = map Some (map (jef_thread_of missing) numbers)) by exact (proj2 (opened_list missing dist file2 l2 _ _ _ O2 B5 P2)).
  apply some_inj. congruence.
Qed.

(** The first file is not changed either if in what was loaded at first the needle, the thread being cut, goes
    down only where it stands. *)
Lemma lands_int : forall l cut px py, lands Qeq cut (inject_Z px) (inject_Z py) (map of_int l) -> lands eq cut px py l.
Proof.
  induction l as [|a l IH]; intros cut px py H; [exact I|]. cbn [map lands of_int sx sy scmd] in *. destruct H as [H1 H2]. split; [|exact (IH _ _ _ H2)].
  intros Hc Ha. destruct (H1 Hc Ha) as [X Y]. apply (proj1 (inject_Z_injective _ _)) in X, Y. auto.
Qed.
Lemma lands_app : forall (l r : list (stitch Z)) cut px py, lands eq cut px py (l ++ r) -> lands eq cut px py l.
Proof. induction l as [|a l IH]; intros r cut px py H; [exact I|]. cbn [app lands] in *. destruct H as [H1 H2]. split; [exact H1|exact (IH _ _ _ _ H2)]. Qed.
Theorem C203_jef_settled : forall missing dist date file0 l0 th0 threads0 file1 l1 threads1 file2 set1 set2 n1 n2,
  plain_jef missing file0 -> List.length date = 14%nat -> jef_resaving set1 -> jef_resaving set2 ->
  opened missing dist file0 l0 th0 -> lands Qeq true (inject_Z 0) (inject_Z 0) l0 -> saved_jef set1 n1 date l0 threads0 file1 ->
  opened missing dist file1 l1 (map Some threads1) -> saved_jef set2 n2 date l1 threads1 file2 -> file2 = file1.
Proof.
  intros missing dist date file0 l0 th0 threads0 file1 l1 threads1 file2 set1 set2 n1 n2 H Hd R1 R2 O0 La S1 O1 S2.
  destruct (plain_read missing file0 H) as (b & th & Er & P).
  destruct (opened_list missing dist file0 l0 th0 b th O0 Er P) as [El Eth]. subst th0.
  destruct (one_save missing dist b th file0 l0 set1 n1 date threads0 file1 P Er O0 R1 Hd S1) as (P1 & ths1 & numbers & A1 & A2 & A3 & A4 & A5 & _).
  destruct (next_save missing dist date _ ths1 numbers file1 l1 threads1 set2 n2 file2 P1 Hd A3 A2 A5 O1 R2 S2) as (P2 & B1 & B2 & B3 & B4 & B5).
  rewrite El in La. pose proof (lands_app _ _ _ _ _ (lands_int _ true 0 0 La)) as L0.
  destruct (landed_settled (tenths dist) b (p_three b P) (p_walk b P) L0) as [E _]. rewrite E in *.
  rewrite (same_palette date ths1 _ _ _ A4 B4) in A1. congruence.
Qed.
End Resave.

(** ** The settings of the format *)
Section Defaults.
Variables (qcos qsin : Q -> Q) (qorient : Q -> Q -> Q -> Q -> Q -> Q * Q).
Notation N := (QNum qcos qsin qorient).
Definition jef_settings : settings N := for_format qcos qsin qorient (jef_attributes N inject_Z) [].
Theorem C203_jef_defaults : jef_resaving qcos qsin qorient jef_settings.
Proof.
  split; [|split; [reflexivity|discriminate]]. constructor; try reflexivity; try (left; reflexivity); try (apply Qle_refl).
  split; [reflexivity|]. split; reflexivity.
Qed.
End Defaults.

(** ** Files *)
Definition no_thread : thread := mkT 0 None None None None None None.
Definition no_date : list Z := repeat 48 14.
Definition resave (file : list Z) : list Z :=
  match jef_read_file (jef_thread_of no_thread) None false (Some 3%Q) true (List.length file) file with
  | Ok (l, threads) =>
      let threads := map (fun t => match t with Some t => t | None => no_thread end) threads in
      match transcode ExNum (jef_settings ex_cos ex_sin ex_orient) (loaded ex_cos ex_sin ex_orient l threads) with
      | Ok (out, refs) => match jef_write_file false 3 no_date (map (own no_thread) refs) out with Ok file' => file' | Err _ => [] end
      | Err _ => []
      end
  | Err _ => []
  end.
Definition jef_raw (file : list Z) : list (Z * Z * Z) :=
  match jef_read (jef_thread_of no_thread) file with Ok (l, _) => map (fun a => (sx a, sy a, scmd a)) l | Err _ => [] end.
(** A header with two colours, black and an index beyond the table, then records. *)
Definition jef_bytes (records : list Z) : list Z :=
  write_int_32le (116 + 16) ++ write_int_32le 20 ++ repeat 48 16 ++ write_int_32le 2 ++ repeat 0 88 ++
  write_int_32le 1 ++ write_int_32le 100 ++ repeat 0 8 ++ records ++ [0x80; 0x10].
(** A far jump with the next stitch back where it began, one that ends short of the next stitch, jumps there
    and back, a colour change. *)
Definition c203_file : list Z :=
  jef_bytes [0; 0; 10; 0; 0x80; 2; 40; 0; 216; 0; 10; 10; 0x80; 2; 50; 0; 5; 0; 0x80; 1; 0; 0; 0x80; 2; 7; 7; 0x80; 2; 249; 249; 3; 3; 0x80; 2; 100; 0; 0x80; 2; 100; 0; 0; 0; 4; 4].

(** The second save may differ from the first. *)
Theorem C203_two_saves_needed : exists file, plain_jef no_thread file /\ resave file <> [] /\ resave (resave file) <> resave file /\
  resave (resave (resave file)) = resave (resave file).
Proof.
  exists c203_file. split; [|split; [|split]]; [|vm_compute; discriminate|vm_compute; discriminate|vm_compute; reflexivity].
  eexists _, _. split; [vm_compute; reflexivity|]. split; [repeat (constructor; [discriminate|]); constructor|]. split; [cbn; unfold step_within; lia|]. split; [left; reflexivity|reflexivity].
Qed.
Definition c203_steps : list (list (Z * Z * Z)) := map jef_raw [c203_file; resave c203_file; resave (resave c203_file)].
Example C203_case : map (fun l => List.length l) c203_steps = [16; 17; 15]%nat /\ nth 2 c203_steps [] =
  [(0, 0, STITCH); (10, 0, STITCH); (10, 0, STITCH); (20, -10, STITCH); (70, -10, JUMP); (75, -10, JUMP); (75, -10, STITCH);
   (75, -10, COLOR_CHANGE); (78, -13, JUMP); (78, -13, STITCH); (178, -13, JUMP); (278, -13, JUMP); (278, -13, STITCH); (282, -17, STITCH); (282, -17, END)].
Proof. split; vm_compute; reflexivity. Qed.
(** A file from which the needle goes down where it stands. *)
Definition c203_landed : list Z := jef_bytes [0; 0; 10; 0; 0x80; 2; 40; 0; 0; 0; 10; 10; 0x80; 1; 0; 0; 0x80; 2; 3; 3; 0; 0; 5; 5].
Example C203_landed_case : plain_jef no_thread c203_landed /\
  (exists l th, opened no_thread (Some 3%Q) c203_landed l th /\ lands Qeq true (inject_Z 0) (inject_Z 0) l /\ List.length l = 11%nat) /\
  resave (resave c203_landed) = resave c203_landed /\ resave c203_landed <> c203_landed /\ List.length (resave c203_landed) = 158%nat.
Proof.
  split; [|split; [|split; [vm_compute; reflexivity|split; [vm_compute; discriminate|vm_compute; reflexivity]]]].
  - eexists _, _. split; [vm_compute; reflexivity|]. split; [repeat (constructor; [discriminate|]); constructor|]. split; [cbn; unfold step_within; lia|]. split; [left; reflexivity|reflexivity].
  - eexists _, _. split; [exists 200%nat; vm_compute; reflexivity|]. split; [|reflexivity].
    repeat (split; [intros ? ?; first [discriminate|split; reflexivity]|]). exact I.
Qed.
Print Assumptions C203_jef_saved_again.
Print Assumptions C203_jef_settles.
Print Assumptions C203_jef_settled.
Print Assumptions C203_jef_defaults.
Print Assumptions C203_two_saves_needed.
