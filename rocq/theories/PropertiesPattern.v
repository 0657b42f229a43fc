(** Properties C33-C38, C52 and C56-C58: operations on a pattern in memory. *)
From Coq Require Import ZArith QArith Qabs Qround List Bool Lia Lqa.
From Verif Require Import PyBase EmbConst NumQ MetricSpec QuantProofs PatternModel PatternSpec TrimProofs
  EjectProofs PatternProofs MergeProofs.
Import ListNotations.
Open Scope Z_scope.

Definition sq (x y : Z) (c : Z) : stitch Q := mkS (inject_Z x) (inject_Z y) c.

(** ** C33 *)

(** Without clipping (or when nothing stands between two jumps) the loop ends after one round
    per command, only inserts trims where the needle stands and only leaves out runs of jumps
    that return to their start; and fewer than [n] untrimmed jumps follow any sewing when
    [n] jumps are to require a trim. *)
Theorem C33_interpolate_trims_partial : forall jumps dist clipping l fuel,
  (clipping = true -> plain_jumps l) -> (length l <= fuel)%nat ->
  exists l', interpolate_trims jumps dist clipping fuel l = Ok l'
    /\ edited clipping 0%Q 0%Q l l'
    /\ forall n, jumps = Some n -> 1 <= n -> few_jumps (Z.to_nat n) l'.
Proof. intros. apply interpolate_trims_spec; assumption. Qed.

(** What [edited] keeps: every command that is neither a jump nor a trim, with its position, in
    order; and the end position. *)
Theorem C33_keeps_commands : forall drops x y l l', edited drops x y l l' ->
  filter (fun s => negb (cmd_of (scmd s) =? JUMP) && negb (cmd_of (scmd s) =? TRIM)) l'
  = filter (fun s => negb (cmd_of (scmd s) =? JUMP) && negb (cmd_of (scmd s) =? TRIM)) l
  /\ (fst (end_pos x y l') == fst (end_pos x y l))%Q /\ (snd (end_pos x y l') == snd (end_pos x y l))%Q.
Proof.
  intros d x y l l' H.
  assert (J : forall js : list (stitch Q), Forall is_jump js ->
    filter (fun s => negb (cmd_of (scmd s) =? JUMP) && negb (cmd_of (scmd s) =? TRIM)) js = []).
  { induction 1 as [|s js E _ IH]; cbn [filter]; [reflexivity|]. rewrite E. exact IH. }
  assert (P : forall (l : list (stitch Q)) x y x' y', (x == x')%Q -> (y == y')%Q ->
    (fst (end_pos x y l) == fst (end_pos x' y' l))%Q /\ (snd (end_pos x y l) == snd (end_pos x' y' l))%Q).
  { intros [|u r]; cbn [end_pos fst snd]; intros; split; auto; reflexivity. }
  induction H as [x y|x y s l l' _ [IH1 IH2]|x y t l l' Et Ex Ey _ [IH1 IH2]|x y js l l' _ Fj Ex Ey _ [IH1 IH2]].
  - split; [reflexivity|]. split; reflexivity.
  - cbn [filter end_pos]. rewrite IH1. auto.
  - cbn [filter end_pos]. rewrite Et. cbn. split; [exact IH1|]. destruct IH2 as [IH2 IH3].
    rewrite IH2, IH3. apply P; assumption.
  - rewrite filter_app, (J js Fj), IH1. split; [reflexivity|]. rewrite end_pos_app. destruct IH2 as [IH2 IH3].
    rewrite IH2, IH3. apply P; symmetry; assumption.
Qed.

(** In general the clipping also deletes what stands between the jumps of a run: here a STOP. *)
Theorem C33_clipping_deletes_stop_refuted :
  exists l l', interpolate_trims None None true (length l) l = Ok l'
    /\ In (sq 10 0 STOP) l /\ ~ In STOP (map scmd l').
Proof.
  exists [sq 0 0 STITCH; sq 10 0 JUMP; sq 10 0 STOP; sq 0 0 JUMP; sq 5 5 STITCH]. eexists.
  split; [vm_compute; reflexivity|]. split; [cbn; auto|]. vm_compute. intuition discriminate.
Qed.

Example C33_case :
  let l := [sq 0 0 STITCH; sq 10 0 JUMP; sq 20 0 JUMP; sq 30 0 JUMP; sq 30 0 STITCH; sq 40 0 JUMP;
            sq 30 0 JUMP; sq 30 0 STITCH; sq 30 0 COLOR_CHANGE; sq 30 0 JUMP; sq 31 0 STITCH; sq 31 0 END] in
  plain_jumps l
  /\ exists l', interpolate_trims (Some 3) None true (length l) l = Ok l'
     /\ map (fun s => (Qred (sx s), scmd s)) l'
        = [(0%Q, STITCH); (0%Q, TRIM); (10%Q, JUMP); (20%Q, JUMP); (30%Q, JUMP); (30%Q, STITCH);
           (30%Q, STITCH); (30%Q, COLOR_CHANGE); (31%Q, STITCH); (31%Q, END)].
Proof.
  intros l. split.
  - intros a j m k b E Hj Hk Fm. destruct m as [|u m]; [reflexivity|]. exfalso.
    inversion Fm as [|? ? [Hu1 Hu2] _]; subst. clear Fm.
    assert (G : forall (l : list (stitch Q)), (forall a j u r, l = a ++ j :: u :: r -> is_jump j -> is_jump u \/ ends_jumps u) ->
      l = a ++ j :: (u :: m) ++ k :: b -> False).
    { intros l' H E'. destruct (H a j u (m ++ k :: b) E' Hj); contradiction. }
    refine (G l _ E). clear. intros a j u r E Hj. unfold l in E.
    assert (N : nth_error l (length a) = Some j /\ nth_error l (S (length a)) = Some u).
    { unfold l. rewrite E, !nth_error_app2 by lia. rewrite Nat.sub_diag.
      replace (S (length a) - length a)%nat with 1%nat by lia. auto. }
    destruct N as [N1 N2]. clear E. unfold l in *.
    assert (In (cmd_of (scmd u)) [STITCH; JUMP]).
    { do 13 (destruct a as [|? a]; [cbn in N1, N2; first [discriminate N1 | discriminate N2 | injection N1 as <-; first [discriminate Hj | injection N2 as <-; cbn; auto]]|]).
      cbn in N1. destruct (length a); discriminate. }
    cbn in H. destruct H as [H|[H|[]]]; [right | left]; unfold ends_jumps, is_jump; rewrite <- H; cbn; auto.
  - eexists. split; vm_compute; reflexivity.
Qed.

(** ** C34 *)
Theorem C34_stops_as_colours_and_back : forall T C (teq : T -> T -> bool) change_command
    (l l1 : list (stitch C)) (threads threads1 : list T),
  (forall t, teq t t = true) ->
  In (cmd_of change_command) [COLOR_CHANGE; COLOR_BREAK; NEEDLE_SET] ->
  sections_sewn false l ->
  Forall (fun s => is_stop s -> scmd s = STOP) l ->
  (thread_changes l < length threads)%nat ->
  neighbours_differ teq threads ->
  interpolate_stop_as_duplicate_color change_command l threads = (l1, threads1) ->
  interpolate_duplicate_color_as_stop teq l1 threads1 = (l, threads)
  /\ Forall (fun s => ~ is_stop s) l1.
Proof.
  intros T C teq cc l l1 threads threads1 Hr Hcc Hs Hp Hn Nd E.
  assert (Hc : changes cc = true).
  { unfold changes. cbn [In] in Hcc. rewrite !orb_true_iff, !Z.eqb_eq. intuition. }
  unfold interpolate_stop_as_duplicate_color in E.
  pose proof (stop_as_duplicate_spec cc l [] [] threads Hn) as S. unfold zlen in S. cbn [app length Z.of_nat] in S.
  rewrite S in E. injection E as <- <-. destruct threads as [|t ts]; [cbn in Hn; lia|].
  cbn [length] in Hn. split.
  - rewrite expand_head. unfold interpolate_duplicate_color_as_stop.
    pose proof (duplicate_as_stop_start teq cc Hr Hc l [] t ts Hs Hp ltac:(lia) Nd) as D.
    exact D.
  - apply Forall_map. apply Forall_forall. intros s _. unfold conv, is_stop.
    destruct (Z.eqb_spec (cmd_of (scmd s)) STOP) as [E|E]; [|exact E]. cbn [scmd]. intros E2.
    unfold changes in Hc. rewrite E2 in Hc. discriminate.
Qed.

Example C34_case :
  let l := [sq 0 0 JUMP; sq 0 0 STITCH; sq 0 0 STOP; sq 1 0 SEW_TO; sq 1 0 COLOR_CHANGE; sq 2 0 STITCH;
            sq 2 0 STOP; sq 3 0 STITCH; sq 3 0 END] in
  sections_sewn false l /\ Forall (fun s => is_stop s -> scmd s = STOP) l
  /\ interpolate_stop_as_duplicate_color COLOR_CHANGE l [7; 8] =
     ([sq 0 0 JUMP; sq 0 0 STITCH; sq 0 0 COLOR_CHANGE; sq 1 0 SEW_TO; sq 1 0 COLOR_CHANGE; sq 2 0 STITCH;
       sq 2 0 COLOR_CHANGE; sq 3 0 STITCH; sq 3 0 END], [7; 7; 8; 8]).
Proof.
  intros l. split; [|split].
  - unfold l.
    repeat first
      [ apply sections_end
      | apply sections_sew; [unfold is_sewing; cbn; tauto|]
      | apply sections_edge; [unfold is_change, is_stop; cbn; tauto|]
      | apply sections_other; [unfold is_sewing; cbn; intuition discriminate
          | unfold is_change; cbn; intuition discriminate | unfold is_stop; cbn; intuition discriminate |] ].
  - unfold l. repeat (constructor; [cbn; intros H; try discriminate H; reflexivity|]). constructor.
  - reflexivity.
Qed.

(** A stop that nothing is sewn after is not restored. *)
Theorem C34_unsewn_stop_refuted : exists l : list (stitch Q),
  let '(l1, t1) := interpolate_stop_as_duplicate_color COLOR_CHANGE l [7] in
  interpolate_duplicate_color_as_stop Z.eqb l1 t1 <> (l, [7]).
Proof. exists [sq 0 0 STITCH; sq 0 0 STOP; sq 0 0 END]. vm_compute. discriminate. Qed.

(** ** C35 *)
Theorem C35_frame_eject : forall C (l : list (stitch C)) fuel, (2 * length l <= fuel)%nat ->
  exists l', interpolate_frame_eject fuel l = Ok l' /\ ejected l l'.
Proof. intros. apply interpolate_frame_eject_spec. assumption. Qed.

Theorem C35_keeps_sewing : forall C (l l' : list (stitch C)), ejected l l' ->
  filter (fun s => sews (scmd s) || changes (scmd s)) l' = filter (fun s => sews (scmd s) || changes (scmd s)) l.
Proof.
  assert (N : forall C (g : list (stitch C)), Forall (fun s => ~ is_sewing s /\ ~ is_change s) g ->
    filter (fun s => sews (scmd s) || changes (scmd s)) g = []).
  { intros C. induction 1 as [|s g [H1 H2] _ IH]; cbn [filter]; [reflexivity|].
    rewrite (not_sewing _ H1), (not_change _ H2). exact IH. }
  induction 1 as [g g' F G|g g' s r r' F G Hs _ IH].
  - rewrite !N; auto. eapply gap_calm; eauto.
  - rewrite !filter_app, (N _ g F), (N _ g'). 2: eapply gap_calm; eauto. cbn [filter]. rewrite IH. reflexivity.
Qed.

Example C35_case :
  interpolate_frame_eject 20 [sq 0 0 STITCH; sq 5 0 JUMP; sq 9 9 STOP; sq 0 0 JUMP; sq 1 0 STITCH; sq 1 0 STOP; sq 2 0 JUMP;
     sq 3 0 STOP; sq 3 0 END]
  = Ok [sq 0 0 STITCH; sq 9 9 FRAME_EJECT; sq 1 0 STITCH; sq 1 0 STOP; sq 3 0 FRAME_EJECT].
Proof. vm_compute. reflexivity. Qed.

(** The replaced stretch is not always just jump, stop, jump: a sequin in it is lost. *)
Theorem C35_sequin_lost_refuted : exists l l' : list (stitch Q),
  interpolate_frame_eject (2 * length l) l = Ok l' /\ In SEQUIN_EJECT (map scmd l) /\ ~ In SEQUIN_EJECT (map scmd l').
Proof.
  exists [sq 0 0 STITCH; sq 5 0 JUMP; sq 5 0 STOP; sq 5 0 SEQUIN_EJECT; sq 0 0 JUMP; sq 1 0 STITCH]. eexists.
  split; [vm_compute; reflexivity|]. split; [cbn; auto 10|]. vm_compute. intuition discriminate.
Qed.

(** ** C36 *)
Theorem C36_command_blocks : forall C (l : list (stitch C)),
  concat (get_as_command_blocks l) = l /\ command_cut l (get_as_command_blocks l).
Proof. intros. split; [apply command_cut_concat|]; apply command_blocks_spec. Qed.

Theorem C36_colour_blocks : forall T C (get : Z -> T) (l : list (stitch C)),
  let bs := get_as_colorblocks get l in
  concat (map fst bs) = filter (fun s => negb (cmd_of (scmd s) =? COLOR_BREAK)) l
  /\ color_cut l (map fst bs)
  /\ map snd bs = map (fun i => get (Z.of_nat i)) (seq 0 (length bs)).
Proof.
  intros T C get l bs.
  destruct (colorblocks_spec get l l [] [] 0 eq_refl I) as (bs' & H1 & H2 & H3).
  change (zlen (@nil (stitch C))) with 0 in H2, H3. change (0 + 0) with 0 in H2, H3.
  fold (get_as_colorblocks get l) in H2, H3. fold bs in H2, H3. cbn [app] in H1.
  rewrite H2. split; [apply color_cut_concat; assumption|]. split; [assumption|].
  rewrite H3, <- H2, map_length, map_map. apply map_ext. reflexivity.
Qed.

(** Each run of stitches is paired with the thread whose index is the number of colour
    changes before it. *)
Theorem C36_stitch_blocks : forall T C (get : Z -> T) (l : list (stitch C)),
  let bs := get_as_stitchblock get l in
  concat (map fst bs) = filter (fun s => cmd_of (scmd s) =? STITCH) l
  /\ exists cut, stitch_cut 0 l cut /\ bs = map (fun p => (fst p, get (snd p))) cut.
Proof.
  intros T C get l bs. destruct (stitchblocks_spec get l [] 0) as (cut & H1 & H2); [constructor|].
  fold (get_as_stitchblock get l) in H2. change (0 + 1) with 1 in H2. fold (get_as_stitchblock get l) in H2.
  fold bs in H2. split; [|eauto]. rewrite H2, map_map. cbn [fst]. apply stitch_cut_concat with 0. exact H1.
Qed.

Example C36_case :
  let l := [sq 0 0 NEEDLE_SET; sq 0 0 STITCH; sq 1 0 STITCH; sq 1 0 COLOR_CHANGE; sq 1 0 COLOR_BREAK; sq 2 0 STITCH;
            sq 2 0 NEEDLE_SET; sq 3 0 STITCH; sq 3 0 END] in
  map (fun b => (length (fst b), snd b)) (get_as_colorblocks (fun i => i) l) = [(4%nat, 0); (1%nat, 1); (3%nat, 2)]
  /\ map (fun b => (length (fst b), snd b)) (get_as_stitchblock (fun i => i) l) = [(2%nat, 0); (1%nat, 1); (1%nat, 1)]
  /\ map (@length _) (get_as_command_blocks l) = [1; 2; 1; 1; 1; 1; 1; 1]%nat.
Proof. repeat split; vm_compute; reflexivity. Qed.

(** C56: the two decompositions do not agree on threads when colours are separated by needle
    sets or colour breaks: the stitches of colour block 1 are paired with thread 0. *)
Theorem C56_block_threads_refuted : exists (l b b' : list (stitch Q)) s,
  In (b, 1) (get_as_colorblocks (fun i => i) l) /\ In s b
  /\ In (b', 0) (get_as_stitchblock (fun i => i) l) /\ In s b'
  /\ ~ In s (concat (map fst (filter (fun p => snd p =? 0) (get_as_colorblocks (fun i => i) l)))).
Proof.
  exists [sq 0 0 STITCH; sq 0 0 NEEDLE_SET; sq 7 0 STITCH], [sq 0 0 NEEDLE_SET; sq 7 0 STITCH], [sq 7 0 STITCH], (sq 7 0 STITCH).
  vm_compute. intuition discriminate.
Qed.

(** When only colour changes separate colours, they do agree: both number a stitch by the colour
    changes before it. *)
Lemma color_cut_numbers {C} (l : list (stitch C)) bs : color_cut l bs ->
  Forall (fun s => cmd_of (scmd s) <> NEEDLE_SET /\ cmd_of (scmd s) <> COLOR_BREAK) l ->
  forall i b, nth_error bs i = Some b -> forall s, In s b ->
  exists a c, l = a ++ s :: c
    /\ length (filter (fun u => cmd_of (scmd u) =? COLOR_CHANGE) a) = i.
Proof.
  assert (P : forall (b : list (stitch C)), plain_color b ->
    Forall (fun s => cmd_of (scmd s) <> NEEDLE_SET /\ cmd_of (scmd s) <> COLOR_BREAK) b ->
    filter (fun u => cmd_of (scmd u) =? COLOR_CHANGE) b = []).
  { assert (Q : forall b : list (stitch C), Forall in_color b -> filter (fun u => cmd_of (scmd u) =? COLOR_CHANGE) b = []).
    { induction 1 as [|s b Hs _ IH]; cbn [filter]; [reflexivity|].
      destruct (Z.eqb_spec (cmd_of (scmd s)) COLOR_CHANGE) as [E|]; [|exact IH]. exfalso. apply Hs. rewrite E. cbn. auto. }
    intros [|s b]; [reflexivity|]. intros [Hs Fb] F. inversion F as [|? ? [F1 F2] _]; subst. cbn [filter].
    destruct (Z.eqb_spec (cmd_of (scmd s)) COLOR_CHANGE) as [E|]; [|apply Q; exact Fb].
    exfalso. destruct Hs as [Hs|Hs]; [apply Hs; rewrite E; cbn; auto | contradiction]. }
  induction 1 as [|b Hb Pb|s l bs E _ IH|b s l bs Hb Pb E _ IH|b s l bs Pb E _ IH|b s l bs Hb Pb E _ IH];
    intros F i b0 Hi u Hu.
  - destruct i; discriminate.
  - destruct i as [|[|i]]; try discriminate. injection Hi as <-.
    apply in_split in Hu. destruct Hu as (a & c & ->). exists a, c. split; [reflexivity|].
    pose proof (P _ Pb F) as Q. rewrite filter_app in Q. apply app_eq_nil in Q. destruct Q as [-> _]. reflexivity.
  - inversion F as [|? ? [_ F2] _]; subst. contradiction.
  - rewrite Forall_app in F. destruct F as [_ F]. inversion F as [|? ? [_ F2] _]; subst. contradiction.
  - rewrite Forall_app in F. destruct F as [F0 F]. inversion F as [|? ? [F1 F2] F3]; subst. destruct i as [|i].
    + injection Hi as <-. apply in_app_or in Hu. destruct Hu as [Hu|[<-|[]]].
      * apply in_split in Hu. destruct Hu as (a & c & ->). exists a, (c ++ s :: l).
        rewrite <- app_assoc. split; [reflexivity|].
        pose proof (P _ Pb F0) as Q. rewrite filter_app in Q. apply app_eq_nil in Q. destruct Q as [-> _]. reflexivity.
      * exists b, l. split; [reflexivity|]. rewrite (P _ Pb F0). reflexivity.
    + cbn [nth_error] in Hi. destruct (IH F3 i b0 Hi u Hu) as (a & c & -> & L).
      exists (b ++ s :: a), c. rewrite <- app_assoc. split; [reflexivity|].
      rewrite filter_app, (P _ Pb F0). cbn [filter]. rewrite E. cbn. congruence.
  - rewrite Forall_app in F. destruct F as [_ F]. inversion F as [|? ? [F1 _] _]; subst. contradiction.
Qed.
Lemma stitch_cut_numbers {C} n (l : list (stitch C)) cut : stitch_cut n l cut ->
  forall b k, In (b, k) cut -> forall s, In s b ->
  exists a c, l = a ++ s :: c
    /\ k = n + Z.of_nat (length (filter (fun u => cmd_of (scmd u) =? COLOR_CHANGE) a)).
Proof.
  assert (P : forall b : list (stitch C), Forall is_stitch b -> filter (fun u => cmd_of (scmd u) =? COLOR_CHANGE) b = []).
  { induction 1 as [|s b Hs _ IH]; cbn [filter]; [reflexivity|]. rewrite Hs. exact IH. }
  assert (Run : forall (b : list (stitch C)) s r n, Forall is_stitch b -> In s b ->
    exists a c, b ++ r = a ++ s :: c /\ n = n + Z.of_nat (length (filter (fun u => cmd_of (scmd u) =? COLOR_CHANGE) a))).
  { intros b s r n' Fb Hs. apply in_split in Hs. destruct Hs as (a & c & ->). exists a, (c ++ r).
    rewrite <- app_assoc. split; [reflexivity|].
    pose proof (P _ Fb) as Q. rewrite filter_app in Q. apply app_eq_nil in Q. destruct Q as [-> _]. cbn. lia. }
  induction 1 as [n|n b Hb Fb|n b s l bs Hb Fb Hs _ IH|n s l bs E _ IH|n s l bs Hs E _ IH]; intros b0 k Hi u Hu.
  - destruct Hi.
  - destruct Hi as [Hi|[]]. injection Hi as <- <-. destruct (Run b u [] n Fb Hu) as (a & c & E & L).
    rewrite app_nil_r in E. eauto.
  - destruct Hi as [Hi|Hi].
    + injection Hi as <- <-. apply Run; assumption.
    + destruct (IH b0 k Hi u Hu) as (a & c & -> & L). exists (b ++ a), c. rewrite <- app_assoc. split; [reflexivity|].
      rewrite filter_app, (P _ Fb). exact L.
  - destruct (IH b0 k Hi u Hu) as (a & c & -> & L). exists (s :: a), c. split; [reflexivity|].
    cbn [filter]. rewrite E. cbn [length Z.eqb]. rewrite L. rewrite (proj2 (Z.eqb_eq _ _) eq_refl). cbn [length]. lia.
  - destruct (IH b0 k Hi u Hu) as (a & c & -> & L). exists (s :: a), c. split; [reflexivity|].
    cbn [filter]. rewrite (proj2 (Z.eqb_neq _ _) E). exact L.
Qed.
Theorem C56_block_threads_partial : forall C (l : list (stitch C)),
  Forall (fun s => cmd_of (scmd s) <> NEEDLE_SET /\ cmd_of (scmd s) <> COLOR_BREAK) l ->
  (forall i b s, nth_error (get_as_colorblocks (fun i => i) l) i = Some (b, Z.of_nat i) -> In s b ->
     exists a c, l = a ++ s :: c /\ length (filter (fun u => cmd_of (scmd u) =? COLOR_CHANGE) a) = i)
  /\ (forall b k s, In (b, k) (get_as_stitchblock (fun i => i) l) -> In s b ->
     exists a c, l = a ++ s :: c /\ k = Z.of_nat (length (filter (fun u => cmd_of (scmd u) =? COLOR_CHANGE) a))).
Proof.
  intros C l F. split.
  - intros i b s Hi Hs. destruct (C36_colour_blocks Z C (fun i => i) l) as (_ & Hc & _).
    eapply color_cut_numbers; eauto. rewrite nth_error_map, Hi. reflexivity.
  - intros b k s Hi Hs. destruct (C36_stitch_blocks Z C (fun i => i) l) as (_ & cut & Hc & E).
    rewrite E in Hi. apply in_map_iff in Hi. destruct Hi as ([b' k'] & E2 & Hi). cbn in E2. injection E2 as -> ->.
    destruct (stitch_cut_numbers 0 l cut Hc b k Hi s Hs) as (a & c & H1 & H2). exists a, c. split; [exact H1|].
    lia.
Qed.

(** ** C37 *)
Theorem C37_bounds : forall l, l <> [] -> exists x0 y0 x1 y1,
  bounds l = (Some x0, Some y0, Some x1, Some y1)
  /\ (forall s, In s l -> (x0 <= sx s <= x1)%Q /\ (y0 <= sy s <= y1)%Q)
  /\ In x0 (map sx l) /\ In x1 (map sx l) /\ In y0 (map sy l) /\ In y1 (map sy l).
Proof.
  intros l Hl. pose proof (bounds_covers l) as H. destruct (bounds l) as [[[x0 y0] x1] y1]. unfold covers in H.
  destruct x0 as [x0|], y0 as [y0|], x1 as [x1|], y1 as [y1|]; try contradiction.
  destruct H as (F & (a & Ha & <-) & (b & Hb & <-) & (c & Hc & <-) & (d & Hd & <-)).
  do 4 eexists. split; [reflexivity|]. rewrite Forall_forall in F. split; [exact F|].
  auto 10 using in_map.
Qed.

(** The least and greatest value are determined up to equality of rationals. *)
Lemma least_unique (l : list Q) a b : In a l -> In b l -> (forall v, In v l -> (a <= v)%Q) ->
  (forall v, In v l -> (b <= v)%Q) -> (a == b)%Q.
Proof. intros Ha Hb La Lb. apply Qle_antisym; auto. Qed.
Lemma greatest_unique (l : list Q) a b : In a l -> In b l -> (forall v, In v l -> (v <= a)%Q) ->
  (forall v, In v l -> (v <= b)%Q) -> (a == b)%Q.
Proof. intros Ha Hb La Lb. apply Qle_antisym; auto. Qed.

Theorem C37_translate : forall dx dy l, l <> [] -> exists x0 y0 x1 y1 x0' y0' x1' y1',
  bounds l = (Some x0, Some y0, Some x1, Some y1)
  /\ bounds (translate dx dy l) = (Some x0', Some y0', Some x1', Some y1')
  /\ (x0' == x0 + dx /\ y0' == y0 + dy /\ x1' == x1 + dx /\ y1' == y1 + dy)%Q.
Proof.
  intros dx dy l Hl.
  destruct (C37_bounds l Hl) as (x0 & y0 & x1 & y1 & E & B & I1 & I2 & I3 & I4).
  assert (Hl' : translate dx dy l <> []) by (destruct l; [congruence | discriminate]).
  destruct (C37_bounds _ Hl') as (x0' & y0' & x1' & y1' & E' & B' & I1' & I2' & I3' & I4').
  exists x0, y0, x1, y1, x0', y0', x1', y1'. split; [exact E|]. split; [exact E'|].
  assert (Mx : map sx (translate dx dy l) = map (fun v => (v + dx)%Q) (map sx l))
    by (unfold translate; rewrite !map_map; reflexivity).
  assert (My : map sy (translate dx dy l) = map (fun v => (v + dy)%Q) (map sy l))
    by (unfold translate; rewrite !map_map; reflexivity).
  assert (Bx : forall v, In v (map sx l) -> (x0 <= v <= x1)%Q) by (intros v Hv; apply in_map_iff in Hv; destruct Hv as (s & <- & Hs); apply B, Hs).
  assert (By : forall v, In v (map sy l) -> (y0 <= v <= y1)%Q) by (intros v Hv; apply in_map_iff in Hv; destruct Hv as (s & <- & Hs); apply B, Hs).
  assert (Bx' : forall v, In v (map sx (translate dx dy l)) -> (x0' <= v <= x1')%Q) by (intros v Hv; apply in_map_iff in Hv; destruct Hv as (s & <- & Hs); apply B', Hs).
  assert (By' : forall v, In v (map sy (translate dx dy l)) -> (y0' <= v <= y1')%Q) by (intros v Hv; apply in_map_iff in Hv; destruct Hv as (s & <- & Hs); apply B', Hs).
  rewrite Mx in *. rewrite My in *.
  assert (Sh : forall (vs : list Q) d v, In v vs -> In (v + d)%Q (map (fun v => (v + d)%Q) vs)) by (intros; apply in_map_iff; eauto).
  assert (Lo : forall vs d a b lo hi, (forall v, In v vs -> (a <= v <= b)%Q) ->
    forall v, In v (map (fun v => (v + d)%Q) vs) -> (lo == a + d)%Q -> (hi == b + d)%Q -> (lo <= v <= hi)%Q).
  { intros vs d a b lo hi H v Hv El Eh. apply in_map_iff in Hv. destruct Hv as (u & <- & Hu). specialize (H u Hu). Lqa.lra. }
  repeat split.
  - apply (least_unique (map (fun v => (v + dx)%Q) (map sx l))); auto; intros v Hv; [apply (Bx' v Hv)|].
    apply (Lo (map sx l) dx x0 x1 (x0 + dx)%Q (x1 + dx)%Q Bx v Hv); reflexivity.
  - apply (least_unique (map (fun v => (v + dy)%Q) (map sy l))); auto; intros v Hv; [apply (By' v Hv)|].
    apply (Lo (map sy l) dy y0 y1 (y0 + dy)%Q (y1 + dy)%Q By v Hv); reflexivity.
  - apply (greatest_unique (map (fun v => (v + dx)%Q) (map sx l))); auto; intros v Hv; [apply (Bx' v Hv)|].
    apply (Lo (map sx l) dx x0 x1 (x0 + dx)%Q (x1 + dx)%Q Bx v Hv); reflexivity.
  - apply (greatest_unique (map (fun v => (v + dy)%Q) (map sy l))); auto; intros v Hv; [apply (By' v Hv)|].
    apply (Lo (map sy l) dy y0 y1 (y0 + dy)%Q (y1 + dy)%Q By v Hv); reflexivity.
Qed.

(** Translating and translating back: the same commands at equal coordinates. *)
Theorem C37_translate_back : forall dx dy l,
  Forall2 (fun a b => (sx a == sx b)%Q /\ (sy a == sy b)%Q /\ scmd a = scmd b)
    (translate (- dx)%Q (- dy)%Q (translate dx dy l)) l.
Proof.
  intros dx dy l. induction l as [|s l IH]; cbn [translate map]; constructor; [|exact IH].
  cbn [sx sy scmd]. repeat split; Lqa.lra.
Qed.

Theorem C37_centre : forall l, l <> [] -> exists l' x0 y0 x1 y1,
  move_center_to_origin l = Ok l'
  /\ bounds l' = (Some x0, Some y0, Some x1, Some y1)
  /\ (Qabs ((x0 + x1) / 2) <= 1 # 2)%Q /\ (Qabs ((y0 + y1) / 2) <= 1 # 2)%Q
  /\ exists cx cy : Z, l' = translate (inject_Z (- cx)) (inject_Z (- cy)) l.
Proof.
  intros l Hl. destruct (C37_bounds l Hl) as (x0 & y0 & x1 & y1 & E & _).
  unfold move_center_to_origin. rewrite E.
  set (cx := q_round ((x1 + x0) / 2)%Q). set (cy := q_round ((y1 + y0) / 2)%Q).
  destruct (C37_translate (inject_Z (- cx)) (inject_Z (- cy)) l Hl)
    as (a & b & c & d & a' & b' & c' & d' & E1 & E2 & Ea & Eb & Ec & Ed).
  rewrite E in E1. injection E1 as <- <- <- <-.
  exists (translate (inject_Z (- cx)) (inject_Z (- cy)) l), a', b', c', d'.
  split; [reflexivity|]. split; [exact E2|].
  pose proof (q_round_half ((x1 + x0) / 2)%Q) as Rx. fold cx in Rx.
  pose proof (q_round_half ((y1 + y0) / 2)%Q) as Ry. fold cy in Ry.
  rewrite Ea, Eb, Ec, Ed, !inject_Z_opp.
  assert (Hh : forall v w : Q, ((v + - w + (v + - w)) / 2 == v - w)%Q) by (intros; field).
  split; [|split; [|exists cx, cy; rewrite !inject_Z_opp; reflexivity]].
  - apply Qabs_Qle_condition.
    assert (X : ((x0 + - inject_Z cx + (x1 + - inject_Z cx)) / 2 == (x1 + x0) / 2 - inject_Z cx)%Q) by field.
    rewrite X. exact Rx.
  - apply Qabs_Qle_condition.
    assert (X : ((y0 + - inject_Z cy + (y1 + - inject_Z cy)) / 2 == (y1 + y0) / 2 - inject_Z cy)%Q) by field.
    rewrite X. exact Ry.
Qed.

(** An empty pattern cannot be centred. *)
Theorem C37_centre_empty_refuted : move_center_to_origin [] = Err ValueError.
Proof. reflexivity. Qed.

Example C37_case : bounds [sq 3 (-4) STITCH; sq (-7) 9 JUMP; sq 0 0 END]
    = (Some (inject_Z (-7)), Some (inject_Z (-4)), Some (inject_Z 3), Some (inject_Z 9))
  /\ exists l', move_center_to_origin [sq 3 (-4) STITCH; sq (-7) 9 JUMP; sq 0 0 END] = Ok l'
     /\ map (fun s => (Qred (sx s), Qred (sy s))) l' = [(5, -6); (-5, 7); (2, -2)]%Q.
Proof. split; [vm_compute; reflexivity|]. eexists. split; vm_compute; reflexivity. Qed.

(** ** C38 *)
Theorem C38_fix_color_count : forall T C (filler : Z -> T) (l : list (stitch C)) threads,
  exists o n added, sewn_sections l o n
    /\ fix_color_count filler l threads = threads ++ added
    /\ length added = (n - length threads)%nat.
Proof.
  intros T C filler l threads.
  destruct (count_sections_spec l [] false 0 sewn_nil) as (o & n & H & E). cbn [app negb] in *.
  unfold fix_color_count. change (Z.of_nat 0) with 0 in E. rewrite E, add_fillers_spec.
  exists o, n. eexists. split; [exact H|]. split; [reflexivity|].
  rewrite map_length, seq_length. unfold zlen. lia.
Qed.
Theorem C38_sections_determined : forall C (l : list (stitch C)) o n o' n',
  sewn_sections l o n -> sewn_sections l o' n' -> n = n'.
Proof. intros C l o n o' n' H H'. exact (proj2 (sewn_sections_fun l o n H o' n' H')). Qed.

Example C38_case :
  fix_color_count (fun i => 100 + i) [sq 0 0 COLOR_CHANGE; sq 0 0 STITCH; sq 0 0 COLOR_BREAK; sq 0 0 NEEDLE_SET;
     sq 0 0 SEW_TO; sq 0 0 COLOR_CHANGE; sq 0 0 JUMP; sq 0 0 COLOR_CHANGE; sq 1 1 STITCH; sq 1 1 END] [7] = [7; 101; 102].
Proof. reflexivity. Qed.

(** ** C52 *)
(** Where position [i] is in a list of length [n]: Python's negative indices count from the end. *)
Definition position_of (i n : Z) : Z := if i <? 0 then i + n else i.

Theorem C52_insert_relative : forall T i cmd dx dy (p : pattern T Q),
  let l := p_stitches p in
  0 <= position_of i (Z.of_nat (length l)) < Z.of_nat (length l) ->
  exists a b p',
    l = a ++ b /\ Z.of_nat (length a) = position_of i (Z.of_nat (length l))
    /\ insert_stitch_relative i cmd dx dy p = Ok p'
    /\ p_threads p' = p_threads p
    /\ exists s, p_stitches p' = a ++ s :: b /\ scmd s = cmd
       /\ (sx s == fst (end_pos 0 0 a) + dx)%Q /\ (sy s == snd (end_pos 0 0 a) + dy)%Q
       /\ p_x p' = p_x p /\ p_y p' = p_y p.
Proof.
  intros T i cmd dx dy p l Hi. set (k := position_of i (Z.of_nat (length l))) in *.
  exists (firstn (Z.to_nat k) l), (skipn (Z.to_nat k) l).
  assert (Ln : Z.of_nat (length (firstn (Z.to_nat k) l)) = k).
  { rewrite firstn_length. lia. }
  unfold insert_stitch_relative. cbn zeta. fold l. unfold zlen. fold k.
  change (if i <? 0 then i + Z.of_nat (length l) else i) with k.
  assert (El : l = firstn (Z.to_nat k) l ++ skipn (Z.to_nat k) l) by (symmetry; apply firstn_skipn).
  destruct (Z.eqb_spec k 0) as [E0|E0].
  - rewrite E0 in *. eexists. split; [exact El|]. split; [exact Ln|]. split; [reflexivity|]. cbn [p_threads p_stitches p_x p_y].
    split; [reflexivity|]. eexists. split; [reflexivity|]. cbn. repeat split; Lqa.lra.
  - destruct (Z.eqb_spec k (Z.of_nat (length l))); [lia|].
    destruct (Z.ltb_spec 0 k); [|lia]. destruct (Z.ltb_spec k (Z.of_nat (length l))); [|lia]. cbn [andb].
    set (a := firstn (Z.to_nat k) l) in *. set (b := skipn (Z.to_nat k) l) in *.
    destruct a as [|u a] using rev_ind; [cbn in Ln; lia|]. clear IHa.
    assert (Hidx : py_index (k - 1) l = Ok u).
    { rewrite El, <- app_assoc. apply py_index_app. rewrite app_length in Ln. cbn in Ln. unfold zlen. lia. }
    rewrite Hidx. cbn [bindr]. eexists. split; [exact El|]. split; [exact Ln|]. split; [reflexivity|].
    cbn [p_threads p_stitches p_x p_y]. split; [reflexivity|]. eexists. split.
    + rewrite El. apply py_insert_app. symmetry. exact Ln.
    + cbn [scmd sx sy]. rewrite end_pos_snoc. repeat split; reflexivity.
Qed.

(** Inserting at the end is adding: relative to where the last addition ended. *)
Theorem C52_insert_at_end : forall T cmd dx dy (p : pattern T Q),
  p_stitches p <> [] ->
  insert_stitch_relative (Z.of_nat (length (p_stitches p))) cmd dx dy p = Ok (add_stitch_relative cmd dx dy p)
  /\ p_stitches (add_stitch_relative cmd dx dy p) = p_stitches p ++ [mkS (p_x p + dx)%Q (p_y p + dy)%Q cmd].
Proof.
  intros T cmd dx dy p H. split; [|reflexivity]. unfold insert_stitch_relative, zlen.
  destruct (Z.ltb_spec (Z.of_nat (length (p_stitches p))) 0); [lia|].
  destruct (Z.eqb_spec (Z.of_nat (length (p_stitches p))) 0) as [E|E].
  - destruct (p_stitches p); [congruence | discriminate].
  - rewrite Z.eqb_refl. reflexivity.
Qed.

(** A position outside the list inserts nothing. *)
Theorem C52_out_of_range : forall T i cmd dx dy (p : pattern T Q),
  position_of i (Z.of_nat (length (p_stitches p))) < 0
  \/ Z.of_nat (length (p_stitches p)) < position_of i (Z.of_nat (length (p_stitches p))) ->
  insert_stitch_relative i cmd dx dy p = Ok p.
Proof.
  intros T i cmd dx dy p H. unfold insert_stitch_relative, zlen. cbn zeta.
  change (if i <? 0 then i + Z.of_nat (length (p_stitches p)) else i)
    with (position_of i (Z.of_nat (length (p_stitches p)))).
  set (k := position_of i (Z.of_nat (length (p_stitches p)))) in *.
  destruct (Z.eqb_spec k 0); [lia|]. destruct (Z.eqb_spec k (Z.of_nat (length (p_stitches p)))); [lia|].
  destruct (Z.ltb_spec 0 k), (Z.ltb_spec k (Z.of_nat (length (p_stitches p)))); cbn [andb]; try reflexivity. lia.
Qed.

(** Inserting at the end of an empty pattern is not adding: the position that later relative
    additions start from is not updated. *)
Theorem C52_insert_empty_refuted : exists p : pattern Z Q,
  insert_stitch_relative (Z.of_nat (length (p_stitches p))) STITCH 5 0 p <> Ok (add_stitch_relative STITCH 5 0 p).
Proof. exists (mkP [] [] 0%Q 0%Q). vm_compute. discriminate. Qed.

Example C52_case : exists p', insert_stitch_relative (-1) TRIM 1 2 (mkP [sq 1 1 STITCH; sq 5 5 JUMP; sq 9 9 END] [] 9%Q 9%Q : pattern Z Q) = Ok p'
  /\ map (fun s => (Qred (sx s), Qred (sy s), scmd s)) (p_stitches p')
     = [(1, 1, STITCH); (5, 5, JUMP); (6, 7, TRIM); (9, 9, END)]%Q.
Proof. eexists. split; vm_compute; reflexivity. Qed.

(** ** C57 *)
Theorem C57_interpolate_trim_copy : forall T n (p : pattern T Q) fuel, (length (p_stitches p) <= fuel)%nat ->
  exists p', get_pattern_interpolate_trim fuel n p = Ok p' /\ p_threads p' = p_threads p
    /\ jumps_merged n false 0%Q 0%Q (p_stitches p) (p_stitches p')
    /\ filter is_other_cmd (p_stitches p') = filter is_other_cmd (p_stitches p).
Proof.
  intros T n p fuel H. destruct (get_pattern_interpolate_trim_spec n fuel p H) as (p' & E1 & E2 & M).
  exists p'. eauto 6 using jumps_merged_keeps.
Qed.
Example C57_case : exists p', get_pattern_interpolate_trim 10 2
    (mkP [sq 0 0 JUMP; sq 0 0 STITCH; sq 1 0 JUMP; sq 2 0 JUMP; sq 2 0 STITCH; sq 3 0 JUMP; sq 3 0 END] [7] 3%Q 0%Q : pattern Z Q) = Ok p'
  /\ map (fun s => (Qred (sx s), scmd s)) (p_stitches p')
     = [(0%Q, JUMP); (0%Q, STITCH); (0%Q, TRIM); (2%Q, JUMP); (2%Q, STITCH); (3%Q, JUMP); (3%Q, END)].
Proof. eexists. split; vm_compute; reflexivity. Qed.

(** ** C58 *)
(** Everything but the jumps is kept; only the first jump of the pattern leaves a stitch break. *)
Theorem C58_merge_jumps_partial : forall T (p : pattern T Q) a j b,
  p_stitches p = a ++ j :: b -> Forall (fun s => ~ is_jump s) a -> is_jump j ->
  p_stitches (get_pattern_merge_jumps p)
  = a ++ mkS 0%Q 0%Q STITCH_BREAK :: filter (fun s => negb (cmd_of (scmd s) =? JUMP)) b
  /\ p_threads (get_pattern_merge_jumps p) = p_threads p.
Proof.
  intros T p a j b E Fa Hj. unfold get_pattern_merge_jumps. rewrite E. cbn [p_stitches p_threads].
  assert (G : forall a out, Forall (fun s => ~ is_jump s) a ->
    p_stitches (merge_jumps (T := T) false (a ++ j :: b) out)
    = p_stitches out ++ a ++ mkS 0%Q 0%Q STITCH_BREAK :: filter (fun s => negb (cmd_of (scmd s) =? JUMP)) b
    /\ p_threads (merge_jumps (T := T) false (a ++ j :: b) out) = p_threads out).
  { clear E Fa a. induction a as [|s a IH]; intros out F; cbn [app merge_jumps].
    - rewrite (proj2 (Z.eqb_eq _ _) Hj).
      match goal with |- context [merge_jumps true b ?o] => destruct (merge_jumps_true b o) as [H1 H2] end.
      rewrite H1, H2. cbn [p_stitches p_threads]. rewrite <- app_assoc. auto.
    - inversion F as [|? ? Hs Fr]; subst. rewrite (proj2 (Z.eqb_neq _ _) Hs).
      destruct (IH (add_stitch_absolute (scmd s) (sx s) (sy s) out) Fr) as [H1 H2]. rewrite H1, H2.
      cbn [add_stitch_absolute p_stitches p_threads]. rewrite <- app_assoc. destruct s; auto. }
  destruct (G a (mkP [] [] 0%Q 0%Q) Fa) as [H1 H2]. rewrite H1, H2. auto.
Qed.
Theorem C58_merge_jumps_refuted : exists p : pattern Z Q,
  map scmd (p_stitches p) = [STITCH; JUMP; STITCH; JUMP; STITCH]
  /\ map scmd (p_stitches (get_pattern_merge_jumps p)) = [STITCH; STITCH_BREAK; STITCH; STITCH].
Proof. exists (mkP [sq 0 0 STITCH; sq 5 0 JUMP; sq 5 0 STITCH; sq 9 0 JUMP; sq 9 0 STITCH] [] 0%Q 0%Q). split; reflexivity. Qed.

Print Assumptions C33_interpolate_trims_partial.
Print Assumptions C33_keeps_commands.
Print Assumptions C33_clipping_deletes_stop_refuted.
Print Assumptions C34_stops_as_colours_and_back.
Print Assumptions C34_unsewn_stop_refuted.
Print Assumptions C35_frame_eject.
Print Assumptions C35_keeps_sewing.
Print Assumptions C35_sequin_lost_refuted.
Print Assumptions C36_command_blocks.
Print Assumptions C36_colour_blocks.
Print Assumptions C36_stitch_blocks.
Print Assumptions C56_block_threads_refuted.
Print Assumptions C56_block_threads_partial.
Print Assumptions C37_bounds.
Print Assumptions C37_translate.
Print Assumptions C37_translate_back.
Print Assumptions C37_centre.
Print Assumptions C38_fix_color_count.
Print Assumptions C38_sections_determined.
Print Assumptions C52_insert_relative.
Print Assumptions C52_insert_at_end.
Print Assumptions C52_out_of_range.
Print Assumptions C52_insert_empty_refuted.
Print Assumptions C57_interpolate_trim_copy.
Print Assumptions C58_merge_jumps_partial.
Print Assumptions C58_merge_jumps_refuted.
