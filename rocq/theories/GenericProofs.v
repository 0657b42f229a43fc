From Coq Require Import Ascii String ZArith QArith Qround Qabs List Bool Lia Lqa.
From Verif Require Import PyBase EmbConst NumQ QuantModel QuantProofs ThreadModel TextModel PatternModel NameModel GenericModel GenericSpec.
Import ListNotations.
Open Scope Z_scope.

Lemma segments_app a b : segments (a ++ b) = segments a ++ segments b.
Proof. apply flat_map_app. Qed.
Lemma part_segments gs k v : segments (part_event gs k v) = [].
Proof. unfold part_event. destruct (g_part gs k); reflexivity. Qed.
Lemma if_segments (b : bool) l : segments l = [] -> segments (if b then l else []) = [].
Proof. destruct b; [exact (fun H => H)|reflexivity]. Qed.
Lemma if_segments' (b : bool) l : segments l = [] -> segments (if b then [] else l) = [].
Proof. destruct b; [reflexivity|exact (fun H => H)]. Qed.
Definition w_values (w : gwriter) (v : gvalues) (s : stitch Q) (index : Z) : Prop :=
  v_index v = index /\ v_command v = scmd s /\ v_x v = sx s /\ v_y v = sy s /\
  v_ix v = w_ix w + v_idx v /\ v_iy v = w_iy w + v_idy v /\
  v_idx v = q_round (sx s - inject_Z (w_ix w)) /\ v_idy v = q_round (sy s - inject_Z (w_iy w)) /\
  v_last_x v = w_last_x w /\ v_last_y v = w_last_y w /\ v_dx v = (sx s - w_last_x w)%Q /\ v_dy v = (sy s - w_last_y w)%Q /\ v_z v = w_z w.
Lemma command_segments gs t index s name w : exists v, segments (fst (generic_command gs t index s name w)) = [(t, v)] /\ w_values w v s index /\
  let w' := snd (generic_command gs t index s name w) in
  w_ix w' = v_ix v /\ w_iy w' = v_iy v /\ w_last_x w' = sx s /\ w_last_y w' = sy s /\
  w_z w' = (if cmd_of (scmd s) =? STITCH then (w_z w + g_travel gs)%Q else w_z w).
Proof.
  unfold generic_command. destruct (opens (cmd_of (scmd s))) as [[od oc] ob]. destruct (closes (cmd_of (scmd s))) as [[cd cc] cb].
  cbv zeta. cbn [fst snd]. eexists. split.
  - rewrite !segments_app. rewrite !if_segments; rewrite ?segments_app; rewrite ?part_segments; try reflexivity.
    + rewrite app_nil_r. apply if_segments'. apply part_segments.
    + rewrite app_nil_r. apply if_segments'. apply part_segments.
  - unfold w_values. cbn. repeat split.
Qed.
Lemma near_round x i : (Qabs (x - inject_Z (i + q_round (x - inject_Z i))) <= 1 # 2)%Q.
Proof.
  pose proof (q_round_half (x - inject_Z i)) as H. rewrite inject_Z_plus.
  apply Qabs_Qle_condition. lra.
Qed.
Theorem generic_segments gs : forall l index w es w', generic_commands gs index l w = Ok (es, w') ->
  map (fun '(t, v) => (t, v_index v, mkS (v_x v) (v_y v) (v_command v))) (segments es) = written gs index l /\
  follow (g_travel gs) (w_ix w) (w_iy w) (w_last_x w) (w_last_y w) (w_z w) (map snd (segments es)).
Proof.
  induction l as [|s l IH]; intros index w es w' E; cbn [generic_commands] in E.
  - injection E as <- <-. split; [reflexivity|exact I].
  - destruct (name_of (cmd_of (scmd s)) common_names) as [name|]; [|discriminate]. cbn [written].
    change (template gs (cmd_of (scmd s))) with (get_write_segment gs (cmd_of (scmd s))).
    destruct (get_write_segment gs (cmd_of (scmd s))) as [t|]; [|exact (IH _ _ _ _ E)].
    destruct (command_segments gs t index s name w) as (v & Hv & Hw & W1 & W2 & W3 & W4 & W5).
    destruct (generic_command gs t index s name w) as [e w1]. cbn [fst snd] in *.
    destruct (generic_commands gs (index + 1) l w1) as [[es1 w2]|] eqn:E1; cbn [bindr] in E; [|discriminate]. injection E as <- <-.
    destruct (IH _ _ _ _ E1) as [IH1 IH2]. rewrite segments_app, Hv. destruct Hw as (V1 & V2 & V3 & V4 & V5 & V6 & V7 & V8 & V9 & V10 & V11 & V12 & V13).
    cbn [app map snd follow]. split.
    + rewrite IH1, V1, V2, V3, V4. destruct s; reflexivity.
    + rewrite V2, V3, V4. repeat split; try assumption.
      * rewrite V5, V7. apply near_round.
      * rewrite V6, V8. apply near_round.
      * rewrite V11. reflexivity.
      * rewrite V12. reflexivity.
      * rewrite V13. reflexivity.
      * rewrite W1, W2, W3, W4, W5 in IH2. destruct (cmd_of (scmd s) =? STITCH); exact IH2.
Qed.

(** ** Nesting *)
Lemma places_app g : forall a st b, places g st (a ++ b) = match places g st a with Some st => places g st b | None => None end.
Proof. induction a as [|e a IH]; intros st b; [reflexivity|]. cbn [app places]. destruct (place g st e); [apply IH|reflexivity]. Qed.
(** The levels opened so far. *)
Definition seen (gs : gsettings) (w : gwriter) : levels :=
  mkLv (w_document w && has gs Document_start) (w_color w && has gs Color_start) (w_block w && has gs Block_start).
Definition tidy (w : gwriter) : Prop := (w_block w = true -> w_color w = true) /\ (w_color w = true -> w_document w = true).
Lemma has_event gs k v : part_event gs k v = match g_part gs k with Some t => [Part k t v] | None => [] end.
Proof. reflexivity. Qed.
Lemma other_event gs k v g st : (match k with Color_join | Block_join | Segment_start | Segment_join | Segment_end | Pattern_start | Pattern_end => True | _ => False end) ->
  places g st (part_event gs k v) = Some st.
Proof. unfold part_event. destruct (g_part gs k); [destruct k; intros H; reflexivity || contradiction|reflexivity]. Qed.
Lemma command_kinds c : opens c = (true, true, true) /\ within_block c = true \/
  opens c = (true, true, false) /\ within_block c = false /\ within_color c = true \/
  opens c = (true, false, false) /\ within_block c = false /\ within_color c = false /\ c = COLOR_CHANGE \/
  opens c = (false, false, false) /\ within_block c = false /\ within_color c = false /\ c <> COLOR_CHANGE.
Proof.
  unfold opens, within_block, within_color. destruct (existsb (Z.eqb c) [SEQUIN_MODE; SEQUIN_EJECT; STITCH; JUMP; STOP; SLOW; FAST; END]); [tauto|].
  destruct (existsb (Z.eqb c) [TRIM; NEEDLE_SET]); [tauto|]. destruct (Z.eqb_spec c COLOR_CHANGE); tauto.
Qed.
Lemma closes_opens c : closes c = (true, true, true) /\ opens c = (true, true, true) /\ c = END \/
  closes c = (false, true, true) /\ opens c = (true, false, false) /\ c <> END \/
  closes c = (false, false, true) /\ opens c = (true, true, false) /\ c <> END \/
  closes c = (false, false, false) /\ c <> END.
Proof.
  unfold closes. destruct (Z.eqb_spec c TRIM) as [-> | N1]; [right; right; left; repeat split; discriminate|].
  destruct (Z.eqb_spec c COLOR_CHANGE) as [-> | N2]; [right; left; repeat split; discriminate|].
  destruct (Z.eqb_spec c END) as [-> | N3]; [left; repeat split|]. right; right; right. split; [reflexivity|assumption].
Qed.
Lemma same_refl b : same b b = true.
Proof. apply Bool.eqb_reflx. Qed.
Lemma command_nested gs t index s name w : paired gs -> tidy w ->
  places (given gs) (seen gs w) (fst (generic_command gs t index s name w)) = Some (seen gs (snd (generic_command gs t index s name w))) /\
  tidy (snd (generic_command gs t index s name w)) /\
  (cmd_of (scmd s) = END -> seen gs (snd (generic_command gs t index s name w)) = closed /\
     w_document (snd (generic_command gs t index s name w)) = false).
Proof.
  intros (P1 & P2 & P3) [T1 T2]. unfold generic_command.
  pose proof (command_kinds (cmd_of (scmd s))) as CK. pose proof (closes_opens (cmd_of (scmd s))) as CC.
  destruct (opens (cmd_of (scmd s))) as [[od oc] ob] eqn:EO. destruct (closes (cmd_of (scmd s))) as [[cd cc] cb] eqn:EC.
  cbv zeta. cbn [fst snd]. set (v := mkV _ _ _ _ _ _ _ _ _ _ _ _ _ _ _ _ _).
  assert (VC : v_command v = scmd s) by reflexivity. clearbody v.
  assert (OJ : forall g (b : bool) l, (forall st, places g st l = Some st) -> forall st, places g st (if b then [] else l) = Some st)
    by (intros g b l H st; destruct b; [reflexivity|apply H]).
  match goal with |- context [if oc && negb (w_color w) then (if ?b then [] else part_event gs Color_join v) ++ _ else []] =>
    pose proof (fun g => OJ g b _ (fun st => other_event gs Color_join v g st I)) as HC;
    set (JC := if b then [] else part_event gs Color_join v) in * end.
  match goal with |- context [if ob && negb (w_block w) then (if ?b then [] else part_event gs Block_join v) ++ _ else []] =>
    pose proof (fun g => OJ g b _ (fun st => other_event gs Block_join v g st I)) as HB;
    set (JB := if b then [] else part_event gs Block_join v) in * end.
  pose proof (fun g st => other_event gs Segment_start v g st I) as H1. pose proof (fun g st => other_event gs Segment_join v g st I) as H2.
  pose proof (fun g st => other_event gs Segment_end v g st I) as H3.
  set (S1 := part_event gs Segment_start v) in *. set (S2 := part_event gs Segment_join v) in *. set (S3 := part_event gs Segment_end v) in *.
  clearbody JC JB S1 S2 S3. clear OJ. unfold part_event.
  destruct w as [wd wc wb i1 i2 i3 ix iy lx ly wz]. unfold seen, given, tidy, has in *. cbn [w_document w_color w_block] in *. clear i1 i2 i3 ix iy lx ly wz.
  assert (SEG : forall d c b st, place (mkLv d c b) st (Segment t v)
      = if (if within_block (cmd_of (scmd s)) then same (l_document st) d && same (l_color st) c && same (l_block st) b
            else if within_color (cmd_of (scmd s)) then same (l_document st) d && same (l_color st) c
            else if cmd_of (scmd s) =? COLOR_CHANGE then same (l_document st) d else true) then Some st else None)
    by (intros d c b st; cbn [place]; rewrite VC; reflexivity).
  destruct (g_part gs Document_start), (g_part gs Document_end); try discriminate P1;
  destruct (g_part gs Color_start), (g_part gs Color_end); try discriminate P2;
  destruct (g_part gs Block_start), (g_part gs Block_end); try discriminate P3; clear P1 P2 P3;
  (destruct CK as [[Eo Ek] | [(Eo & Ek & Ek') | [(Eo & Ek & Ek' & En) | (Eo & Ek & Ek' & En)]]]; injection Eo as -> -> ->);
  (destruct CC as [(Ec & Eo & Ee) | [(Ec & Eo & Ee) | [(Ec & Eo & Ee) | (Ec & Ee)]]]; try discriminate Eo; injection Ec as -> -> ->);
  try (apply Z.eqb_eq in En); try (apply Z.eqb_neq in En); rewrite Ek in SEG; try rewrite Ek' in SEG; try rewrite En in SEG; clear EO EC;
  destruct wd, wc, wb; try (specialize (T1 eq_refl); discriminate T1); try (specialize (T2 eq_refl); discriminate T2);
  cbn [andb orb negb app]; 
  repeat (rewrite ?places_app, ?HC, ?HB, ?H1, ?H2, ?H3; cbn [places app]; rewrite ?SEG; cbn [place l_document l_color l_block negb orb andb same Bool.eqb]);
  (split; [reflexivity|split; [split; intros; assumption || reflexivity || discriminate|intros; split; reflexivity || congruence]]).
Qed.
Theorem generic_nested gs : paired gs -> forall l index w es w', tidy w -> generic_commands gs index l w = Ok (es, w') ->
  places (given gs) (seen gs w) es = Some (seen gs w') /\ tidy w'.
Proof.
  intros P. induction l as [|s l IH]; intros index w es w' T E; cbn [generic_commands] in E.
  - injection E as <- <-. split; [reflexivity|exact T].
  - destruct (name_of (cmd_of (scmd s)) common_names) as [name|]; [|discriminate].
    destruct (get_write_segment gs (cmd_of (scmd s))) as [t|]; [|exact (IH _ _ _ _ T E)].
    destruct (command_nested gs t index s name w P T) as (N1 & N2 & _).
    destruct (generic_command gs t index s name w) as [e w1]. cbn [fst snd] in *.
    destruct (generic_commands gs (index + 1) l w1) as [[es1 w2]|] eqn:E1; cbn [bindr] in E; [|discriminate]. injection E as <- <-.
    rewrite places_app, N1. exact (IH _ _ _ _ N2 E1).
Qed.
Lemma generic_app gs : forall a index w b, generic_commands gs index (a ++ b) w =
  do '(es, w1) <- generic_commands gs index a w; do '(es', w2) <- generic_commands gs (index + zlen a) b w1; Ok (es ++ es', w2).
Proof.
  induction a as [|s a IH]; intros index w b.
  - cbn [app generic_commands bindr]. change (zlen (@nil (stitch Q))) with 0. rewrite Z.add_0_r. destruct (generic_commands gs index b w) as [[e w1]|]; reflexivity.
  - cbn [app generic_commands]. replace (index + zlen (s :: a)) with (index + 1 + zlen a) by (unfold zlen; cbn [List.length]; lia).
    destruct (name_of (cmd_of (scmd s)) common_names) as [name|]; [|reflexivity].
    destruct (get_write_segment gs (cmd_of (scmd s))) as [t|]; [|apply IH].
    destruct (generic_command gs t index s name w) as [e w1]. rewrite IH. destruct (generic_commands gs (index + 1) a w1) as [[es1 w2]|]; cbn [bindr]; [|reflexivity].
    destruct (generic_commands gs (index + 1 + zlen a) b w2) as [[es2 w3]|]; cbn [bindr]; [rewrite app_assoc|]; reflexivity.
Qed.
Lemma seen_start gs : seen gs gw_start = closed.
Proof. reflexivity. Qed.
Lemma tidy_start : tidy gw_start.
Proof. split; discriminate. Qed.
Lemma ended gs l w' es s : paired gs -> cmd_of (scmd s) = END -> template gs END <> None ->
  generic_commands gs 0 (l ++ [s]) gw_start = Ok (es, w') -> seen gs w' = closed.
Proof.
  intros P Es T E. rewrite generic_app in E. destruct (generic_commands gs 0 l gw_start) as [[es1 w1]|] eqn:E1; cbn [bindr] in E; [|discriminate].
  destruct (generic_nested gs P _ _ _ _ _ tidy_start E1) as [_ T1].
  cbn [generic_commands] in E. rewrite Es in E. change (get_write_segment gs END) with (template gs END) in E.
  destruct (name_of END common_names) as [name|]; [|discriminate]. destruct (template gs END) as [t|]; [|congruence].
  destruct (command_nested gs t (0 + zlen l) s name w1 P T1) as (_ & _ & N).
  destruct (generic_command gs t (0 + zlen l) s name w1) as [e w2]. cbn [fst snd bindr] in *. injection E as <- <-. apply N, Es.
Qed.
Theorem generic_well_nested gs v0 l es : paired gs -> generic_write gs v0 l = Ok es -> exists st, places (given gs) closed es = Some st /\
  forall l' s, l = l' ++ [s] -> cmd_of (scmd s) = END -> template gs END <> None -> st = closed.
Proof.
  intros P E. unfold generic_write in E. destruct (generic_commands gs 0 l gw_start) as [[es1 w1]|] eqn:E1; cbn [bindr] in E; [|discriminate].
  injection E as <-. destruct (generic_nested gs P _ _ _ _ _ tidy_start E1) as [N T]. rewrite seen_start in N.
  exists (seen gs w1). split.
  - rewrite places_app. rewrite other_event by exact I. cbn iota beta. rewrite places_app, N. apply other_event. exact I.
  - intros l' s -> Es Ht. eapply ended; eassumption.
Qed.
Theorem generic_segments_written gs v0 l es : generic_write gs v0 l = Ok es ->
  map (fun '(t, v) => (t, v_index v, mkS (v_x v) (v_y v) (v_command v))) (segments es) = written gs 0 l /\
  follow (g_travel gs) 0 0 0 0 0 (map snd (segments es)).
Proof.
  intros E. unfold generic_write in E. destruct (generic_commands gs 0 l gw_start) as [[es1 w1]|] eqn:E1; cbn [bindr] in E; [|discriminate].
  injection E as <-. rewrite !segments_app, !part_segments, app_nil_r. cbn [app]. exact (generic_segments gs l 0 gw_start es1 w1 E1).
Qed.
Theorem generic_known gs v0 l : (exists es, generic_write gs v0 l = Ok es) \/
  generic_write gs v0 l = Err KeyError /\ Exists (fun s => name_of (cmd_of (scmd s)) common_names = None) l.
Proof.
  unfold generic_write.
  assert (H : forall l index w, (exists r, generic_commands gs index l w = Ok r) \/
    generic_commands gs index l w = Err KeyError /\ Exists (fun s => name_of (cmd_of (scmd s)) common_names = None) l).
  { induction l0 as [|s r IH]; intros index w; cbn [generic_commands]; [left; eexists; reflexivity|].
    destruct (name_of (cmd_of (scmd s)) common_names) as [name|] eqn:En; [|right; split; [reflexivity|left; exact En]].
    destruct (get_write_segment gs (cmd_of (scmd s))) as [t|].
    - destruct (generic_command gs t index s name w) as [e w1]. destruct (IH (index + 1) w1) as [([es w2] & ->) | [-> X]]; cbn [bindr].
      + left. eexists. reflexivity.
      + right. split; [reflexivity|right; exact X].
    - destruct (IH (index + 1) w) as [[r' E]|[E X]]; [left; exists r'; exact E|right; split; [exact E|right; exact X]]. }
  destruct (H l 0 gw_start) as [([es w1] & ->) | [-> X]]; cbn [bindr]; [left; eexists; reflexivity|right; split; [reflexivity|exact X]].
Qed.

(** ** Joins *)
Lemma count_app k a b : count k (a ++ b) = (count k a + count k b)%nat.
Proof. unfold count. rewrite filter_app, app_length. reflexivity. Qed.
Definition sum_has gs k : nat := if has gs k then 1%nat else 0%nat.
Lemma count_event gs k k' v : count k (part_event gs k' v) = if is_part k (Part k' [] v) then sum_has gs k' else 0%nat.
Proof.
  unfold count, part_event, sum_has, has. destruct (g_part gs k') as [t|]; cbn [filter List.length].
  - change (is_part k (Part k' t v)) with (is_part k (Part k' [] v)). destruct (is_part k (Part k' [] v)); reflexivity.
  - destruct (is_part k (Part k' [] v)); reflexivity.
Qed.
(** The colour index is never 0 when a colour begins, nor the block index when a block begins. *)
Definition indexed (w : gwriter) : Prop := (w_document w = true -> 0 <= w_color_index w) /\ (w_color w = true -> 0 <= w_block_index w) /\
  (w_block w = true -> w_color w = true) /\ (w_color w = true -> w_document w = true).
Lemma command_joins gs t index s name w : indexed w -> indexed (snd (generic_command gs t index s name w)) /\
  (has gs Color_join = true -> has gs Color_start = true ->
     count Color_join (fst (generic_command gs t index s name w)) = count Color_start (fst (generic_command gs t index s name w))) /\
  (has gs Block_join = true -> has gs Block_start = true ->
     count Block_join (fst (generic_command gs t index s name w)) = count Block_start (fst (generic_command gs t index s name w))).
Proof.
  intros (I1 & I2 & I3 & I4). unfold generic_command.
  pose proof (command_kinds (cmd_of (scmd s))) as CK. pose proof (closes_opens (cmd_of (scmd s))) as CC.
  destruct (opens (cmd_of (scmd s))) as [[od oc] ob] eqn:EO. destruct (closes (cmd_of (scmd s))) as [[cd cc] cb] eqn:EC.
  cbv zeta. cbn [fst snd]. set (v := mkV _ _ _ _ _ _ _ _ _ _ _ _ _ _ _ _ _). clearbody v.
  destruct w as [wd wc wb i1 i2 i3 ix iy lx ly wz]. unfold indexed. cbn [w_document w_color w_block w_color_index w_block_index] in *.
  (destruct CK as [[Eo Ek] | [(Eo & Ek & Ek') | [(Eo & Ek & Ek' & En) | (Eo & Ek & Ek' & En)]]]; injection Eo as -> -> ->);
  (destruct CC as [(Ec & Eo & Ee) | [(Ec & Eo & Ee) | [(Ec & Eo & Ee) | (Ec & Ee)]]]; try discriminate Eo; injection Ec as -> -> ->);
  destruct wd, wc, wb; try (specialize (I3 eq_refl); discriminate I3); try (specialize (I4 eq_refl); discriminate I4);
  cbn [andb orb negb];
  try pose proof (I1 eq_refl); try pose proof (I2 eq_refl);
  (split; [repeat split; intros; try discriminate; try reflexivity; lia|split; intros HJ HS]);
  rewrite !count_app;
  repeat match goal with |- context [?a =? 0] => destruct (Z.eqb_spec a 0); [exfalso; lia|] end;
  rewrite ?count_event; cbn [is_part]; unfold sum_has; rewrite ?HJ, ?HS; reflexivity.
Qed.
Theorem generic_joins gs v0 l es : generic_write gs v0 l = Ok es ->
  (has gs Color_join = true -> has gs Color_start = true -> count Color_join es = count Color_start es) /\
  (has gs Block_join = true -> has gs Block_start = true -> count Block_join es = count Block_start es).
Proof.
  assert (H : forall l index w es w', indexed w -> generic_commands gs index l w = Ok (es, w') ->
    (has gs Color_join = true -> has gs Color_start = true -> count Color_join es = count Color_start es) /\
    (has gs Block_join = true -> has gs Block_start = true -> count Block_join es = count Block_start es)).
  { induction l0 as [|s r IH]; intros index w es0 w' I E; cbn [generic_commands] in E.
    - injection E as <- <-. split; reflexivity.
    - destruct (name_of (cmd_of (scmd s)) common_names) as [name|]; [|discriminate].
      destruct (get_write_segment gs (cmd_of (scmd s))) as [t|]; [|exact (IH _ _ _ _ I E)].
      destruct (command_joins gs t index s name w I) as (N1 & N2 & N3).
      destruct (generic_command gs t index s name w) as [e w1]. cbn [fst snd] in *.
      destruct (generic_commands gs (index + 1) r w1) as [[es1 w2]|] eqn:E1; cbn [bindr] in E; [|discriminate]. injection E as <- <-.
      destruct (IH _ _ _ _ N1 E1) as [A B]. rewrite !count_app. split; intros X Y; [rewrite N2, A by assumption|rewrite N3, B by assumption]; reflexivity. }
  intros E. unfold generic_write in E. destruct (generic_commands gs 0 l gw_start) as [[es1 w1]|] eqn:E1; cbn [bindr] in E; [|discriminate].
  injection E as <-. destruct (H l 0 gw_start es1 w1) as [A B]; [repeat split; discriminate|exact E1|].
  split; intros X Y; rewrite !count_app, !count_event; cbn [is_part]; [rewrite A by assumption|rewrite B by assumption]; lia.
Qed.
