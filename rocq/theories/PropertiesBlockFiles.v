(** Properties C148 and C149: designs of colour blocks, saved and loaded. *)
From Coq Require Import Ascii String ZArith QArith Qabs List Bool Lia Lqa.
From Verif Require Import PyBase EmbConst PatternModel StreamModel StreamSpec StreamProofs FunctionsModel ThreadModel NumModel NumQ
  MatrixModel EncoderModel EncoderProofs EncoderSpec EncoderColorSpec MetricSpec EncoderMetricProofs QuantModel QuantProofs
  Utf8Model TextModel TrimProofs TrimKeepProofs PatternSpec
  DstModel DstSpec DstFileModel DstFileSpec DstFileProofs DstWholeProofs ExpModel JefModel JefSpec PecModel PecSpec
  PecFileModel PecFileSpec PecFileProofs PesModel PesSpec PesProofs PropertiesPes
  PropertiesEncoder SettingsModel PropertiesSettings PropertiesPipeline FidelitySpec FidelityProofs MachineProofs PropertiesFidelity
  EncoderColorProofs BlockFileSpec PropertiesColor BlockFileProofs.
Import ListNotations.
Open Scope Z_scope.

Section Files.
Variables (qcos qsin : Q -> Q) (qorient : Q -> Q -> Q -> Q -> Q -> Q * Q).
Notation N := (QNum qcos qsin qorient).
Hypothesis (Hturn : forall t, ~ (qcos t * qcos t + qsin t * qsin t == 0)%Q) (Hdir : direction_bounded qorient).
Notation settings_fit := (settings_fit qcos qsin qorient).

(** Settings that fit a format with steps of at most [m], ask for no transformation, and for colour changes. *)
Record fitting (m : Z) (set : settings N) : Prop := {
  fi_fit : settings_fit m set;
  fi_plain : untransformed qcos qsin qorient set;
  fi_needles : s_needle_count N set <> Some 0;
  fi_change : requested_change set = COLOR_CHANGE }.
(** Sequins are not wanted. *)
Definition no_sequins (set : settings N) : Prop := ~ sequins_requested set [].

Definition brk : stitch Q := mkS 0%Q 0%Q COLOR_BREAK.
(** A pattern of blocks, one thread for each, and perhaps END commands. *)
Definition block_design (blocks : list (list (stitch Q) * thread)) (ends : list (stitch Q)) : pattern N :=
  mkP N (of_blocks brk (map fst blocks) ends) (map snd blocks).
Definition design_ok (blocks : list (list (stitch Q) * thread)) (ends : list (stitch Q)) : Prop :=
  blocks <> [] /\ Forall (fun b => simple_block (fst b)) blocks /\ Forall (fun a => scmd a = END) ends.

Lemma simple_facts : forall a : stitch Q, simple_command a ->
  block_command a /\ is_cmd STOP a = false /\ is_cmd FRAME_EJECT a = false /\ is_cmd SLOW a = false /\ is_cmd FAST a = false /\
  is_cmd TIE_ON a = false /\ is_cmd TIE_OFF a = false /\ is_cmd CONTINGENCY_SEQUIN_UTILIZE a = false /\
  is_cmd OPTION_MAX_JUMP_LENGTH a = false /\ is_cmd OPTION_MAX_STITCH_LENGTH a = false /\ is_cmd CONTINGENCY_LONG_STITCH_NONE a = false.
Proof.
  intros a H. unfold simple_command in H. unfold block_command, has_command, is_cmd.
  cbn [In] in H. destruct H as [<-|[<-|[<-|[<-|[<-|[<-|[<-|[]]]]]]]]; (split; [split; [vm_compute; split; [discriminate|reflexivity]|reflexivity]|]);
    repeat (split; [reflexivity|]); reflexivity.
Qed.
Lemma simple_plain : forall a : stitch Q, simple_command a -> scmd a <> SEW_TO -> has_command stitching_commands a = false.
Proof.
  intros a D Hs. unfold simple_command in D. unfold has_command, is_cmd. cbn [In] in D.
  destruct D as [D|[D|[D|[D|[D|[D|[D|[]]]]]]]]; try congruence; rewrite <- D; reflexivity.
Qed.
Lemma design_blocks : forall blocks ends, design_ok blocks ends -> blocks_ok brk (map fst blocks) ends.
Proof.
  intros blocks ends (_ & H & He). constructor; [reflexivity|exact He| |].
  - apply Forall_map. eapply Forall_impl; [|exact H]. intros [b t] [Hb _]. cbn [fst] in *. eapply Forall_impl; [|exact Hb].
    intros a Ha. apply (simple_facts a Ha).
  - apply Forall_map. eapply Forall_impl; [|exact H]. intros [b t] [_ (a & Ia & Sa)]. cbn [fst] in *. apply existsb_exists. eauto.
Qed.
Lemma design_source : forall blocks ends (P : stitch Q -> Prop), design_ok blocks ends -> P brk -> (forall a, scmd a = END -> P a) ->
  (forall a, simple_command a -> P a) -> Forall P (of_blocks brk (map fst blocks) ends).
Proof.
  intros blocks ends P (_ & H & He) P1 P2 P3. unfold of_blocks. apply Forall_app. split.
  - induction H as [|[b t] r [Hb _] _ IH]; [constructor|]. cbn [map fst flat_map] in *. apply Forall_app. split; [|exact IH].
    apply Forall_app. split; [eapply Forall_impl; [|exact Hb]; exact P3|]. constructor; [exact P1|constructor].
  - eapply Forall_impl; [|exact He]. exact P2.
Qed.
Ltac source := apply design_source; [assumption| | |]; [|intros a Ha; unfold has_command, is_cmd; rewrite ?Ha|intros a Ha; pose proof (simple_facts a Ha)].

Lemma design_savable : forall m set blocks ends, fitting m set -> design_ok blocks ends ->
  savable qcos qsin qorient m set (of_blocks brk (map fst blocks) ends).
Proof.
  intros m set blocks ends [F1 F2 F3 F4] D. constructor; try assumption.
  - rewrite F4. discriminate.
  - source; [split; [intros [H|H]; discriminate|reflexivity]| |].
    + split; [intros [H|H]; discriminate|reflexivity].
    + destruct H as (_ & _ & _ & _ & _ & _ & _ & _ & H1 & H2 & H3). split; [intros [H|H]; congruence|exact H3].
  - source; [split; reflexivity|split; reflexivity|tauto].
  - apply until_end_all. source; [reflexivity|reflexivity|]. destruct H as [H _]. apply (block_facts _ a H).
Qed.
Lemma design_sequins : forall set blocks ends, no_sequins set -> design_ok blocks ends ->
  ~ sequins_requested set (of_blocks brk (map fst blocks) ends).
Proof.
  intros set blocks ends Hn D [H|[H|H]]; [apply Hn; left; exact H|apply Hn; right; left; exact H|].
  assert (X : Forall (fun a => is_cmd CONTINGENCY_SEQUIN_UTILIZE a = false) (of_blocks brk (map fst blocks) ends)).
  { clear H. source; [reflexivity|reflexivity|tauto]. }
  apply Exists_exists in H. destruct H as (a & Ia & Ha). rewrite Forall_forall in X. exact (eq_true_false_abs _ Ha (X a Ia)).
Qed.
Lemma no_list_sequins : forall (set : settings N) l, ~ sequins_requested set l -> no_sequins set.
Proof.
  intros set l H [X|[X|X]]; [apply H; left; exact X|apply H; right; left; exact X|inversion X].
Qed.

(** What the encoder makes of such a design. *)
Lemma design_encoded : forall m set blocks ends, 0 < m -> fitting m set -> design_ok blocks ends ->
  exists out, transcode N set (block_design blocks ends) = Ok (out, map Own (map snd blocks)) /\
    no_stops out /\ List.length (filter (is_cmd COLOR_CHANGE) out) = pred (List.length blocks) /\
    blocks_kept (map fst blocks) (written out) /\
    (plain_settings set -> Forall (fun b => Forall (fun a => scmd a <> SEW_TO) (fst b)) blocks -> blocks_exact (map fst blocks) (written out)).
Proof.
  intros m set blocks ends Hm F D. pose proof (design_savable m set blocks ends F D) as V.
  destruct (savable_encodes qcos qsin qorient Hturn m set (block_design blocks ends) Hm V) as (out & ths & E).
  destruct (colours_of_blocks N set brk (map fst blocks) ends (map snd blocks) out ths E (fi_change _ _ F) (design_blocks _ _ D))
    as (Et & Cc & qs & Q & Sub & Ex).
  { destruct D as [D _]. destruct blocks; [congruence|discriminate]. }
  { rewrite !map_length. reflexivity. }
  exists out. rewrite <- Et. split; [exact E|]. split.
  { apply (transcode_quiet N set _ out ths E); [rewrite requested_ok; exact (fi_change _ _ F)|]. cbn [block_design p_stitches].
    source; [split; reflexivity| |tauto].
    split; [exact (f_equal (fun c => Z.land c 255 =? STOP) Ha)|exact (f_equal (fun c => Z.land c 255 =? FRAME_EJECT) Ha)]. }
  split; [rewrite Cc, map_length; reflexivity|].
  assert (G : forall qs zs, Forall2 (fun ia iq => fst ia = fst iq /\ sewn_at (N := N) set (snd ia) = Ok (snd iq)) (numbered 0 (map fst blocks)) qs ->
     Forall2 near_colour qs zs -> Forall2 same_block (numbered 0 (map fst blocks)) zs).
  { intros us zs H1 H2. eapply forall2_compose; [|exact H1|exact H2]. intros ia iq iz [A1 A2] [B1 B2]. split; [exact (eq_trans A1 B1)|].
    eapply sewn_half; [exact (fi_plain _ _ F)|exact A2|exact B2]. }
  split.
  - destruct (subseq_near_colour _ _ Sub _ (coloured_written out 0)) as (zs & Z1 & Z2). exists zs. split; [|exact Z1].
    eapply G; eassumption.
  - intros Hp Hs. unfold blocks_exact. eapply G; [exact Q|]. rewrite <- Ex; [apply coloured_written|exact Hp|].
    destruct D as (_ & D & _). apply Forall_map. rewrite Forall_forall in *. intros [b t] Ib. specialize (D _ Ib). specialize (Hs _ Ib).
    destruct D as [D _]. cbn [fst] in *. rewrite Forall_forall in *. intros a Ia. specialize (D a Ia). specialize (Hs a Ia).
    exact (simple_plain a D Hs).
Qed.

(** What is asked of a design, and what follows for its encoded pattern. *)
Lemma written_colours : forall set (p : pattern N) out threads n, transcode N set p = Ok (out, threads) ->
  coloured n (before_end (written out)) = coloured n (written out).
Proof.
  intros set p out threads n E. destruct (end_last_written out (C22_single_end N set p out threads E)) as [L X].
  destruct L as [L|L]; [rewrite L; reflexivity|]. apply coloured_before_end; assumption.
Qed.
Lemma written_stops : forall out : list (stitch Q), no_stops out -> no_stops (before_end (written out)).
Proof. intros out H. apply stops_before_end, stops_written, H. Qed.

Lemma numbered_in : forall C (blocks : list (list (stitch C))) i k, Forall (fun b => exists a, In a b /\ sews_src a = true) blocks ->
  (k < List.length blocks)%nat -> exists a, In ((i + k)%nat, a) (numbered i blocks).
Proof.
  intros C blocks. induction blocks as [|b r IH]; intros i k H Hk; [cbn in Hk; lia|]. cbn [numbered]. apply Forall_cons_iff in H.
  destruct H as [(a & Ia & Sa) H]. destruct k as [|k].
  - exists a. apply in_or_app. left. rewrite Nat.add_0_r. apply in_map_iff. exists a. split; [reflexivity|]. apply filter_In. auto.
  - destruct (IH (S i) k H ltac:(cbn in Hk; lia)) as [a' I]. exists a'. apply in_or_app. right.
    replace (i + S k)%nat with (S i + k)%nat by lia. exact I.
Qed.
Lemma kept_in : forall (blocks : list (list (stitch Q))) l k a, blocks_kept blocks l -> In (k, a) (numbered 0 blocks) ->
  exists q, In (k, q) (coloured 0 l).
Proof.
  intros blocks l k a (zs & F & S) I.
  assert (X : exists q, In (k, q) zs).
  { clear S. induction F as [|ia iz r zs [H1 _] _ IH]; [destruct I|]. destruct I as [->|I].
    - destruct iz as [j q]. cbn [fst] in H1. subst j. exists q. left. reflexivity.
    - destruct (IH I) as [q Iq]. exists q. right. exact Iq. }
  destruct X as [q Iq]. exists q. clear - S Iq. induction S as [|p q' l' _ IH|p q' l' _ IH]; [destruct Iq|right; apply IH; exact Iq|].
  destruct Iq as [->|Iq]; [left; reflexivity|right; apply IH; exact Iq].
Qed.
Lemma cmds_written : forall out : list (stitch Q), map scmd (written out) = map scmd out.
Proof.
  intros out. unfold written. generalize 0 at 2 4. generalize 0. induction out as [|s l IH]; intros x y; [reflexivity|].
  cbn [quantise apply_rel map sx sy scmd]. f_equal. apply IH.
Qed.
Lemma coloured_index : forall C D (l : list (stitch C)) (l' : list (stitch D)) n, map scmd l = map scmd l' ->
  map fst (coloured n l) = map fst (coloured n l').
Proof.
  intros C D. induction l as [|a l IH]; intros [|a' l'] n H; try discriminate; [reflexivity|]. cbn [map] in H. injection H as H1 H2.
  rewrite !coloured_cons, H1. destruct (_ =? COLOR_CHANGE); [apply IH; exact H2|]. destruct (_ =? STITCH); cbn [map]; rewrite (IH l' n H2); reflexivity.
Qed.

(** The encoded pattern sews in every section. *)
Lemma design_sections : forall (out : list (stitch Q)) (blocks : list (list (stitch Q))),
  Forall (fun b => exists a, In a b /\ sews_src a = true) blocks -> blocks <> [] ->
  no_stops out -> Forall (fun a => In (cmd_of (scmd a)) ([STITCH; JUMP] ++ [COLOR_CHANGE; STOP; TRIM; END])) out ->
  List.length (filter (is_cmd COLOR_CHANGE) out) = pred (List.length blocks) ->
  blocks_kept blocks (written out) -> sections_sewn false out.
Proof.
  intros out blocks Hb Hne Hs Hc Hl K.
  assert (L : (0 < List.length blocks)%nat) by (destruct blocks; [congruence|cbn; lia]).
  assert (X : forall k, (k < List.length blocks)%nat -> exists q, In (k, q) (coloured 0 out)).
  { intros k Hk. destruct (numbered_in _ blocks 0 k Hb Hk) as [a Ia]. destruct (kept_in _ _ _ _ K Ia) as [q Iq]. cbn [plus] in Iq.
    apply (in_map fst) in Iq. rewrite (coloured_index _ _ _ out 0 (cmds_written out)) in Iq.
    apply in_map_iff in Iq. destruct Iq as ([j q'] & Ej & Iq). cbn [fst] in Ej. subst j. eauto. }
  apply (sections_coloured _ out false 0 Hs).
  - eapply Forall_impl; [|exact Hc]. intros a Ha Hx. cbn [In app] in Ha, Hx.
    destruct Ha as [Ha|[Ha|[Ha|[Ha|[Ha|[Ha|[]]]]]]]; rewrite <- Ha in Hx; destruct Hx as [Hx|[Hx|[Hx|[Hx|[]]]]]; discriminate Hx.
  - intros _. apply X. lia.
  - intros k Hk. rewrite Hl in Hk. cbn [plus]. apply X. lia.
Qed.

Lemma representable_cmds : forall m moves stays l px py, representable m moves stays px py l ->
  Forall (fun a => In (cmd_of (scmd a)) (moves ++ stays)) l.
Proof.
  intros m moves stays. induction l as [|a l IH]; intros px py H; [constructor|]. cbn [representable] in H. destruct H as [H R].
  constructor; [|exact (IH _ _ R)]. apply in_or_app. destruct H as [[H _]|[H _]]; [left|right]; exact H.
Qed.
Lemma cmds_of_written : forall (P : Z -> Prop) (out : list (stitch Q)), Forall (fun a => P (scmd a)) (written out) -> Forall (fun a => P (scmd a)) out.
Proof.
  intros P out H. apply Forall_map. rewrite <- cmds_written. apply Forall_map. exact H.
Qed.
Lemma changes_count : forall out : list (stitch Q),
  Forall (fun a => In (cmd_of (scmd a)) ([STITCH; JUMP] ++ [COLOR_CHANGE; STOP; TRIM; END])) out ->
  thread_changes out = List.length (filter (is_cmd COLOR_CHANGE) out).
Proof.
  intros out H. unfold thread_changes. f_equal. induction H as [|a l Ha _ IH]; [reflexivity|]. cbn [filter].
  change (is_cmd COLOR_CHANGE a) with (cmd_of (scmd a) =? COLOR_CHANGE). rewrite IH. cbn [In app] in Ha.
  destruct Ha as [Ha|[Ha|[Ha|[Ha|[Ha|[Ha|[]]]]]]]; rewrite <- Ha; reflexivity.
Qed.
Lemma stops_count : forall C (l : list (stitch C)), no_stops l -> stops l = 0%nat.
Proof.
  intros C l H. unfold stops. induction H as [|a l Ha _ IH]; [reflexivity|]. cbn [filter]. apply Z.eqb_neq in Ha. rewrite Ha. exact IH.
Qed.

Lemma design_pec : forall set blocks ends, fitting 2047 set -> no_sequins set -> design_ok blocks ends -> (List.length blocks <= 64)%nat ->
  exists out, transcode N set (block_design blocks ends) = Ok (out, map Own (map snd blocks)) /\
    pec_pattern out /\ blocks_kept (map fst blocks) (pec_kept out) /\
    (6 * zlen out + 16 < 2 ^ 24 -> pec_room out (map snd blocks)).
Proof.
  intros set blocks ends F Hq D L64. destruct (design_encoded 2047 set blocks ends ltac:(lia) F D) as (out & E & S & Cc & K & _).
  pose proof (design_savable 2047 set blocks ends F D) as V.
  destruct (encoded_representable qcos qsin qorient 2047 set (block_design blocks ends) out _ ltac:(lia) Hdir (v_fit _ _ _ _ _ _ V) (v_source _ _ _ _ _ _ V)
    (v_speeds _ _ _ _ _ _ V) (v_change _ _ _ _ _ _ V) (design_sequins set blocks ends Hq D) E) as (R & _ & X).
  change (NumModel.F N) with Q in *.
  assert (C : Forall (fun a => In (cmd_of (scmd a)) ([STITCH; JUMP] ++ [COLOR_CHANGE; STOP; TRIM; END])) out).
  { apply cmds_of_written with (P := fun c => In (cmd_of c) ([STITCH; JUMP] ++ [COLOR_CHANGE; STOP; TRIM; END])).
    eapply representable_cmds. exact R. }
  exists out. split; [exact E|]. split; [|split].
  - split; [|split; [exact R|]].
    + destruct (C22_single_end N set _ out _ E) as (body & e & Eo & He & Hb). exists body, e. split; [exact Eo|].
      split; [apply Z.eqb_eq; exact He|]. eapply Forall_impl; [|exact Hb]. intros a Ha. apply Z.eqb_neq. exact Ha.
    + destruct D as (D1 & D2 & _). apply (design_sections out (map fst blocks)); try assumption.
      * apply Forall_map. eapply Forall_impl; [|exact D2]. intros b [_ H]. exact H.
      * destruct blocks; [congruence|discriminate].
      * rewrite map_length. exact Cc.
  - destruct K as (zs & Z1 & Z2). exists zs. split; [exact Z1|]. unfold pec_kept. rewrite coloured_closed.
    eapply subseq_trans; [apply coloured_pec_view; apply written_stops; exact S|].
    pose proof (written_colours set _ out _ 0%nat E) as W. change (NumModel.F N) with Q in W. rewrite W. exact Z2.
  - intros Sz. destruct D as (D1 & _ & _). assert (0 < List.length blocks)%nat by (destruct blocks; [congruence|cbn; lia]).
    split; [rewrite (changes_count out C), map_length, Cc; lia|]. split; [rewrite (stops_count _ out S), map_length; lia|].
    split; [|exact Sz]. exists (map snd blocks). split; [apply incl_refl|rewrite map_length; exact L64].
Qed.

(** ** C148: PES and PEC *)
(** PES version 6: every stitch comes back in its block, and every block with the thread as PES stores it. *)
Theorem C148_pes_version_6 : forall f32 filler order truncated md set blocks ends,
  (forall v, zlen (f32 v) = 4) ->
  set_order order -> Forall (fun c => 0 <= c < 128) (label_of (md (text_of "name"))) ->
  Forall (fun key => ascii_text (md (text_of key))) ["name"; "category"; "author"; "keywords"; "comments"]%string ->
  Forall ascii_thread (map snd blocks) -> neighbours stored_differ (map snd blocks) ->
  fitting 2047 set -> no_sequins set -> design_ok blocks ends -> (List.length blocks <= 64)%nat ->
  exists out, transcode N set (block_design blocks ends) = Ok (out, map Own (map snd blocks)) /\
  (6 * zlen out + 16 < 2 ^ 24 ->
   exists file, pes_write f32 filler order 60 truncated md out (map snd blocks) = Ok file /\
   (zlen file < 2 ^ 32 -> exists l meta, pes_read file = Ok (l, map stored_thread (map snd blocks), meta) /\
      blocks_kept (map fst blocks) l)).
Proof.
  intros f32 filler order truncated md set blocks ends H1 H2 H3 H4 H5 H6 F Hq D L.
  destruct (design_pec set blocks ends F Hq D L) as (out & E & P & K & R). exists out. split; [exact E|]. intros Sz.
  destruct (C73_pes_version_6 f32 filler order truncated md out (map snd blocks) H1 H2 H3 H4 H5 P (R Sz) H6) as (file & W & Rd).
  exists file. split; [exact W|]. intros Lf. destruct (Rd Lf) as (meta & Er & _). exists (pec_kept out), meta. split; [exact Er|exact K].
Qed.

(** PES version 1 and PEC: with the colours of the built-in palette. *)
Theorem C148_pes_version_1 : forall f32 filler order truncated md set blocks ends,
  set_order order -> Forall (fun c => 0 <= c < 128) (label_of (md (text_of "name"))) ->
  neighbours colours_differ (map snd blocks) ->
  fitting 2047 set -> no_sequins set -> design_ok blocks ends -> (List.length blocks <= 64)%nat ->
  exists out, transcode N set (block_design blocks ends) = Ok (out, map Own (map snd blocks)) /\
  (6 * zlen out + 16 < 2 ^ 24 ->
   exists file pal, pes_write f32 filler order 10 truncated md out (map snd blocks) = Ok file /\ palette_for (map snd blocks) pal /\
   (zlen file < 2 ^ 32 -> exists l meta, pes_read file = Ok (l, map pal (map snd blocks), meta) /\ blocks_kept (map fst blocks) l)).
Proof.
  intros f32 filler order truncated md set blocks ends H2 H3 H6 F Hq D L.
  destruct (design_pec set blocks ends F Hq D L) as (out & E & P & K & R). exists out. split; [exact E|]. intros Sz.
  destruct (C72_pes_version_1 f32 filler order truncated md out (map snd blocks) H2 H3 P (R Sz) H6) as (file & pal & W & Hp & Rd).
  exists file, pal. split; [exact W|]. split; [exact Hp|]. intros Lf. destruct (Rd Lf) as (pictures & Er). do 2 eexists. split; [exact Er|exact K].
Qed.
Theorem C148_pec : forall filler order name set blocks ends,
  set_order order -> Forall (fun c => 0 <= c < 128) (label_of name) -> neighbours colours_differ (map snd blocks) ->
  fitting 2047 set -> no_sequins set -> design_ok blocks ends -> (List.length blocks <= 64)%nat ->
  exists out, transcode N set (block_design blocks ends) = Ok (out, map Own (map snd blocks)) /\
  (6 * zlen out + 16 < 2 ^ 24 ->
   exists file pal l meta, pec_write filler order name out (map snd blocks) = Ok file /\ palette_for (map snd blocks) pal /\
     pec_file_read file = Ok (l, map pal (map snd blocks), meta) /\ blocks_kept (map fst blocks) l).
Proof.
  intros filler order name set blocks ends H2 H3 H6 F Hq D L.
  destruct (design_pec set blocks ends F Hq D L) as (out & E & P & K & R). exists out. split; [exact E|]. intros Sz.
  destruct (C71_pec_file filler order name out (map snd blocks) H2 H3 P (R Sz) H6) as (file & pal & pictures & W & Hp & Rd).
  exists file, pal. do 2 eexists. split; [exact W|]. split; [exact Hp|]. split; [exact Rd|exact K].
Qed.

(** ** C149: DST, EXP and JEF *)
Theorem C149_dst : forall extended trim_at info set blocks ends,
  fitting 121 set -> design_ok blocks ends -> info_ok extended info -> header_room extended info ->
  exists out, transcode N set (block_design blocks ends) = Ok (out, map Own (map snd blocks)) /\
  (small out -> exists file loaded, dst_write extended trim_at info out = Ok file /\
    forall count distance clipping fuel, (List.length file < fuel)%nat ->
    exists l zl, dst_read count distance clipping fuel file = Ok (l, loaded) /\
      coloured 0 l = map exact_colour (coloured 0 zl) /\ blocks_kept (map fst blocks) zl /\
      (plain_settings set -> Forall (fun b => Forall (fun a => scmd a <> SEW_TO) (fst b)) blocks -> blocks_exact (map fst blocks) zl)).
Proof.
  intros extended t info set blocks ends F D Hi Hr.
  destruct (design_encoded 121 set blocks ends ltac:(lia) F D) as (out & E & S & Cc & K & Ex).
  pose proof (design_savable 121 set blocks ends F D) as V.
  exists out. split; [exact E|]. intros Sm.
  destruct (C20_dst qcos qsin qorient t set (block_design blocks ends) out _ Hdir (v_fit _ _ _ _ _ _ V) (v_source _ _ _ _ _ _ V) (v_speeds _ _ _ _ _ _ V) (v_change _ _ _ _ _ _ V) E)
    as (bs & B1 & _ & B3).
  destruct (C22_single_end N set _ out _ E) as (body & e & Eo & _). change (NumModel.F N) with Q in *.
  assert (Sm' := Sm). assert (B1' := B1). rewrite Eo in Sm', B1'.
  destruct (dst_file_any extended t info body e bs Hi Hr Sm' B1') as (file & h & W & R). rewrite <- Eo in W.
  exists file, h. split; [exact W|]. intros count distance clipping fuel Hf.
  destruct (R count distance clipping fuel Hf) as (l & Rl & _ & Kl & _). exists l, (written out).
  split; [exact Rl|]. split; [|split; [exact K|exact Ex]].
  rewrite <- (coloured_keeper _ l), Kl, coloured_keeper, coloured_of_int, B3, coloured_closed, coloured_dst_view by (apply written_stops; exact S).
  f_equal. exact (written_colours set _ out _ 0%nat E).
Qed.
Theorem C149_exp : forall set blocks ends, fitting 127 set -> no_sequins set -> design_ok blocks ends ->
  exists out, transcode N set (block_design blocks ends) = Ok (out, map Own (map snd blocks)) /\
    blocks_kept (map fst blocks) (exp_read (exp_write qz_q out)) /\
    (plain_settings set -> Forall (fun b => Forall (fun a => scmd a <> SEW_TO) (fst b)) blocks ->
     blocks_exact (map fst blocks) (exp_read (exp_write qz_q out))).
Proof.
  intros set blocks ends F Hq D.
  destruct (design_encoded 127 set blocks ends ltac:(lia) F D) as (out & E & S & Cc & K & Ex).
  pose proof (design_savable 127 set blocks ends F D) as V. exists out. split; [exact E|].
  rewrite (C20_exp qcos qsin qorient set (block_design blocks ends) out _ Hdir (v_fit _ _ _ _ _ _ V) (v_source _ _ _ _ _ _ V) (v_speeds _ _ _ _ _ _ V) (v_change _ _ _ _ _ _ V)
    (design_sequins set blocks ends Hq D) E).
  unfold blocks_kept, blocks_exact. rewrite coloured_closed, coloured_renamed by (apply stops_written; exact S). split; [exact K|exact Ex].
Qed.

(** JEF: each block has the palette number of its thread, [near], or, where that is the number of
    the block before, [near2], the nearest of the others. *)
Lemma palette_plain : forall (teq : tref -> tref -> bool) near near2 cmds li lt rest p,
  Forall (fun c => c <> STOP) cmds -> jef_palette teq near near2 (Some (li, lt)) false rest true cmds = Ok p ->
  List.length (filter (fun c => c =? COLOR_CHANGE) cmds) = List.length rest ->
  jef_numbers teq near near2 (Some (li, lt)) rest p.
Proof.
  intros teq near near2. induction cmds as [|c cmds IH]; intros li lt rest p Hs H L; cbn [jef_palette] in H.
  { injection H as <-. destruct rest; [constructor|discriminate]. }
  inversion Hs as [|? ? Hc Hs']; subst. cbn [filter] in L. rewrite orb_false_r in H.
  destruct (c =? COLOR_CHANGE).
  - destruct rest as [|t rest]; [discriminate|]. apply Z.eqb_neq in Hc. rewrite Hc in H.
    set (i := if (li =? near t) && negb (teq lt t) then near2 t (near t) else near t) in *.
    destruct (jef_palette _ _ _ _ _ _ _ _) as [q|] eqn:Eq in H; cbn [bindr] in H; [|discriminate]. injection H as <-.
    cbn [List.length] in L. injection L as L. specialize (IH i t rest q Hs' Eq L).
    econstructor; [reflexivity|exact IH].
  - apply Z.eqb_neq in Hc. rewrite Hc in H. eapply IH; eauto.
Qed.
Theorem C149_jef : forall set blocks ends teq near near2 (thread_of : Z -> tref) trims m date w h hw hh,
  fitting 127 set -> no_sequins set -> design_ok blocks ends -> Z.of_nat (List.length blocks) < 2 ^ 27 ->
  (forall t, 1 <= near t < 2 ^ 32) -> (forall t i, 1 <= near2 t i < 2 ^ 32) -> List.length date = 14%nat ->
  exists out file l numbers, transcode N set (block_design blocks ends) = Ok (out, map Own (map snd blocks)) /\
    jef_write qz_q teq near near2 trims m date w h hw hh (map Own (map snd blocks)) out = Ok file /\
    jef_read thread_of file = Ok (l, map (fun i => Some (thread_of i)) numbers) /\
    jef_numbers teq near near2 None (map Own (map snd blocks)) numbers /\
    blocks_kept (map fst blocks) l /\
    (plain_settings set -> Forall (fun b => Forall (fun a => scmd a <> SEW_TO) (fst b)) blocks -> blocks_exact (map fst blocks) l).
Proof.
  intros set blocks ends teq near near2 thread_of trims m date w h hw hh F Hq D Lb N1 N2 Hd.
  destruct (design_encoded 127 set blocks ends ltac:(lia) F D) as (out & E & S & Cc & K & Ex).
  pose proof (design_savable 127 set blocks ends F D) as V.
  assert (Ht : Forall (fun a => is_cmd TIE_ON a = false /\ is_cmd TIE_OFF a = false) (of_blocks brk (map fst blocks) ends)).
  { apply (design_source blocks ends); [exact D|split; reflexivity|intros a Ha; unfold is_cmd; rewrite Ha; split; reflexivity|].
    intros a Ha. split; apply (simple_facts a Ha). }
  assert (X : exists q, In (0%nat, q) (coloured 0 out)).
  { assert (L : (0 < List.length (map fst blocks))%nat) by (destruct D as (D1 & _); destruct blocks; [congruence|cbn; lia]).
    assert (Hb : Forall (fun b => exists a, In a b /\ sews_src a = true) (map fst blocks)).
    { destruct D as (_ & D2 & _). apply Forall_map. eapply Forall_impl; [|exact D2]. intros b [_ H]. exact H. }
    destruct (numbered_in _ (map fst blocks) 0 0%nat Hb L) as [a Ia]. destruct (kept_in _ _ _ _ K Ia) as [q Iq]. cbn [plus] in Iq.
    apply (in_map fst) in Iq. rewrite (coloured_index _ _ _ out 0 (cmds_written out)) in Iq.
    apply in_map_iff in Iq. destruct Iq as ([j q'] & Ej & Iq). cbn [fst] in Ej. subst j. eauto. }
  destruct X as [q Iq]. change (NumModel.F N) with Q in *.
  assert (S2 : starts_sewing out).
  { destruct out as [|a r]; [contradiction|]. intros Ha. rewrite coloured_cons, Ha in Iq. cbn in Iq.
    apply (in_map fst) in Iq. apply coloured_from in Iq. cbn [fst] in Iq. lia. }
  assert (S1 : EncoderSpec.sews out).
  { clear - Iq. revert Iq. generalize 0%nat. intros n. generalize n at 2. intros k. revert k.
    induction out as [|a r IH]; intros k H; [contradiction|]. cbn [coloured] in H.
    destruct (is_cmd STITCH a) eqn:Ea; [left; left; exact Ea|]. right. destruct (is_cmd COLOR_CHANGE a); eapply IH; exact H. }
  assert (Cs : List.length (filter (fun c => c =? COLOR_CHANGE) (map (fun s => cmd_of (scmd s)) out)) = pred (List.length blocks)).
  { rewrite <- Cc. clear. induction out as [|a r IH]; [reflexivity|]. cbn [map filter].
    change (is_cmd COLOR_CHANGE a) with (cmd_of (scmd a) =? COLOR_CHANGE). destruct (cmd_of (scmd a) =? COLOR_CHANGE); cbn [List.length]; rewrite IH; reflexivity. }
  assert (S0 : Forall (fun c => c <> STOP) (map (fun s => cmd_of (scmd s)) out)) by (apply Forall_map; exact S).
  assert (S3 : Z.of_nat (thread_commands out) < 2 ^ 27).
  { assert (Q : thread_commands out = pred (List.length blocks)); [|rewrite Q; lia].
    rewrite <- Cc. unfold thread_commands. f_equal. clear - S. induction S as [|a r Ha _ IH]; [reflexivity|]. cbn [filter]. rewrite IH.
    change (is_cmd COLOR_CHANGE a) with (cmd_of (scmd a) =? COLOR_CHANGE). apply Z.eqb_neq in Ha. rewrite Ha, orb_false_r. reflexivity. }
  destruct (C20_jef qcos qsin qorient set (block_design blocks ends) out _ teq near near2 thread_of trims m date w h hw hh Hdir (v_fit _ _ _ _ _ _ V)
    (v_source _ _ _ _ _ _ V) (v_speeds _ _ _ _ _ _ V) (fi_change _ _ F) (design_sequins set blocks ends Hq D) Ht E S1 S2 S3 N1 N2 Hd)
    as (palette & file & W & P & R).
  exists out, file. do 2 eexists. split; [exact E|]. split; [exact W|]. split; [exact R|].
  unfold blocks_kept, blocks_exact.
  assert (Y : coloured 0 (closed (jef_view (if trims then Z.to_nat m else 0) false (before_end (written out)))) = coloured 0 (written out)).
  { rewrite coloured_closed, coloured_jef_view by (apply written_stops; exact S). exact (written_colours set _ out _ 0%nat E). }
  rewrite Y. split; [|split; [exact K|exact Ex]].
  assert (G : jef_numbers teq near near2 None (map Own (map snd blocks)) palette).
  { destruct D as (D1 & _ & _). destruct blocks as [|[b t] bl]; [congruence|]. unfold jef_write_palette in P.
    destruct out as [|a r]; [contradiction|]. cbn [map snd] in P |- *. cbn [map filter] in Cs, S0. cbn [starts_sewing] in S2.
    apply Z.eqb_neq in S2. rewrite S2 in Cs. cbn [jef_palette negb] in P. change (NumModel.F N) with Q in P. rewrite S2 in P. cbn [orb] in P.
    inversion S0 as [|? ? Sa Sr]; subst. apply Z.eqb_neq in Sa. rewrite Sa in P.
    destruct (jef_palette _ _ _ _ _ _ _ _) as [pl|] eqn:Ep in P; cbn [bindr] in P; [|discriminate]. injection P as <-.
    constructor; [reflexivity|]. eapply palette_plain; [exact Sr|exact Ep|]. rewrite Cs, !map_length. reflexivity. }
  assert (Z0 : filter (fun i => negb (i =? 0)) palette = palette); [|rewrite Z0; exact G].
  clear - G N1 N2. induction G as [|last t ts i r Hi _ IH]; [reflexivity|]. cbn [filter].
  assert (B : 1 <= i) by (subst i; destruct last as [[n u]|]; [destruct ((n =? near t) && negb (teq u t))|]; (apply N1 || apply N2)).
  destruct (Z.eqb_spec i 0); [lia|]. cbn [negb]. rewrite IH. reflexivity.
Qed.
(** So neighbouring blocks of different threads have different numbers. *)
Theorem C149_jef_neighbours : forall T teq (near : T -> Z) near2 last ts numbers k t u i j,
  jef_numbers teq near near2 last ts numbers -> (forall v n, near2 v n <> n) ->
  nth_error ts k = Some t -> nth_error ts (S k) = Some u -> teq t u = false ->
  nth_error numbers k = Some i -> nth_error numbers (S k) = Some j -> i <> j.
Proof.
  intros T teq near near2 last ts numbers k t u i j H H2. revert k.
  induction H as [|last a l n r Hn H IH]; intros k Ha Hb He Hi Hj; [destruct k; discriminate|].
  destruct k as [|k]; [|exact (IH k Ha Hb He Hi Hj)]. cbn [nth_error] in *. injection Ha as ->. injection Hi as ->.
  inversion H as [|? b ? m ? Hm]; subst; [discriminate|]. cbn in Hb, Hj. injection Hb as ->. injection Hj as <-. rewrite He. cbn [negb].
  rewrite andb_true_r.
  match goal with |- ?x <> _ => destruct (Z.eqb_spec x (near u)) as [Ex|Ex] end; [rewrite Ex; apply not_eq_sym, H2|exact Ex].
Qed.

(** The settings completed for these formats are fitting, if the caller sets no lengths, rounding,
    contingencies, transformation, needle count or kind of thread change of their own. *)
Theorem C148_default_settings : forall (d : sdict N),
  leaves_alone qcos qsin qorient [KMaxStitch; KMaxJump; KRound; KLongStitch; KSequin] d ->
  leaves_alone qcos qsin qorient [KTranslate; KScale; KRotate; KNeedleCount; KThreadChange] d ->
  fitting 121 (for_format qcos qsin qorient (dst_attributes N inject_Z) d) /\
  (fitting 127 (for_format qcos qsin qorient (exp_attributes N inject_Z) d) /\ no_sequins (for_format qcos qsin qorient (exp_attributes N inject_Z) d)) /\
  (fitting 127 (for_format qcos qsin qorient (jef_attributes N inject_Z) d) /\ no_sequins (for_format qcos qsin qorient (jef_attributes N inject_Z) d)) /\
  (fitting 2047 (for_format qcos qsin qorient (pec_attributes N inject_Z) d) /\ no_sequins (for_format qcos qsin qorient (pec_attributes N inject_Z) d)).
Proof.
  intros d H1 H2. destruct (C20_default_settings qcos qsin qorient d H1) as (F1 & F2 & F3 & F4 & _).
  inversion H2 as [|? ? A1 Ha]; subst. inversion Ha as [|? ? A2 Hb]; subst. inversion Hb as [|? ? A3 Hc]; subst.
  inversion Hc as [|? ? A4 Hd]; subst. inversion Hd as [|? ? A5 _]; subst.
  assert (A6 : lookup N KSequin d = None) by (unfold leaves_alone in H1; rewrite Forall_forall in H1; apply H1; cbn; auto 10).
  assert (G : forall m (w : attributes N), settings_fit m (for_format qcos qsin qorient w d) ->
     w KTranslate = None -> w KScale = None -> w KRotate = None -> w KThreadChange = None -> fitting m (for_format qcos qsin qorient w d)).
  { intros m w F W1 W2 W3 W4. constructor; try assumption.
    - unfold untransformed, for_format, read_settings. cbn [s_translate s_scale s_rotate].
      rewrite !C50_settings_override, A1, A2, A3, W1, W2, W3. repeat destruct (in_dec _ _ _); auto.
    - unfold for_format, read_settings. cbn [s_needle_count]. rewrite C50_settings_override, A4.
      destruct (in_dec _ _ _) as [I|I]; [|discriminate]. cbn [In] in I. intuition discriminate.
    - unfold requested_change, for_format, read_settings. cbn [s_thread_change_command]. rewrite C50_settings_override, A5, W4.
      destruct (in_dec _ _ _); reflexivity. }
  assert (K : forall w : attributes N, w KSequin = Some CONTINGENCY_SEQUIN_JUMP -> no_sequins (for_format qcos qsin qorient w d)).
  { intros w W. unfold no_sequins, sequins_requested, for_format, read_settings. cbn [s_sequin_contingency s_strip_sequins].
    rewrite C50_settings_override, A6, W. destruct (in_dec _ _ _) as [I|I]; [|exfalso; apply I; cbn; auto 10].
    intros [X|[[X _]|X]]; [discriminate X|discriminate X|inversion X]. }
  split; [apply G; try reflexivity; exact F1|].
  split; [split; [apply G; try reflexivity; exact F2|apply K; reflexivity]|].
  split; [split; [apply G; try reflexivity; exact F3|apply K; reflexivity]|].
  split; [apply G; try reflexivity; exact F4|apply K; reflexivity].
Qed.
End Files.
Print Assumptions C148_pes_version_6.
Print Assumptions C148_pes_version_1.
Print Assumptions C148_pec.
Print Assumptions C148_default_settings.
Print Assumptions C149_dst.
Print Assumptions C149_exp.
Print Assumptions C149_jef.
Print Assumptions C149_jef_neighbours.

(** Three blocks with fractions, long stitches, a trim and a stitch without movement. *)
Definition c148_blocks : list (list (stitch Q) * thread) :=
  [([mkS (1 # 3) 0%Q STITCH; st_at 3000 0 STITCH], plain_thread 0xFF0000);
   ([st_at 5 5 JUMP; mkS 7%Q (29 # 2) NEEDLE_AT; st_at 0 0 TRIM], plain_thread 0x00FF00);
   ([st_at 9 9 STITCH; st_at 9 9 STITCH], plain_thread 0x0000FF)].
Lemma c148_ok : design_ok c148_blocks [st_at 0 0 END].
Proof.
  split; [discriminate|]. split; [|repeat constructor].
  assert (G : forall b : list (stitch Q), forallb (fun a => existsb (Z.eqb (scmd a)) [STITCH; NEEDLE_AT; SEW_TO; JUMP; TRIM; STITCH_BREAK; SEQUENCE_BREAK]) b = true ->
    Forall simple_command b).
  { intros b H. rewrite forallb_forall in H. apply Forall_forall. intros a Ia. specialize (H a Ia). apply existsb_exists in H.
    destruct H as (c & Ic & Ec). apply Z.eqb_eq in Ec. unfold simple_command. rewrite Ec. cbn [In] in Ic |- *. tauto. }
  repeat (constructor; [split; [apply G; reflexivity|]|]); [| | |constructor].
  - eexists. split; [left; reflexivity|reflexivity].
  - eexists. split; [right; left; reflexivity|reflexivity].
  - eexists. split; [left; reflexivity|reflexivity].
Qed.
Lemma c148_differ : neighbours colours_differ (map snd c148_blocks) /\ neighbours stored_differ (map snd c148_blocks).
Proof.
  split; intros a x y b E; destruct a as [|a1 [|a2 [|a3 [|a4 a]]]]; try discriminate E.
  - injection E as <- <- _. discriminate.
  - injection E as _ <- <- _. discriminate.
  - injection E as <- <- _. left. discriminate.
  - injection E as _ <- <- _. left. discriminate.
Qed.
Example C148_case : exists out file, transcode ExNum (c116_set (pec_attributes ExNum inject_Z)) (block_design ex_cos ex_sin ex_orient c148_blocks [st_at 0 0 END])
    = Ok (out, map Own (map snd c148_blocks)) /\
  pes_write (fun _ => [0; 0; 0; 0]) plain_thread (first_seen []) 60 false sample_md out (map snd c148_blocks) = Ok file /\
  (zlen file < 2 ^ 32 -> exists l meta, pes_read file = Ok (l, map stored_thread (map snd c148_blocks), meta) /\ blocks_kept (map fst c148_blocks) l).
Proof.
  destruct (C148_default_settings ex_cos ex_sin ex_orient []) as (_ & _ & _ & F & Hq); [each|each|].
  destruct (C148_pes_version_6 ex_cos ex_sin ex_orient ex_turns ex_orient_bounded (fun _ => [0; 0; 0; 0]) plain_thread (first_seen []) false sample_md
    (c116_set (pec_attributes ExNum inject_Z)) c148_blocks [st_at 0 0 END]) as (out & E & R); try assumption.
  - reflexivity.
  - apply first_seen_order.
  - apply sample_label.
  - repeat (apply Forall_cons; [try exact I; cbn; repeat (apply Forall_cons; [lia|]); apply Forall_nil|]). apply Forall_nil.
  - repeat (apply Forall_cons; [repeat split; try exact I; cbn; repeat (apply Forall_cons; [lia|]); apply Forall_nil|]). apply Forall_nil.
  - apply c148_differ.
  - exact c148_ok.
  - cbn; lia.
  - destruct R as (file & W & R); [|exists out, file; auto].
    pose (f := fun r : res (list (stitch Q) * list tref) => match r with Ok (o, _) => 6 * zlen o + 16 <? 2 ^ 24 | Err _ => false end).
    assert (L : f (transcode ExNum (c116_set (pec_attributes ExNum inject_Z)) (block_design ex_cos ex_sin ex_orient c148_blocks [st_at 0 0 END])) = true)
      by (vm_compute; reflexivity).
    exact (proj1 (Z.ltb_lt _ _) (eq_trans (eq_sym (f_equal f E)) L)).
Qed.
(** The same blocks saved as EXP: the long stitches are split into jumps, the stitches are those of the blocks. *)
Example C149_case :
  match transcode ExNum (c116_set (exp_attributes ExNum inject_Z)) (block_design ex_cos ex_sin ex_orient c148_blocks [st_at 0 0 END]) with
  | Ok (out, _) => coloured 0 (exp_read (exp_write qz_q out)) | Err _ => []
  end = [(0%nat, (0, 0)); (0%nat, (3000, 0)); (1%nat, (7, 14)); (2%nat, (9, 9)); (2%nat, (9, 9))].
Proof. vm_compute. reflexivity. Qed.
(** Two threads with the same nearest colour get different numbers in a JEF file. *)
Example C149_jef_case : jef_numbers Z.eqb (fun t => t / 10) (fun _ i => i + 1) None [31; 32; 32; 32; 50] [3; 4; 3; 3; 5].
Proof. repeat (econstructor; [reflexivity|]). constructor. Qed.
