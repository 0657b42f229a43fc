(** Properties C146 and C147: encoding keeps the thread of every stitch. *)
From Coq Require Import ZArith QArith List Bool Lia.
From Verif Require Import PyBase EmbConst FunctionsModel ThreadModel NumModel NumQ MatrixModel EncoderModel
  EncoderProofs EncoderPlanProofs EncoderSpec EncoderColorSpec EncoderFlowProofs EncoderSewProofs EncoderThreadProofs
  EncoderColorProofs BlockFileSpec PropertiesEncoder.
Import ListNotations.
Open Scope Z_scope.

(** ** C146: every stitch keeps its thread *)
(** The stitches of an encoded pattern with the threads that sew them: the first thread up to the first colour
    change, the next one up to the second, and so on. *)
Definition sewn_with {C} (ths : list tref) (o : list (stitch C)) : list (option tref * (C * C)) :=
  map (fun kq => (nth_error ths (fst kq), snd kq)) (coloured 0 o).
(** The commands that sew, tie or end carry no thread, needle or order numbers. *)
Definition bare_sewing {C} (a : stitch C) : Prop :=
  has_command [STITCH; NEEDLE_AT; SEW_TO; SEQUIN_EJECT; TIE_ON; END] a = true -> 0 <= scmd a < 256.
Lemma bare_plain : forall N (a : stitch (F N)), bare_sewing a -> plain_sewing N a.
Proof.
  intros N a Ha.
  assert (X : forall k, In k [STITCH; NEEDLE_AT; SEW_TO; SEQUIN_EJECT; TIE_ON; END] -> plain_cmd N k a).
  { intros k Hin Hc. assert (R : 0 <= scmd a < 256).
    { apply Ha. unfold has_command. apply existsb_exists. exists k. auto. }
    unfold is_cmd in Hc. apply Z.eqb_eq in Hc. rewrite BitLemmas.land_ff, Z.mod_small in Hc by exact R. exact Hc. }
  unfold plain_sewing. repeat (split; [apply X; cbn; tauto|]). apply X. cbn. tauto.
Qed.
Lemma subseq_map : forall A B (f : A -> B) p q, subseq p q -> subseq (map f p) (map f q).
Proof. intros A B f p q H. induction H; cbn [map]; constructor; assumption. Qed.
Lemma plain_no_ties : forall N (set : settings N), plain_settings set -> no_ties N (init_state N set).
Proof.
  intros N set (T1 & T2 & T3). unfold no_ties.
  cbn [init_state tie_on_contingency tie_off_contingency long_stitch_contingency]. unfold get.
  split; [destruct T1 as [-> | ->]; discriminate|]. split; [destruct T2 as [-> | ->]; discriminate|].
  destruct T3 as [->|[->| ->]]; discriminate.
Qed.

Lemma colours_of_transcode : forall N (set : settings N) p o ths, transcode N set p = Ok (o, ths) ->
  requested_change set = COLOR_CHANGE ->
  Forall (fun a => has_command matrix_commands a = false) (until_end (p_stitches N p)) ->
  Forall bare_sewing (p_stitches N p) ->
  Forall (fun a => is_cmd SET_CHANGE_SEQUENCE a = false) (p_stitches N p) ->
  Forall (fun a => changes_thread a = true -> thread_number a = None) (p_stitches N p) ->
  List.length ths = threads_taken None (p_stitches N p) /\
  List.length (filter (is_cmd COLOR_CHANGE) o) = pred (List.length ths) /\
  (forall k t, nth_error ths k = Some t -> t = get_thread_or_filler (p_threads N p) (Z.of_nat k)) /\
  exists qs,
    Forall2 (fun ka kq => fst ka = fst kq /\ sewn_at set (snd ka) = Ok (snd kq)) (threaded None (p_stitches N p)) qs /\
    Forall (fun ka => (fst ka < List.length ths)%nat) (threaded None (p_stitches N p)) /\
    subseq qs (coloured 0 o) /\
    (plain_settings set ->
     Forall (fun a => has_command (matrix_commands ++ stitching_commands) a = false) (until_end (p_stitches N p)) ->
     coloured 0 o = qs).
Proof.
  intros N set p o ths E Hk Hm Hb Hs Hn.
  assert (D : forall a : stitch (F N), has_command (matrix_commands ++ stitching_commands) a = false ->
     has_command matrix_commands a = false /\ has_command stitching_commands a = false).
  { intros a Ha. unfold has_command in *. rewrite existsb_app in Ha. apply orb_false_iff. exact Ha. }
  destruct (transcode_colours N set p o ths E) as (qs & Q & Sub & Ex & B & L & Cc & G).
  - rewrite requested_ok. exact Hk.
  - eapply Forall_impl; [|exact Hb]. intros a. apply bare_plain.
  - eapply Forall_impl; [|exact Hm]. intros a Ha. apply classify_matrix. exact Ha.
  - exact Hs.
  - exact Hn.
  - split; [exact L|]. split; [exact Cc|]. split; [exact G|]. exists qs. split; [|split; [exact B|split; [exact Sub|]]].
    + eapply Forall2_imp; [|exact Q]. intros ka kq [K Hq]. split; [exact K|]. unfold placed in Hq.
      assert (M0 : matrix N (start N set (p_threads N p)) = init_matrix N set) by (unfold start; destruct (_ =? _); reflexivity).
      rewrite M0 in Hq. unfold sewn_at. destruct (point_in_matrix_space N (init_matrix N set) (sx (snd ka)) (sy (snd ka))) as [x y].
      unfold init_config, get in Hq. cbn [rounding] in Hq. destruct (s_round N set) as [[]|]; exact Hq.
    + intros Hp Ha. apply Ex; [apply plain_no_ties; exact Hp|]. eapply Forall_impl; [|exact Ha]. intros a Hx.
      destruct (D a Hx) as [X Y]. apply classify_plain; assumption.
Qed.

(** For designs with unnumbered thread changes and no SET_CHANGE_SEQUENCE and matrix commands: the encoded pattern
    has as many threads as the design takes, and each stitch of the design is sewn, in order, with the thread
    of the pattern that has its number; without ties, sequins and sewn gaps there are no other stitches. *)
Theorem C146_threads_kept : forall N (set : settings N) p o ths, transcode N set p = Ok (o, ths) ->
  requested_change set = COLOR_CHANGE ->
  Forall (fun a => has_command matrix_commands a = false) (until_end (p_stitches N p)) ->
  Forall bare_sewing (p_stitches N p) ->
  Forall (fun a => is_cmd SET_CHANGE_SEQUENCE a = false) (p_stitches N p) ->
  Forall (fun a => changes_thread a = true -> thread_number a = None) (p_stitches N p) ->
  List.length ths = threads_taken None (p_stitches N p) /\
  exists qs,
    Forall2 (fun ka tq => fst tq = Some (get_thread_or_filler (p_threads N p) (Z.of_nat (fst ka))) /\
                          sewn_at set (snd ka) = Ok (snd tq))
      (threaded None (p_stitches N p)) qs /\
    subseq qs (sewn_with ths o) /\
    (plain_settings set ->
     Forall (fun a => has_command (matrix_commands ++ stitching_commands) a = false) (until_end (p_stitches N p)) ->
     sewn_with ths o = qs).
Proof.
  intros N set p o ths E Hk Hm Hb Hs Hn.
  destruct (colours_of_transcode N set p o ths E Hk Hm Hb Hs Hn) as (L & _ & G & qs & Q & B & Sub & Ex).
  split; [exact L|]. exists (map (fun kq => (nth_error ths (fst kq), snd kq)) qs). split; [|split].
  - clear Sub Ex. revert B. induction Q as [|ka kq l qs [K Hq] _ IH]; intros B; cbn [map]; constructor.
    + apply Forall_inv in B. cbn [fst snd]. rewrite <- K. split; [|exact Hq].
      destruct (nth_error ths (fst ka)) as [t|] eqn:Et; [f_equal; apply G; exact Et|].
      apply nth_error_None in Et. lia.
    + apply IH. apply Forall_inv_tail in B. exact B.
  - apply subseq_map. exact Sub.
  - intros X Y. unfold sewn_with. rewrite (Ex X Y). reflexivity.
Qed.
Print Assumptions C146_threads_kept.

(** A design with a leading break, explicit changes, a break that takes a thread and one that does not, more
    changes than threads, tie settings and a command after the END. *)
Definition c146_src : list (stitch Q) :=
  [st_at 0 0 COLOR_BREAK; st_at 0 0 STITCH; st_at 9 0 STITCH; st_at 0 0 COLOR_BREAK; st_at 20 0 JUMP; st_at 30 5 STITCH;
   st_at 0 0 COLOR_CHANGE; st_at 40 5 STITCH; st_at 40 50 SEW_TO; st_at 0 0 COLOR_BREAK; st_at 9 9 TRIM; st_at 0 0 END; st_at 7 7 STITCH].
Definition c146_threads : list thread := [plain_thread 0xFF0000; plain_thread 0x00FF00].
Example C146_case : exists o ths,
  transcode ExNum no_settings (mkP ExNum c146_src c146_threads) = Ok (o, ths) /\
  requested_change no_settings = COLOR_CHANGE /\
  Forall (fun a => has_command matrix_commands a = false) (until_end c146_src) /\
  Forall bare_sewing c146_src /\
  Forall (fun a => is_cmd SET_CHANGE_SEQUENCE a = false) c146_src /\
  Forall (fun a => changes_thread a = true -> thread_number a = None) c146_src /\
  threads_taken None c146_src = 3%nat /\ map fst (threaded None c146_src) = [0; 0; 1; 2; 2]%nat /\
  map fst (sewn_with ths o) =
    [Some (Own (plain_thread 0xFF0000)); Some (Own (plain_thread 0xFF0000)); Some (Own (plain_thread 0x00FF00)); Some Filler; Some Filler].
Proof.
  eexists. eexists. split; [vm_compute; reflexivity|]. split; [reflexivity|].
  split; [repeat (constructor; [reflexivity|]); constructor|].
  split; [repeat (apply Forall_cons; [vm_compute; intros; first [discriminate|split; [intros; discriminate|reflexivity]]|]); apply Forall_nil|].
  split; [repeat (constructor; [reflexivity|]); constructor|].
  split; [repeat (constructor; [vm_compute; reflexivity|]); constructor|].
  split; [reflexivity|]. split; vm_compute; reflexivity.
Qed.

(** ** C147: designs made of blocks *)
(** Commands without numbers that neither change threads nor end the pattern nor change the matrix. *)
Definition block_command {C} (a : stitch C) : Prop :=
  0 <= scmd a < 256 /\ has_command ([COLOR_CHANGE; NEEDLE_SET; COLOR_BREAK; SET_CHANGE_SEQUENCE; END] ++ matrix_commands) a = false.
Lemma block_facts : forall C (a : stitch C), block_command a ->
  explicit_change a = false /\ is_break a = false /\ is_cmd END a = false /\ is_cmd SET_CHANGE_SEQUENCE a = false /\
  has_command matrix_commands a = false.
Proof.
  intros C a [_ H]. unfold has_command in *. rewrite existsb_app in H. apply orb_false_iff in H. destruct H as [H1 H2].
  cbn [existsb] in H1. repeat rewrite orb_false_iff in H1. destruct H1 as (A1 & A2 & A3 & A4 & A5 & _).
  unfold explicit_change, is_break. rewrite A1, A2. auto.
Qed.
Lemma until_end_blocks : forall C (b : list (stitch C)) r, Forall block_command b -> until_end (b ++ r) = b ++ until_end r.
Proof.
  intros C. induction b as [|a b IH]; intros r H; [reflexivity|]. apply Forall_cons_iff in H. destruct H as [Ha Hb].
  cbn [app until_end]. destruct (block_facts C a Ha) as (_ & _ & -> & _). rewrite IH by exact Hb. reflexivity.
Qed.
Definition here (n : option nat) : nat := match n with Some k => k | None => O end.
Lemma threaded_block : forall C (b : list (stitch C)) n r, Forall block_command b ->
  threaded n (b ++ r) = map (fun a => (here n, a)) (filter sews_src b) ++ threaded (if existsb sews_any b then Some (here n) else n) r /\
  threads_taken n (b ++ r) = threads_taken (if existsb sews_any b then Some (here n) else n) r.
Proof.
  intros C. induction b as [|a b IH]; intros n r H; [split; reflexivity|]. apply Forall_cons_iff in H. destruct H as [Ha Hb].
  destruct (block_facts C a Ha) as (A1 & A2 & A3 & _). cbn [app threaded threads_taken filter existsb]. rewrite A3.
  assert (T : take_thread n a (b ++ r) = if sews_any a then Some (here n) else n).
  { unfold take_thread, here. rewrite A1, A2. reflexivity. }
  rewrite T. destruct (sews_any a) eqn:Sa.
  - destruct (IH (Some (here n)) r Hb) as [I1 I2]. rewrite I1, I2. cbn [orb here].
    replace (if existsb sews_any b then Some (here n) else Some (here n)) with (Some (here n)) by (destruct (existsb _ _); reflexivity).
    split; [|reflexivity]. destruct (sews_src a); reflexivity.
  - destruct (IH n r Hb) as [I1 I2]. rewrite I1, I2. cbn [orb]. split; [|reflexivity].
    assert (Sa' : sews_src a = false) by (unfold sews_any in Sa; apply orb_false_iff in Sa; apply Sa).
    rewrite Sa'. destruct n; reflexivity.
Qed.
Lemma threaded_ends : forall C (ends : list (stitch C)) n, Forall (fun a => scmd a = END) ends ->
  threaded n ends = [] /\ threads_taken n ends = next_thread n /\ until_end ends = [].
Proof.
  intros C [|a ends] n H; [auto|]. apply Forall_inv in H. cbn [threaded threads_taken until_end].
  unfold is_cmd. rewrite H. auto.
Qed.
Lemma threaded_blocks : forall C (brk : stitch C) ends blocks n, scmd brk = COLOR_BREAK -> Forall (fun a => scmd a = END) ends ->
  Forall (Forall block_command) blocks -> Forall (fun b => existsb sews_src b = true) blocks -> blocks <> [] ->
  threaded n (of_blocks brk blocks ends) = numbered (here n) blocks /\
  threads_taken n (of_blocks brk blocks ends) = (here n + List.length blocks)%nat.
Proof.
  intros C brk ends blocks n Hb He H1 H2 Hn. revert n. induction blocks as [|b r IH]; intros n; [congruence|].
  apply Forall_cons_iff in H1, H2. destruct H1 as [B1 H1], H2 as [B2 H2].
  unfold of_blocks in *. cbn [flat_map numbered List.length]. rewrite <- !app_assoc. cbn [app].
  set (rest := flat_map (fun b => b ++ [brk]) r ++ ends) in *.
  destruct (threaded_block C b n (brk :: rest) B1) as [T1 T2]. rewrite T1, T2.
  assert (Sw : existsb sews_any b = true).
  { apply existsb_exists in B2. destruct B2 as (a & Ia & Sa). apply existsb_exists. exists a. split; [exact Ia|].
    unfold sews_any. rewrite Sa. reflexivity. }
  rewrite Sw. clear T1 T2. cbn [threaded threads_taken].
  assert (K : sews_src brk = false /\ sews_any brk = false /\ explicit_change brk = false /\ is_break brk = true /\ is_cmd END brk = false).
  { unfold sews_any, sews_src, explicit_change, is_break, is_cmd. rewrite Hb. repeat split; reflexivity. }
  destruct K as (K1 & K2 & K3 & K4 & K5). rewrite K1, K5. unfold take_thread. rewrite K2, K3, K4. cbn [andb].
  destruct r as [|b' r].
  - unfold rest. cbn [flat_map app]. destruct (threaded_ends C ends (Some (here n)) He) as (E1 & E2 & E3).
    unfold later_sewing. rewrite E3. cbn [existsb]. rewrite E1, E2. cbn [next_thread List.length numbered app]. split; [reflexivity|lia].
  - assert (L : later_sewing rest = true).
    { unfold later_sewing, rest. cbn [flat_map]. rewrite <- !app_assoc. apply Forall_inv in H1, H2.
      rewrite until_end_blocks by exact H1. rewrite existsb_app.
      apply existsb_exists in H2. destruct H2 as (a & Ia & Sa).
      assert (X : existsb (fun a => sews_any a || is_cmd TIE_ON a) b' = true).
      { apply existsb_exists. exists a. split; [exact Ia|]. unfold sews_any. rewrite Sa. reflexivity. }
      rewrite X. reflexivity. }
    rewrite L. cbn [next_thread]. destruct (IH H1 H2 ltac:(discriminate) (Some (S (here n)))) as [I1 I2]. rewrite I1, I2. cbn [here].
    split; [reflexivity|cbn [List.length]; lia].
Qed.

Lemma blocks_source : forall C (brk : stitch C) ends blocks (P : stitch C -> Prop), P brk -> Forall P ends ->
  (forall a, block_command a -> P a) -> Forall (Forall block_command) blocks -> Forall P (of_blocks brk blocks ends).
Proof.
  intros C brk ends blocks P Hb He Ha H. unfold of_blocks. apply Forall_app. split; [|exact He].
  induction H as [|b r B _ IH]; [constructor|]. cbn [flat_map]. apply Forall_app. split; [|exact IH].
  apply Forall_app. split; [eapply Forall_impl; [|exact B]; exact Ha|]. constructor; [exact Hb|constructor].
Qed.
Lemma until_end_all : forall C (P : stitch C -> Prop) l, Forall P l -> Forall P (until_end l).
Proof.
  intros C P l H. induction H as [|a l Ha _ IH]; [constructor|]. cbn [until_end]. destruct (is_cmd END a); constructor; assumption.
Qed.

(** What the blocks ask of the source. *)
Record blocks_ok {C} (brk : stitch C) (blocks : list (list (stitch C))) (ends : list (stitch C)) : Prop := {
  bo_brk : scmd brk = COLOR_BREAK;
  bo_ends : Forall (fun a => scmd a = END) ends;
  bo_commands : Forall (Forall block_command) blocks;
  bo_sewn : Forall (fun b => existsb sews_src b = true) blocks }.
Lemma blocks_hypotheses : forall C (brk : stitch C) blocks ends, blocks_ok brk blocks ends ->
  let l := of_blocks brk blocks ends in
  Forall (fun a => has_command matrix_commands a = false) l /\ Forall bare_sewing l /\
  Forall (fun a => is_cmd SET_CHANGE_SEQUENCE a = false) l /\
  Forall (fun a => changes_thread a = true -> thread_number a = None) l.
Proof.
  intros C brk blocks ends [B1 B2 B3 B4] l. unfold l.
  assert (Eb : forall P : stitch C -> Prop, P brk -> (forall a, scmd a = END -> P a) -> (forall a, block_command a -> P a) ->
     Forall P (of_blocks brk blocks ends)).
  { intros P P1 P2 P3. apply blocks_source; auto. eapply Forall_impl; [|exact B2]. exact P2. }
  split; [|split; [|split]]; apply Eb.
  - unfold has_command, is_cmd. rewrite B1. reflexivity.
  - intros a Ha. unfold has_command, is_cmd. rewrite Ha. reflexivity.
  - intros a Ha. apply (block_facts C a Ha).
  - intros _. rewrite B1. unfold COLOR_BREAK. lia.
  - intros a Ha _. rewrite Ha. unfold END. lia.
  - intros a [Ha _] _. exact Ha.
  - unfold is_cmd. rewrite B1. reflexivity.
  - intros a Ha. unfold is_cmd. rewrite Ha. reflexivity.
  - intros a Ha. apply (block_facts C a Ha).
  - intros _. unfold thread_number. rewrite B1. reflexivity.
  - intros a Ha _. unfold thread_number. rewrite Ha. reflexivity.
  - intros a Ha. destruct (block_facts C a Ha) as (X & Y & _). unfold changes_thread. rewrite X, Y. discriminate.
Qed.
Lemma nth_error_same : forall A (l l' : list A), (forall k, nth_error l k = nth_error l' k) -> l = l'.
Proof.
  intros A. induction l as [|a l IH]; intros [|b l'] H; [reflexivity| | |]; try (specialize (H O); discriminate).
  pose proof (H O) as H0. cbn in H0. injection H0 as <-. f_equal. apply IH. intros k. exact (H (S k)).
Qed.
Lemma all_threads : forall (threads : list thread) ths, List.length ths = List.length threads ->
  (forall k t, nth_error ths k = Some t -> t = get_thread_or_filler threads (Z.of_nat k)) -> ths = map Own threads.
Proof.
  intros threads ths L G. apply nth_error_same. intros k. rewrite nth_error_map.
  destruct (nth_error ths k) as [t|] eqn:E.
  - rewrite (G k t E). unfold get_thread_or_filler. rewrite Nat2Z.id.
    assert (k < List.length ths)%nat by (apply nth_error_Some; congruence).
    destruct (Z.leb_spec (Z.of_nat (List.length threads)) (Z.of_nat k)); [lia|].
    destruct (nth_error threads k) eqn:Et; [reflexivity|]. apply nth_error_None in Et. lia.
  - apply nth_error_None in E. destruct (nth_error threads k) eqn:Et; [|reflexivity].
    assert (k < List.length threads)%nat by (apply nth_error_Some; congruence). lia.
Qed.

Lemma colours_of_blocks : forall N (set : settings N) brk blocks ends threads o ths,
  transcode N set (mkP N (of_blocks brk blocks ends) threads) = Ok (o, ths) ->
  requested_change set = COLOR_CHANGE -> blocks_ok brk blocks ends ->
  blocks <> [] -> List.length threads = List.length blocks ->
  ths = map Own threads /\ List.length (filter (is_cmd COLOR_CHANGE) o) = pred (List.length threads) /\
  exists qs, Forall2 (fun ia iq => fst ia = fst iq /\ sewn_at set (snd ia) = Ok (snd iq)) (numbered 0 blocks) qs /\
    subseq qs (coloured 0 o) /\
    (plain_settings set ->
     Forall (Forall (fun a => has_command stitching_commands a = false)) blocks -> coloured 0 o = qs).
Proof.
  intros N set brk blocks ends threads o ths E Hk B Hne Hl.
  destruct (blocks_hypotheses _ brk blocks ends B) as (S1 & S2 & S3 & S4).
  destruct (colours_of_transcode N set _ o ths E Hk) as (L & Cc & G & qs & Q & _ & Sub & Ex); cbn [p_stitches p_threads] in *; try assumption.
  { apply until_end_all. exact S1. }
  destruct (threaded_blocks _ brk ends blocks None (bo_brk _ _ _ B) (bo_ends _ _ _ B) (bo_commands _ _ _ B) (bo_sewn _ _ _ B) Hne) as [T1 T2].
  cbn [here] in T1, T2. rewrite T2 in L. rewrite T1 in Q. cbn [plus] in L.
  assert (Et : ths = map Own threads) by (apply all_threads; [congruence|exact G]).
  split; [exact Et|]. split; [rewrite Cc, Et, map_length; reflexivity|]. exists qs. split; [exact Q|]. split; [exact Sub|].
  intros Hp Hst. apply Ex; [exact Hp|].
  assert (Z : forall a : stitch (F N), has_command matrix_commands a = false -> has_command stitching_commands a = false ->
     has_command (matrix_commands ++ stitching_commands) a = false).
  { intros a X Y. unfold has_command in *. rewrite existsb_app, X, Y. reflexivity. }
  destruct B as [B1 B2 B3 B4]. clear - Z B1 B2 B3 Hst. unfold of_blocks.
  assert (U : Forall (fun a => has_command (matrix_commands ++ stitching_commands) a = false) (flat_map (fun b => b ++ [brk]) blocks ++ ends)).
  { apply Forall_app. split.
    - induction Hst as [|b r Hb _ IH]; [constructor|]. apply Forall_cons_iff in B3. destruct B3 as [B3 B3']. cbn [flat_map].
      apply Forall_app. split; [|apply IH; exact B3']. apply Forall_app. split.
      + rewrite Forall_forall in *. intros a Ia. apply Z; [|apply Hb; exact Ia]. apply (block_facts _ a). apply B3. exact Ia.
      + constructor; [|constructor]. unfold has_command, is_cmd. rewrite B1. reflexivity.
    - eapply Forall_impl; [|exact B2]. intros a Ha. unfold has_command, is_cmd. rewrite Ha. reflexivity. }
  apply until_end_all. exact U.
Qed.

(** A pattern made of blocks, each with something to sew, and one thread for each block: encoding keeps the
    threads, and the stitches of each block are sewn with its thread, in order. *)
Theorem C147_blocks : forall N (set : settings N) brk blocks ends threads o ths,
  transcode N set (mkP N (of_blocks brk blocks ends) threads) = Ok (o, ths) ->
  requested_change set = COLOR_CHANGE -> blocks_ok brk blocks ends ->
  blocks <> [] -> List.length threads = List.length blocks ->
  ths = map Own threads /\
  exists qs, Forall2 (fun ia tq => fst tq = option_map Own (nth_error threads (fst ia)) /\ sewn_at set (snd ia) = Ok (snd tq))
      (numbered 0 blocks) qs /\
    subseq qs (sewn_with ths o) /\
    (plain_settings set ->
     Forall (Forall (fun a => has_command stitching_commands a = false)) blocks -> sewn_with ths o = qs).
Proof.
  intros N set brk blocks ends threads o ths E Hk B Hne Hl.
  destruct (colours_of_blocks N set brk blocks ends threads o ths E Hk B Hne Hl) as (Et & _ & qs & Q & Sub & Ex).
  split; [exact Et|]. exists (map (fun kq => (nth_error ths (fst kq), snd kq)) qs). split; [|split].
  - clear Sub Ex. induction Q as [|ka kq l qs [K Hq] _ IH]; cbn [map]; constructor; [|exact IH].
    cbn [fst snd]. rewrite <- K, Et, nth_error_map. split; [reflexivity|exact Hq].
  - apply subseq_map. exact Sub.
  - intros X Y. unfold sewn_with. rewrite (Ex X Y). reflexivity.
Qed.
Print Assumptions C147_blocks.

Definition c147_blocks : list (list (stitch Q)) :=
  [[st_at 0 0 STITCH; st_at 300 0 STITCH]; [st_at 5 5 JUMP; st_at 7 7 SEW_TO; st_at 0 0 TRIM]; [st_at 9 9 STITCH]].
Definition c147_threads : list thread := [plain_thread 0xFF0000; plain_thread 0x00FF00; plain_thread 0x0000FF].
Example C147_case : blocks_ok (st_at 0 0 COLOR_BREAK) c147_blocks [st_at 0 0 END] /\
  exists o ths, transcode ExNum ex_settings (mkP ExNum (of_blocks (st_at 0 0 COLOR_BREAK) c147_blocks [st_at 0 0 END]) c147_threads) = Ok (o, ths) /\
    requested_change ex_settings = COLOR_CHANGE /\ ths = map Own c147_threads /\
    List.length (sewn_with ths o) = 16%nat.
Proof.
  split.
  - constructor; [reflexivity|repeat constructor| |repeat constructor].
    repeat (constructor; [repeat (constructor; [split; [vm_compute; split; [discriminate|reflexivity]|reflexivity]|]); constructor|]). constructor.
  - eexists. eexists. split; [vm_compute; reflexivity|]. split; [reflexivity|]. split; [reflexivity|]. vm_compute. reflexivity.
Qed.
