(** C173: the design part of a PES file. *)
From Coq Require Import Ascii String ZArith QArith List Bool Lia Lqa.
From Verif Require Import PyBase EmbConst HelperModel BitLemmas HelperProofs ThreadModel ThreadProofs TextModel Utf8Model PatternModel PatternSpec
  PatternProofs PecFileSpec PecFileModel PecFileProofs PecGraphicsProofs PesModel PesProofs PropertiesPattern PropertiesThread PropertiesJefColors PropertiesPes SegSpec SegProofs.
Import ListNotations.
Open Scope Z_scope.

(** ** Threads instead of numbers *)
Lemma no_orders_tl s l : no_orders (s :: l) -> no_orders l.
Proof. intros H t T. apply H. right. exact T. Qed.
Lemma cc_cmd (s : stitch Q) : cmd_of (scmd (cc s)) = if cmd_of (scmd s) =? STOP then COLOR_CHANGE else cmd_of (scmd s).
Proof. unfold cc, conv. destruct (cmd_of (scmd s) =? STOP); reflexivity. Qed.
Lemma cc_at (s : stitch Q) : sx (cc s) = sx s /\ sy (cc s) = sy s.
Proof. unfold cc, conv. destruct (cmd_of (scmd s) =? STOP); split; reflexivity. Qed.
Lemma changes_plain (s : stitch Q) : cmd_of (scmd s) <> COLOR_BREAK -> cmd_of (scmd s) <> NEEDLE_SET ->
  changes (scmd s) = (cmd_of (scmd s) =? COLOR_CHANGE).
Proof.
  intros A B. unfold changes. destruct (Z.eqb_spec (cmd_of (scmd s)) COLOR_BREAK); [contradiction|].
  destruct (Z.eqb_spec (cmd_of (scmd s)) NEEDLE_SET); [contradiction|]. rewrite ?orb_false_r. reflexivity.
Qed.
Lemma enough_threads l ts : no_orders l -> threads_for l ts -> (thread_changes l < List.length ts)%nat.
Proof.
  intros N H. unfold threads_for in H. assert (E : thread_changes l = List.length (filter (fun s : stitch Q => cmd_of (scmd s) =? COLOR_CHANGE) l)); [|rewrite E; exact H].
  clear H. induction l as [|s l IH]; [reflexivity|]. rewrite thread_changes_cons, (IH (no_orders_tl _ _ N)). cbn [filter].
  destruct (N s (or_introl eq_refl)) as [A B]. rewrite (changes_plain s A B). destruct (cmd_of (scmd s) =? COLOR_CHANGE); reflexivity.
Qed.
Lemma listed_expand : forall l ts, no_orders l -> (thread_changes l < List.length ts)%nat -> expand ts l = listed ts l.
Proof.
  induction l as [|s l IH]; intros ts N H; cbn [expand listed]; [destruct ts; reflexivity|].
  destruct ts as [|t ts]; [cbn in H; lia|]. rewrite thread_changes_cons in H. destruct (N s (or_introl eq_refl)) as [A B].
  rewrite (changes_plain s A B) in *. pose proof (no_orders_tl _ _ N) as N'.
  destruct (cmd_of (scmd s) =? COLOR_CHANGE); cbn [List.length] in *.
  - rewrite IH by (try assumption; lia). reflexivity.
  - destruct (cmd_of (scmd s) =? STOP); rewrite IH by (try assumption; cbn [List.length]; lia); reflexivity.
Qed.
Lemma get_at (filler : Z -> thread) done t r : get_thread_or_filler filler (done ++ t :: r) (zlen done) = t.
Proof. unfold get_thread_or_filler, zlen. rewrite Nat2Z.id, nth_error_app2, Nat.sub_diag by lia. reflexivity. Qed.
Lemma expand_first : forall (l : list (stitch Q)) (t : thread) ts, (thread_changes l < List.length (t :: ts))%nat -> exists r, expand (t :: ts) l = t :: r.
Proof.
  induction l as [|s l IH]; intros t ts H; cbn [expand]; [eauto|]. rewrite thread_changes_cons in H.
  destruct (changes (scmd s)); [eauto|]. destruct (cmd_of (scmd s) =? STOP); [eauto|]. apply IH, H.
Qed.
Lemma painted_numbers filler all : forall l ts done i, no_orders l -> (thread_changes l < List.length ts)%nat ->
  all = done ++ expand ts l -> i = zlen done ->
  map (fun e => (get_thread_or_filler filler all (fst e), snd e)) (sewn i (map cc l)) = painted ts l.
Proof.
  induction l as [|s l IH]; intros ts done i N H Ea Ei; [reflexivity|]. cbn [map sewn painted].
  destruct ts as [|t ts]; [cbn in H; lia|]. rewrite thread_changes_cons in H. destruct (N s (or_introl eq_refl)) as [A B].
  cbn [expand] in Ea. rewrite (changes_plain s A B) in *. pose proof (no_orders_tl _ _ N) as N'. rewrite cc_cmd. destruct (cc_at s) as [-> ->].
  destruct (Z.eqb_spec (cmd_of (scmd s)) STOP) as [ES|NS].
  - rewrite ES in *. change (COLOR_CHANGE =? STITCH) with false. change (COLOR_CHANGE =? COLOR_CHANGE) with true.
    change (STOP =? STITCH) with false. change (STOP =? COLOR_CHANGE) with false in *. cbn match in *.
    apply (IH (t :: ts) (done ++ [t])); [assumption|lia|rewrite <- app_assoc; exact Ea|]. subst i. unfold zlen. rewrite app_length. cbn [List.length]. lia.
  - destruct (Z.eqb_spec (cmd_of (scmd s)) STITCH) as [E1|N1].
    + rewrite E1 in *. change (STITCH =? COLOR_CHANGE) with false in *. cbn match in *. cbn [map fst snd].
      rewrite (IH (t :: ts) done i N' ltac:(lia) Ea Ei). f_equal. f_equal. subst i.
      destruct (expand_first l t ts ltac:(lia)) as [r X]. rewrite Ea, X. apply get_at.
    + destruct (Z.eqb_spec (cmd_of (scmd s)) COLOR_CHANGE) as [E2|N2].
      * cbn [List.length] in H. apply (IH ts (done ++ [t])); [assumption|lia|rewrite <- app_assoc; exact Ea|]. subst i. unfold zlen. rewrite app_length. cbn [List.length]. lia.
      * apply (IH (t :: ts) done); [assumption|lia|exact Ea|exact Ei].
Qed.
Lemma jumps_cc l : jumps_on (map cc l) = jumps_on l.
Proof.
  destruct l as [|s l]; [reflexivity|]. cbn [map jumps_on]. rewrite cc_cmd. destruct (Z.eqb_spec (cmd_of (scmd s)) STOP) as [->|]; reflexivity.
Qed.
Lemma travelled_numbers filler all : forall l ts done i at_, no_orders l -> (thread_changes l < List.length ts)%nat ->
  all = done ++ expand ts l -> i = zlen done ->
  map (fun e => (get_thread_or_filler filler all (fst e), snd e)) (travels i at_ (map cc l)) = travelled ts at_ l.
Proof.
  induction l as [|s l IH]; intros ts done i at_ N H Ea Ei; [reflexivity|]. cbn [map travels travelled].
  destruct ts as [|t ts]; [cbn in H; lia|]. rewrite thread_changes_cons in H. destruct (N s (or_introl eq_refl)) as [A B].
  cbn [expand] in Ea. rewrite (changes_plain s A B) in *. pose proof (no_orders_tl _ _ N) as N'. rewrite cc_cmd, jumps_cc. destruct (cc_at s) as [-> ->].
  destruct (Z.eqb_spec (cmd_of (scmd s)) STOP) as [ES|NS].
  - rewrite ES in *. change (COLOR_CHANGE =? STITCH) with false. change (COLOR_CHANGE =? COLOR_CHANGE) with true. change (COLOR_CHANGE =? JUMP) with false.
    change (STOP =? STITCH) with false. change (STOP =? JUMP) with false. change (STOP =? COLOR_CHANGE) with false in *. cbn match in *.
    apply (IH (t :: ts) (done ++ [t])); [assumption|lia|rewrite <- app_assoc; exact Ea|]. subst i. unfold zlen. rewrite app_length. cbn [List.length]. lia.
  - destruct (Z.eqb_spec (cmd_of (scmd s)) JUMP) as [E0|N0].
    + rewrite E0 in *. change (JUMP =? COLOR_CHANGE) with false in *. cbn match in *.
      rewrite map_app, (IH (t :: ts) done i at_ N' ltac:(lia) Ea Ei). f_equal. destruct (jumps_on l); [reflexivity|]. cbn [map fst snd]. subst i.
      destruct (expand_first l t ts ltac:(lia)) as [r X]. rewrite Ea, X, get_at. reflexivity.
    + destruct (Z.eqb_spec (cmd_of (scmd s)) STITCH) as [E1|N1].
      * rewrite E1 in *. change (STITCH =? COLOR_CHANGE) with false in *. cbn match in *. apply (IH (t :: ts) done); [assumption|lia|exact Ea|exact Ei].
      * destruct (Z.eqb_spec (cmd_of (scmd s)) COLOR_CHANGE) as [E2|N2].
        { cbn [List.length] in H. apply (IH ts (done ++ [t])); [assumption|lia|rewrite <- app_assoc; exact Ea|]. subst i. unfold zlen. rewrite app_length. cbn [List.length]. lia. }
        { apply (IH (t :: ts) done); [assumption|lia|exact Ea|exact Ei]. }
Qed.
Lemma apart_single : forall l, switches_apart l -> single_changes (map cc l).
Proof.
  induction l as [|s l IH]; intros H; cbn [map single_changes]; [exact I|]. split.
  - intros E. destruct l as [|t l]; cbn [map]; [exact I|]. intros E'. apply (H [] s t l eq_refl).
    + rewrite cc_cmd in E. unfold switches. destruct (Z.eqb_spec (cmd_of (scmd s)) STOP); auto.
    + rewrite cc_cmd in E'. unfold switches. destruct (Z.eqb_spec (cmd_of (scmd t)) STOP); auto.
  - apply IH. intros a u v b E. apply (H (s :: a) u v b). rewrite E. reflexivity.
Qed.
Lemma painted_in : forall l ts t p, In (t, p) (painted ts l) -> In t ts.
Proof.
  induction l as [|s l IH]; intros ts t p H; cbn [painted] in H; [contradiction|]. destruct ts as [|u ts]; [contradiction|].
  destruct (cmd_of (scmd s) =? STITCH); [destruct H as [H|H]; [injection H as -> _; left; reflexivity|exact (IH _ _ _ H)]|].
  destruct (cmd_of (scmd s) =? COLOR_CHANGE); [right|]; exact (IH _ _ _ H).
Qed.
Lemma travelled_in : forall l ts at_ t p, In (t, p) (travelled ts at_ l) -> In t ts.
Proof.
  induction l as [|s l IH]; intros ts at_ t p H; cbn [travelled] in H; [contradiction|]. destruct ts as [|u ts]; [contradiction|].
  destruct (cmd_of (scmd s) =? JUMP).
  { apply in_app_or in H. destruct H as [H|H]; [|exact (IH _ _ _ _ H)]. destruct (jumps_on l); [contradiction|]. destruct H as [H|[]]. injection H as -> _. left; reflexivity. }
  destruct (cmd_of (scmd s) =? STITCH); [exact (IH _ _ _ _ H)|].
  destruct (cmd_of (scmd s) =? COLOR_CHANGE); [right|]; exact (IH _ _ _ _ H).
Qed.
Lemma listed_in : forall l ts t, In t ts -> In t (listed ts l).
Proof.
  induction l as [|s l IH]; intros ts t H; cbn [listed]; [destruct ts; exact H|]. destruct ts as [|u ts]; [contradiction|].
  destruct (cmd_of (scmd s) =? COLOR_CHANGE); [destruct H as [H|H]; [left; exact H|right; apply IH, H]|].
  destruct (cmd_of (scmd s) =? STOP); [right|]; apply IH, H.
Qed.

(** ** Numbers within 16 bits *)
Lemma cut_trunc v : cut v = q_trunc v. Proof. reflexivity. Qed.
Lemma trunc_same a b : (a == b)%Q -> q_trunc a = q_trunc b.
Proof.
  destruct a as [n d], b as [m e]. unfold Qeq, q_trunc. cbn [Qnum Qden]. intros H.
  rewrite <- (Z.quot_mul_cancel_r n (Zpos d) (Zpos e)), <- (Z.quot_mul_cancel_r m (Zpos e) (Zpos d)) by lia. rewrite H. f_equal. lia.
Qed.
Lemma trunc_range v : (- (32768) < v < 32768)%Q -> -32768 <= q_trunc v < 32768.
Proof.
  destruct v as [n d]. unfold Qlt, q_trunc. cbn [Qnum Qden Qopp inject_Z]. intros [A B]. rewrite Z.mul_1_r in A, B.
  destruct (Z.le_gt_cases 0 n) as [P|P].
  - pose proof (Z.quot_pos n (Zpos d) P ltac:(lia)). pose proof (Z.quot_lt_upper_bound n (Zpos d) 32768 P ltac:(lia) ltac:(lia)). lia.
  - rewrite <- (Z.opp_involutive n), Z.quot_opp_l by lia.
    pose proof (Z.quot_pos (- n) (Zpos d) ltac:(lia) ltac:(lia)). pose proof (Z.quot_lt_upper_bound (- n) (Zpos d) 32768 ltac:(lia) ltac:(lia) ltac:(lia)). lia.
Qed.
Section Bounds.
Variables (get : Z -> thread) (chart : list (option thread)) (ax ay : Q) (P : Q * Q -> Prop) (most : nat).
Hypothesis near_low : forall c i, find_nearest_color_index c chart = Some i -> (i < most)%nat.
Definition fits (n : Z) (s : segment) : Prop :=
  (snd s = 0 \/ snd s = 1) /\ zlen (fst (fst s)) <= Z.max 2 n /\
  Forall (fun p => exists q, P q /\ p = ((fst q - ax)%Q, (snd q - ay)%Q)) (fst (fst s)) /\
  (forall c, snd (fst s) = Some c -> (c < most)%nat).
Lemma fits_more n m s : fits n s -> n <= m -> fits m s.
Proof. intros (A & B & C & D) L. split; [exact A|]. split; [lia|]. split; [exact C|exact D]. Qed.
Lemma segments_fit : forall bs idx code at_, P at_ -> (forall c, code = Some c -> (c < most)%nat) ->
  Forall (Forall (fun s => P (sx s, sy s))) bs ->
  Forall (fits (zlen (concat bs))) (segments_blocks get chart ax ay idx code at_ bs) /\
  zlen (segments_blocks get chart ax ay idx code at_ bs) <= zlen (concat bs).
Proof.
  assert (Zc : forall A (x : A) r, zlen (x :: r) = 1 + zlen r) by (intros; unfold zlen; cbn [List.length]; lia).
  assert (Zn : forall A (r : list A), 0 <= zlen r) by (intros; unfold zlen; lia).
  assert (Zm : forall A B (f : A -> B) r, zlen (map f r) = zlen r) by (intros; unfold zlen; rewrite map_length; reflexivity).
  induction bs as [|b bs IH]; intros idx code at_ Pa C F; cbn [segments_blocks concat]; [split; [constructor|unfold zlen; cbn; lia]|].
  inversion_clear F as [|? ? F1 F2]. destruct b as [|s b]; [cbn [app]; apply IH; assumption|].
  assert (Za : zlen ((s :: b) ++ concat bs) = zlen (s :: b) + zlen (concat bs)) by (unfold zlen; rewrite app_length; lia).
  rewrite Za. pose proof (Zc _ s b) as Zs. pose proof (Zn _ b) as Zb.
  assert (M : forall l, Forall (fits (zlen (concat bs))) l /\ zlen l <= zlen (concat bs) ->
     Forall (fits (zlen (s :: b) + zlen (concat bs))) l /\ zlen l <= zlen (s :: b) + zlen (concat bs)).
  { intros l [G1 G2]. split; [|lia]. eapply Forall_impl; [|exact G1]. intros g G. apply (fits_more _ _ _ G). lia. }
  assert (La : P (sx (last (s :: b) s), sy (last (s :: b) s))).
  { assert (I : In (last (s :: b) s) (s :: b)) by (destruct (@exists_last _ (s :: b) ltac:(discriminate)) as (q & z & ->); rewrite last_last; apply in_or_app; right; left; reflexivity).
    rewrite Forall_forall in F1. exact (F1 _ I). }
  destruct (cmd_of (scmd s) =? JUMP); [|destruct (cmd_of (scmd s) =? COLOR_CHANGE); [|destruct (cmd_of (scmd s) =? STITCH)]].
  - pose proof (IH idx code at_ Pa C F2) as I. destruct I as [I1 I2].
    match goal with |- Forall _ (?h :: ?t) /\ _ => change (h :: t) with (@cons segment h t) end. rewrite (Zc segment). split; [|apply Z.le_trans with (1 + zlen (concat bs)); [apply Z.add_le_mono_l; exact I2|lia]].
    constructor.
    + split; [right; reflexivity|]. cbn [fst snd]. split; [unfold zlen; cbn [List.length]; lia|]. split; [|exact C].
      constructor; [exists at_; split; [exact Pa|reflexivity]|]. constructor; [|constructor]. exists (sx (last (s :: b) s), sy (last (s :: b) s)). split; [exact La|reflexivity].
    + eapply Forall_impl; [|exact I1]. intros g G. apply (fits_more _ _ _ G). lia.
  - apply M, IH; [exact Pa| |exact F2]. intros c. apply near_low.
  - pose proof (IH idx code (sx (last (s :: b) s), sy (last (s :: b) s)) La C F2) as I. destruct I as [I1 I2].
    match goal with |- Forall _ (?h :: ?t) /\ _ => change (h :: t) with (@cons segment h t) end. rewrite (Zc segment). split; [|apply Z.le_trans with (1 + zlen (concat bs)); [apply Z.add_le_mono_l; exact I2|lia]].
    constructor.
    + split; [left; reflexivity|]. cbn [fst snd]. split; [pose proof (Zn _ (concat bs)); rewrite Zm; lia|]. split; [|exact C].
      apply Forall_map. eapply Forall_impl; [|exact F1]. intros u U. exists (sx u, sy u). split; [exact U|reflexivity].
    + eapply Forall_impl; [|exact I1]. intros g G. apply (fits_more _ _ _ G). lia.
  - apply M, IH; assumption.
Qed.
End Bounds.

(** ** The part in the file *)
Lemma blocks_layout f32 get chart x0 y0 x1 y1 l blocks log : (forall v, zlen (f32 v) = 4) ->
  write_pes_blocks f32 get chart (x0, y0, x1, y1) l = Ok (blocks, log) ->
  exists a segs sections, zlen a = 67 /\
    write_pes_embsewseg_segments get chart (x0 - (x1 + x0) / 2 + (x1 + x0) / 2)%Q (y1 - (y1 + y0) / 2 + (y1 + y0) / 2)%Q l = Ok (segs, sections, log) /\
    blocks = a ++ write_int_16le sections ++ sewseg_marker ++ segs ++ [0; 0; 0; 0].
Proof.
  intros F W. unfold write_pes_blocks in W. cbv zeta in W.
  destruct (write_pes_embsewseg_segments get chart (x0 - (x1 + x0) / 2 + (x1 + x0) / 2)%Q (y1 - (y1 + y0) / 2 + (y1 + y0) / 2)%Q l) as [[[segs sections] lg]|] eqn:E; cbn [bindr] in W; [|discriminate].
  injection W as Wb Wl. subst lg.
  set (hd := repeat 0 16 ++ f32 1%Q ++ f32 0%Q ++ f32 0%Q ++ f32 1%Q
  ++ f32 (350 + 1300 / 2 + - (x1 - (x1 + x0) / 2 - (x0 - (x1 + x0) / 2)) / 2)%Q
  ++ f32 (100 + (y1 - (y1 + y0) / 2 - (y0 - (y1 + y0) / 2)) + 1800 / 2 + - (y1 - (y1 + y0) / 2 - (y0 - (y1 + y0) / 2)) / 2)%Q
  ++ write_int_16le 1 ++ write_int_16le 0 ++ write_int_16le 0
  ++ write_int_16le (q_trunc (x1 - (x1 + x0) / 2 - (x0 - (x1 + x0) / 2))) ++ write_int_16le (q_trunc (y1 - (y1 + y0) / 2 - (y0 - (y1 + y0) / 2))) ++ repeat 0 8).
  exists (write_pes_string_16 (text_of "CEmbOne") ++ hd), segs, sections. split; [|split; [reflexivity|]].
  - assert (Lw : forall v, zlen (write_int_16le v) = 2) by reflexivity.
    assert (Z2 : forall a b : list Z, zlen (a ++ b) = zlen a + zlen b) by (intros; unfold zlen; rewrite app_length; lia). unfold hd. rewrite !Z2, !F, !Lw. reflexivity.
  - assert (Eb : blocks = write_pes_string_16 (text_of "CEmbOne")
      ++ write_pes_sewsegheader f32 (x1 - (x1 + x0) / 2 - (x0 - (x1 + x0) / 2)) (y1 - (y1 + y0) / 2 - (y0 - (y1 + y0) / 2)) sections
      ++ write_int_16le 0xFFFF ++ write_int_16le 0
      ++ write_pes_string_16 (text_of "CSewSeg") ++ segs ++ write_int_16le 0 ++ write_int_16le 0) by (rewrite <- Wb; reflexivity).
    rewrite Eb. unfold write_pes_sewsegheader, hd. rewrite <- !app_assoc. reflexivity.
Qed.
(** The palette a section's colour number refers to: the PEC palette in version 1, the threads of the file in version 6. *)
Definition palette (version : Z) (l : list (stitch Q)) (threads : list thread) : list (option thread) :=
  if version =? 10 then pec_threads else map Some (listed threads l).

Lemma file_layout f32 filler order version md l threads file : (forall v, zlen (f32 v) = 4) ->
  version = 10 \/ version = 60 -> l <> [] -> no_orders l -> (thread_changes l < List.length threads)%nat ->
  pes_write f32 filler order version false md l threads = Ok file ->
  exists x0 y0 x1 y1 before segs sections log rest, box_of (map cc l) = Some (x0, y0, x1, y1) /\
    write_pes_embsewseg_segments (get_thread_or_filler filler (expand threads l)) (palette version l threads)
      (x0 - (x1 + x0) / 2 + (x1 + x0) / 2)%Q (y1 - (y1 + y0) / 2 + (y1 + y0) / 2)%Q (map cc l) = Ok (segs, sections, log) /\
    file = before ++ write_int_16le sections ++ sewseg_marker ++ segs ++ rest /\ (version = 10 -> zlen before = 89).
Proof.
  intros F V L N E W. unfold pes_write in W. rewrite prepare_of in W by exact E.
  destruct (box_some (map cc l)) as [[[[x0 y0] x1] y1] Eb]; [destruct l; [contradiction|discriminate]|].
  assert (Z2 : forall a b : list Z, zlen (a ++ b) = zlen a + zlen b) by (intros; unfold zlen; rewrite app_length; lia).
  destruct V as [-> | ->].
  - change (10 =? 10) with true in W. cbn match in W. unfold write_version_1 in W. rewrite Eb in W. unfold palette. change (10 =? 10) with true. cbn match.
    destruct (write_pes_blocks f32 (get_thread_or_filler filler (expand threads l)) pec_threads (x0, y0, x1, y1) (map cc l)) as [[blocks lg]|] eqn:B; cbn [bindr] in W; [|discriminate].
    destruct (write_pec filler order (md (text_of "name")) (map cc l) (expand threads l)) as [[[pec ?] ?]|]; cbn [bindr] in W; [|discriminate].
    destruct (blocks_layout f32 _ _ _ _ _ _ _ _ _ F B) as (a & segs & sections & La & Ws & Eq).
    assert (Wf : file = pes_start "#PES0001" (write_pes_header_v1 1 ++ write_int_16le 0xFFFF ++ write_int_16le 0 ++ blocks) ++ pec) by congruence.
    exists x0, y0, x1, y1, (text_of "#PES0001" ++ write_int_32le (12 + zlen (write_pes_header_v1 1 ++ write_int_16le 0xFFFF ++ write_int_16le 0 ++ blocks)) ++ write_pes_header_v1 1 ++ write_int_16le 0xFFFF ++ write_int_16le 0 ++ a), segs, sections, lg, ([0; 0; 0; 0] ++ pec).
    split; [exact Eb|]. split; [exact Ws|]. split.
    + rewrite Wf. unfold pes_start. rewrite Eq at 2. rewrite <- !app_assoc. reflexivity.
    + intros _. rewrite !Z2, La. reflexivity.
  - change (60 =? 10) with false in W. change (60 =? 60) with true in W. cbn match in W. unfold write_version_6 in W. rewrite Eb in W. unfold palette. change (60 =? 10) with false. cbn match.
    assert (F6 : fix_color_count filler (map cc l) (expand threads l) = expand threads l).
    { apply fix_enough. rewrite changes_cc, (expand_length l threads E). lia. }
    rewrite F6 in W. rewrite <- (listed_expand l threads N E).
    destruct (write_pes_header_v6 f32 md (expand threads l) 1) as [header|]; cbn [bindr] in W; [|discriminate].
    destruct (write_pes_blocks f32 (get_thread_or_filler filler (expand threads l)) (map Some (expand threads l)) (x0, y0, x1, y1) (map cc l)) as [[blocks lg]|] eqn:B; cbn [bindr] in W; [|discriminate].
    destruct (write_pec filler order (md (text_of "name")) (map cc l) (expand threads l)) as [[[pec il] th]|]; cbn [bindr] in W; [|discriminate].
    destruct (blocks_layout f32 _ _ _ _ _ _ _ _ _ F B) as (a & segs & sections & La & Ws & Eq).
    match type of W with Ok (pes_start _ ?m ++ ?r) = _ => assert (Wf : file = pes_start "#PES0060" m ++ r) by congruence; set (mid := m) in Wf; set (tail := r) in Wf end.
    exists x0, y0, x1, y1, (text_of "#PES0060" ++ write_int_32le (12 + zlen mid) ++ header ++ write_int_16le 0xFFFF ++ write_int_16le 0 ++ a), segs, sections, lg,
      ([0; 0; 0; 0] ++ write_int_32le 0 ++ write_int_32le 0 ++ v6_tree 0 lg ++ tail).
    split; [exact Eb|]. split; [exact Ws|]. split; [|discriminate].
    rewrite Wf. unfold pes_start. unfold mid at 2. rewrite Eq. rewrite <- !app_assoc. reflexivity.
Qed.

(** A colour number with a point shows a stitch: the thread of the palette with that number is one nearest to the
    stitch's, and the point is the place measured from the corner. *)
Definition numbered (pal : list (option thread)) (c : Z) (t : thread) : Prop :=
  exists u, nth_error pal (Z.to_nat c) = Some (Some u) /\ closest pal t u.
Definition design_shown (pal : list (option thread)) (e : Q * Q) (l : list (stitch Q)) (threads : list thread)
    (sections : list section) : Prop :=
  Forall2 (fun d s => numbered pal (fst d) (fst s) /\ snd d = from_corner e (snd s)) (drawn sections) (painted threads l) /\
  Forall2 (fun d s => numbered pal (fst d) (fst s) /\ snd d = [from_corner e (fst (snd s)); from_corner e (snd (snd s))])
    (jumped sections) (travelled threads (0%Q, 0%Q) l).

Lemma drawn_of segs : drawn (map sec_of segs) = map (fun d => (code_of (fst d), cutp (snd d))) (seg_sewn segs).
Proof.
  unfold drawn, seg_sewn. induction segs as [|[[points code] flag] segs IH]; [reflexivity|]. cbn [map filter sec_of sec_flag flag_is snd].
  unfold flag_is at 1. cbn [snd]. destruct (flag =? 0); [|exact IH]. cbn [flat_map sec_colour sec_points fst snd]. rewrite map_app, IH, !map_map. reflexivity.
Qed.
Lemma jumped_of segs : jumped (map sec_of segs) = map (fun d => (code_of (fst d), map cutp (snd d))) (seg_travels segs).
Proof.
  unfold jumped, seg_travels. induction segs as [|[[points code] flag] segs IH]; [reflexivity|]. cbn [map filter sec_of sec_flag flag_is snd].
  unfold flag_is at 1. cbn [snd]. destruct (flag =? 1); [|exact IH]. cbn [map sec_colour sec_points fst snd]. rewrite IH. reflexivity.
Qed.
Lemma Forall2_maps {A B C} (f : A -> B) (g : A -> C) (R : B -> C -> Prop) l : (forall x, In x l -> R (f x) (g x)) -> Forall2 R (map f l) (map g l).
Proof. induction l as [|x l IH]; intros H; cbn [map]; constructor; [apply H; left; reflexivity|apply IH; intros; apply H; right; assumption]. Qed.
Theorem C173_design : forall f32 filler order version md l threads file, (forall v, zlen (f32 v) = 4) ->
  version = 10 \/ version = 60 -> l <> [] -> no_orders l -> threads_for l threads -> switches_apart l -> close_by l ->
  zlen threads + zlen l < 65536 ->
  pes_write f32 filler order version false md l threads = Ok file ->
  exists e before count n bytes sections log rest,
    corner l e /\ file = before ++ count ++ sewseg_marker ++ bytes /\ (version = 10 -> zlen before = 89) /\
    word2 count = Some (n, []) /\ read_design n bytes = Some (sections, log, rest) /\
    design_shown (palette version l threads) e l threads sections /\
    Forall (fun s => (sec_flag s = 0 \/ sec_flag s = 1) /\ sec_points s <> []) sections /\
    (forall k s, nth_error sections k = Some s -> colour_at log (Z.of_nat k) = Some (sec_colour s)).
Proof.
  intros f32 filler order version md l threads file F V L N T A C ZL W. pose proof (enough_threads l threads N T) as En.
  destruct (file_layout f32 filler order version md l threads file F V L N En W) as (x0 & y0 & x1 & y1 & before & bytes & sections & log & rest & Eb & Ws & Ef & Eo).
  set (ax := (x0 - (x1 + x0) / 2 + (x1 + x0) / 2)%Q) in *. set (ay := (y1 - (y1 + y0) / 2 + (y1 + y0) / 2)%Q) in *.
  set (get := get_thread_or_filler filler (expand threads l)) in *. set (pal := palette version l threads) in *.
  assert (EX : (ax == x0)%Q) by (unfold ax; Lqa.lra). assert (EY : (ay == y1)%Q) by (unfold ay; Lqa.lra).
  assert (Sx : map sx (map cc l) = map sx l) by (rewrite map_map; apply map_ext; intros s; apply cc_at).
  assert (Sy : map sy (map cc l) = map sy l) by (rewrite map_map; apply map_ext; intros s; apply cc_at).
  assert (Co : corner l (x0, y1)).
  { unfold box_of in Eb. pose proof (bounds_covers (map cc l)) as H. destruct (bounds (map cc l)) as [[[a0 b0] a1] b1]. unfold covers in H.
    destruct a0 as [a0|], b0 as [b0|], a1 as [a1|], b1 as [b1|]; try discriminate. injection Eb as -> -> -> ->.
    destruct H as (H & (s1 & I1 & H1) & _ & _ & (s2 & I2 & H2)). unfold corner. cbn [fst snd]. split; [|split].
    - rewrite <- Sx, <- H1. apply in_map, I1.
    - rewrite <- Sy, <- H2. apply in_map, I2.
    - intros s I. rewrite Forall_forall in H. specialize (H (cc s) (in_map cc _ _ I)). destruct (cc_at s) as [Hx Hy]. rewrite Hx, Hy in H. tauto. }
  (* every nearest colour exists, within the palette *)
  assert (Len : (List.length pal <= Nat.max 65 (List.length threads + List.length l))%nat /\ (forall c, find_nearest_color_index c pal <> None)).
  { destruct V as [-> | ->].
    - unfold pal, palette. change (10 =? 10) with true. cbn match. split.
      + change (List.length pec_threads) with 65%nat. lia.
      + intros c. destruct (usable_some pec_threads c usable_pec) as [i ->]. discriminate.
    - unfold pal, palette. change (60 =? 10) with false. cbn match. rewrite <- (listed_expand l threads N En). split.
      + rewrite map_length, (expand_length l threads En). assert (stops l <= List.length l)%nat; [|lia].
        clear. induction l as [|s l IH]; [cbn; lia|]. rewrite stops_cons. cbn [List.length]. destruct (cmd_of (scmd s) =? STOP); lia.
      + intros c H. apply nearest_none in H. assert (Lx := expand_length l threads En).
        destruct (expand threads l) as [|u r]; [cbn in Lx; lia|]. cbn [map] in H. inversion H. discriminate. }
  destruct Len as [Len Some'].
  assert (Num : forall t, numbered pal (code_of (find_nearest_color_index (t_color t) pal)) t).
  { intros t. destruct (find_nearest_color_index (t_color t) pal) as [i|] eqn:Ei; [|elim (Some' _ Ei)]. cbn [code_of].
    destruct (nearest_closest t pal i Ei) as (u & U & K). exists u. rewrite Nat2Z.id. split; [exact U|exact K]. }
  assert (Low : forall c i, find_nearest_color_index c pal = Some i -> (i < Nat.max 65 (List.length threads + List.length l))%nat).
  { intros c i H. destruct (nearest_some _ _ _ H) as (u & U & _). assert (i < List.length pal)%nat; [|lia]. apply nth_error_Some. rewrite U. discriminate. }
  (* 16 bits *)
  assert (Ce : In x0 (map sx l) /\ In y1 (map sy l)) by (destruct Co as (? & ? & _); split; assumption).
  assert (In16 : forall q, In q (places l) -> pair16 (cutp ((fst q - ax)%Q, (snd q - ay)%Q))).
  { intros q Iq. destruct Ce as [C1 C2]. apply in_map_iff in C1. destruct C1 as (s1 & E1 & I1). apply in_map_iff in C2. destruct C2 as (s2 & E2 & I2).
    destruct (C q (sx s1, sy s1) Iq (or_intror (in_map _ _ _ I1))) as [D1 _]. destruct (C q (sx s2, sy s2) Iq (or_intror (in_map _ _ _ I2))) as [_ D2].
    cbn [fst snd] in D1, D2. unfold pair16, cutp. cbn [fst snd]. split; apply trunc_range; [rewrite EX, <- E1; exact D1|rewrite EY, <- E2; exact D2]. }
  pose proof (segments_fit get pal ax ay (fun q => In q (places l)) _ Low (get_as_command_blocks (map cc l)) 1
    (find_nearest_color_index (t_color (get 0)) pal) (0%Q, 0%Q) (or_introl eq_refl) (Low _)) as Fit.
  assert (Cc : concat (get_as_command_blocks (map cc l)) = map cc l) by (apply command_cut_concat, command_blocks_spec).
  assert (Zc : zlen (map cc l) = zlen l) by (unfold zlen; rewrite map_length; reflexivity). rewrite Cc, Zc in Fit.
  destruct Fit as [Fit FitL].
  { apply Forall_forall. intros b Ib. apply Forall_forall. intros s Is. assert (J : In s (map cc l)). { rewrite <- Cc. apply in_concat. exists b. split; assumption. }
    apply in_map_iff in J. destruct J as (u & <- & Iu). destruct (cc_at u) as [-> ->]. right. apply (in_map (fun s => (sx s, sy s))), Iu. }
  fold (get_as_segments_blocks get pal ax ay (map cc l)) in Fit, FitL.
  assert (ZT : 0 <= zlen threads) by (unfold zlen; lia). assert (ZX : Z.of_nat (List.length threads) + Z.of_nat (List.length l) < 65536) by exact ZL.
  assert (Ok16 : Forall seg_ok (get_as_segments_blocks get pal ax ay (map cc l))).
  { eapply Forall_impl; [|exact Fit]. intros [[points code] flag] (G1 & G2 & G3 & G4). cbn [fst snd] in *. unfold seg_ok. split; [lia|]. split; [lia|]. split.
    - eapply Forall_impl; [|exact G3]. intros p (q & Q1 & ->). apply In16, Q1.
    - destruct code as [c|]; [|exact I]. specialize (G4 c eq_refl). lia. }
  assert (ZS : zlen (get_as_segments_blocks get pal ax ay (map cc l)) < 65536) by lia.
  destruct (design_read get pal ax ay (map cc l) bytes sections log rest Ws Ok16 ZS) as (Dn & Dr & Dc & Ds).
  pose proof (segments_content get pal ax ay (map cc l) (apart_single l A)) as (S1 & S2 & S3).
  exists (x0, y1), before, (write_int_16le sections), sections, (bytes ++ rest), (map sec_of (get_as_segments_blocks get pal ax ay (map cc l))), log, rest.
  split; [exact Co|]. split; [exact Ef|]. split; [exact Eo|]. split; [|split; [exact Dr|split; [|split; [|exact Dc]]]].
  - rewrite <- (app_nil_r (write_int_16le sections)), word_w, Z.mod_small; [reflexivity|]. rewrite Dn. split; [unfold zlen; lia|exact ZS].
  - assert (Cut : forall q, cutp (rel ax ay q) = from_corner (x0, y1) q).
    { intros q. unfold cutp, rel, from_corner. cbn [fst snd]. f_equal; apply trunc_same; [rewrite EX|rewrite EY]; reflexivity. }
    unfold design_shown. rewrite drawn_of, jumped_of, S1, S2. unfold shown_sewn, shown_travels. rewrite !map_map. split.
    + rewrite <- (painted_numbers filler (expand threads l) l threads [] 0 N En eq_refl eq_refl). apply Forall2_maps. intros [i q] _. cbn [fst snd].
      split; [unfold near; fold get; apply Num|]. apply Cut.
    + rewrite <- (travelled_numbers filler (expand threads l) l threads [] 0 (0%Q, 0%Q) N En eq_refl eq_refl). apply Forall2_maps. intros [i [q q']] _. cbn [fst snd map].
      split; [unfold near; fold get; apply Num|]. rewrite !Cut. reflexivity.
  - apply Forall_map. eapply Forall_impl; [|exact S3]. intros [[points code] flag] [G1 G2]. cbn [fst snd] in *. cbn [sec_of sec_flag sec_points]. split; [exact G1|].
    destruct points; [contradiction|discriminate].
Qed.

(** In version 6 the number names a thread of exactly the stitch's colour. *)
Theorem C173_version_6_exact : forall l threads, (forall t q, In (t, q) (painted threads l) -> forall c, numbered (palette 60 l threads) c t ->
    exists u, nth_error (listed threads l) (Z.to_nat c) = Some u /\ rgb (t_color u) = rgb (t_color t)) /\
  (forall t q, In (t, q) (travelled threads (0%Q, 0%Q) l) -> forall c, numbered (palette 60 l threads) c t ->
    exists u, nth_error (listed threads l) (Z.to_nat c) = Some u /\ rgb (t_color u) = rgb (t_color t)).
Proof.
  intros l threads. assert (G : forall t, In t threads -> forall c, numbered (palette 60 l threads) c t ->
    exists u, nth_error (listed threads l) (Z.to_nat c) = Some u /\ rgb (t_color u) = rgb (t_color t)).
  { intros t I c (u & U & Cl & M). unfold palette in *. change (60 =? 10) with false in *. cbn match in *. rewrite nth_error_map in U.
    destruct (nth_error (listed threads l) (Z.to_nat c)) as [v|]; [|discriminate]. injection U as ->. exists u. split; [reflexivity|].
    specialize (M t (in_map Some _ _ (listed_in l threads t I))).
    pose proof (proj1 (proj2 (proj2 (C41_nearest_minimum 0 [])))) as D. pose proof (D (t_color t) (t_color t)) as [_ [_ D1]]. specialize (D1 eq_refl).
    pose proof (D (t_color t) (t_color u)) as [D2 [D3 _]]. symmetry. apply D3. lia. }
  split; intros t q I; apply G; [exact (painted_in _ _ _ _ I)|exact (travelled_in _ _ _ _ _ I)].
Qed.

(** A colour change right after a stop, or after another colour change, is lost in this part: what follows is shown in
    the colour of the thread before it. *)
Definition red_green : list thread := [plain_thread 0xFFFF0000; plain_thread 0xFF00FF00].
Definition stop_change : list (stitch Q) :=
  [mkS 0%Q 0%Q STITCH; mkS 100%Q 0%Q STITCH; mkS 100%Q 0%Q STOP; mkS 100%Q 0%Q COLOR_CHANGE; mkS 100%Q 0%Q STITCH; mkS 200%Q 50%Q STITCH; mkS 200%Q 50%Q END].
Lemma close_small (l : list (stitch Q)) : Forall (fun s => (0 <= sx s <= 1000)%Q /\ (0 <= sy s <= 1000)%Q) l -> close_by l.
Proof.
  intros F. assert (G : forall p, In p (places l) -> (0 <= fst p <= 1000)%Q /\ (0 <= snd p <= 1000)%Q).
  { intros p [<-|I]; [cbn; split; split; discriminate|]. apply in_map_iff in I. destruct I as (s & <- & I). rewrite Forall_forall in F. exact (F s I). }
  intros p q Ip Iq. destruct (G p Ip) as [[A1 A2] [A3 A4]], (G q Iq) as [[B1 B2] [B3 B4]]. split; split; Lqa.lra.
Qed.
Theorem C173_refuted : exists l threads file n sections log rest,
  l <> [] /\ no_orders l /\ threads_for l threads /\ close_by l /\ zlen threads + zlen l < 65536 /\
  pes_write (fun _ => [0; 0; 0; 0]) plain_thread (first_seen []) 10 false (fun _ => None) l threads = Ok file /\
  word2 (firstn 2 (skipn 89 file)) = Some (n, []) /\ read_design n (skipn 104 file) = Some (sections, log, rest) /\
  forall e, ~ design_shown (palette 10 l threads) e l threads sections.
Proof.
  exists stop_change, red_green. do 5 eexists. split; [discriminate|]. split; [|split; [|split; [|split; [|split; [|split; [|split]]]]]].
  - intros s I. repeat (destruct I as [<-|I]; [split; discriminate|]). contradiction.
  - unfold threads_for. cbn. lia.
  - apply close_small. repeat (apply Forall_cons; [cbn; split; split; discriminate|]). apply Forall_nil.
  - reflexivity.
  - vm_compute. reflexivity.
  - vm_compute. reflexivity.
  - vm_compute. reflexivity.
  - intros e [H _]. cbn [drawn flat_map filter map app sec_flag sec_colour sec_points] in H.
    change (painted red_green stop_change) with [(plain_thread 0xFFFF0000, (0%Q, 0%Q)); (plain_thread 0xFFFF0000, (100%Q, 0%Q)); (plain_thread 0xFF00FF00, (100%Q, 0%Q)); (plain_thread 0xFF00FF00, (200%Q, 50%Q))] in H.
    inversion_clear H as [|? ? ? ? _ H1]. inversion_clear H1 as [|? ? ? ? _ H2]. inversion_clear H2 as [|? ? ? ? H3 _]. destruct H3 as [(u & U & K) _].
    cbn [fst] in U. vm_compute in U. injection U as <-. destruct K as [_ K]. cbn [fst] in K.
    specialize (K _ (nth_error_In pec_threads 14 eq_refl)). vm_compute in K. apply K. reflexivity.
Qed.

(** A pattern with jumps, a stop and a colour change meets the conditions, and is written. *)
Definition design_sample : list (stitch Q) :=
  [mkS 20%Q 30%Q JUMP; mkS 20%Q 30%Q STITCH; mkS 100%Q 0%Q STITCH; mkS 100%Q 0%Q STOP; mkS 110%Q 7%Q STITCH; mkS 110%Q 7%Q COLOR_CHANGE;
   mkS 150%Q 7%Q JUMP; mkS 180%Q 7%Q JUMP; mkS 180%Q 7%Q STITCH; mkS 200%Q (101 # 2)%Q STITCH; mkS 200%Q (101 # 2)%Q END].
Lemma design_sample_ok : design_sample <> [] /\ no_orders design_sample /\ threads_for design_sample red_green /\ switches_apart design_sample /\
  close_by design_sample /\ zlen red_green + zlen design_sample < 65536.
Proof.
  split; [discriminate|]. split; [|split; [|split; [|split]]].
  - intros s I. repeat (destruct I as [<-|I]; [split; discriminate|]). contradiction.
  - unfold threads_for. cbn. lia.
  - intros a s t b E. unfold design_sample in E.
    repeat (destruct a as [|? a]; cbn [app] in E; [try discriminate E; injection E as <- <- _; unfold switches; cbn; intros [H|H] [K|K]; discriminate|
      try discriminate E; injection E as _ E; try (destruct a; discriminate E)]).
  - apply close_small. repeat (apply Forall_cons; [cbn; split; split; discriminate|]). apply Forall_nil.
  - reflexivity.
Qed.
Example C173_case : exists file n sections log rest,
  pes_write (fun _ => [0; 0; 0; 0]) plain_thread (first_seen []) 10 false (fun _ => None) design_sample red_green = Ok file /\
  word2 (firstn 2 (skipn 89 file)) = Some (n, []) /\ read_design n (skipn 104 file) = Some (sections, log, rest) /\
  sections = [mkSec 1 5 [(-20, -50); (0, -20)]; mkSec 0 5 [(0, -20); (80, -50)]; mkSec 0 5 [(90, -43)];
              mkSec 1 14 [(90, -43); (160, -43)]; mkSec 0 14 [(160, -43); (180, 0)]].
Proof. do 5 eexists. split; [vm_compute; reflexivity|]. split; [vm_compute; reflexivity|]. split; [vm_compute; reflexivity|]. reflexivity. Qed.
Print Assumptions C173_design.
Print Assumptions C173_version_6_exact.
Print Assumptions C173_refuted.
