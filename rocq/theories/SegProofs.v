From Coq Require Import ZArith QArith List Bool Lia.
From Verif Require Import PyBase EmbConst HelperModel BitLemmas HelperProofs ThreadModel PatternModel PatternSpec PatternProofs PecFileModel PesModel SegSpec.
Import ListNotations.
Open Scope Z_scope.

Lemma word_w v r : word2 (write_int_16le v ++ r) = Some (v mod 65536, r).
Proof.
  unfold write_int_16le, word2. cbn [app]. f_equal. f_equal. unfold sh8. rewrite Z.shiftr_0_r, !land_ff, Z.shiftr_div_pow2 by lia.
  change (2 ^ 8) with 256. lia.
Qed.
Lemma plus_minus_w v : -32768 <= v < 32768 -> plus_minus (v mod 65536) = v.
Proof. intros H. unfold plus_minus. destruct (Z.ltb_spec (v mod 65536) 32768); lia. Qed.
Definition pair16 (p : Z * Z) : Prop := -32768 <= fst p < 32768 /\ -32768 <= snd p < 32768.
Definition cutp (p : Q * Q) : Z * Z := (q_trunc (fst p), q_trunc (snd p)).
Lemma points_read : forall l r, Forall (fun p => pair16 (cutp p)) l ->
  read_points (List.length l) (flat_map (fun p => write_int_16le (q_trunc (fst p)) ++ write_int_16le (q_trunc (snd p))) l ++ r) = Some (map cutp l, r).
Proof.
  induction l as [|p l IH]; intros r H; cbn [List.length flat_map read_points map app]; [reflexivity|].
  inversion_clear H as [|? ? [H1 H2] H3]. cbn [cutp fst snd] in H1, H2. rewrite <- !app_assoc, word_w, word_w, (IH r H3), !plus_minus_w by assumption. reflexivity.
Qed.
(** A segment of 16-bit numbers, and the section read of it. *)
Definition seg_ok (s : segment) : Prop :=
  let '(points, code, flag) := s in
  0 <= flag < 65536 /\ zlen points < 65536 /\ Forall (fun p => pair16 (cutp p)) points /\
  match code with Some c => Z.of_nat c < 65536 | None => True end.
Definition code_of (c : option nat) : Z := match c with Some c => Z.of_nat c | None => 0 end.
Definition sec_of (s : segment) : section := let '(points, code, flag) := s in mkSec flag (code_of code) (map cutp points).
Lemma section_read points c flag r : seg_ok (points, Some c, flag) ->
  read_section (write_int_16le flag ++ write_int_16le (Z.of_nat c) ++ write_int_16le (zlen points)
     ++ flat_map (fun p => write_int_16le (q_trunc (fst p)) ++ write_int_16le (q_trunc (snd p))) points ++ r)
  = Some (sec_of (points, Some c, flag), r).
Proof.
  intros (H1 & H2 & H3 & H4). unfold read_section. rewrite !word_w. unfold zlen in *. rewrite !Z.mod_small by lia. rewrite Nat2Z.id, points_read by assumption. reflexivity.
Qed.
Lemma sections_next n bs : read_sections (S (S n)) bs =
  match read_section bs with None => None | Some (s, r) =>
  match word2 r with None => None | Some (w, r) =>
  if w =? 0x8003 then match read_sections (S n) r with None => None | Some (l, r) => Some (s :: l, r) end else None end end.
Proof. reflexivity. Qed.
Lemma segs_read : forall l first k prev bytes log r, write_segments first k prev l = Ok (bytes, log) -> Forall seg_ok l -> l <> [] ->
  read_sections (List.length l) ((if first then bytes else skipn 2 bytes) ++ r) = Some (map sec_of l, r) /\
  (first = false -> firstn 2 bytes = write_int_16le 0x8003).
Proof.
  induction l as [|[[points code] flag] l IH]; intros first k prev bytes log r W F N; [contradiction|]. cbn [write_segments] in W.
  destruct code as [c|]; [|discriminate]. destruct (write_segments false (k + 1) (Some c) l) as [[b g]|] eqn:E; cbn [bindr] in W; [|discriminate].
  injection W as Wb Wl. inversion_clear F as [|? ? F1 F2].
  assert (G : (if first then bytes else skipn 2 bytes) ++ r = write_int_16le flag ++ write_int_16le (Z.of_nat c) ++ write_int_16le (zlen points)
     ++ flat_map (fun p => write_int_16le (q_trunc (fst p)) ++ write_int_16le (q_trunc (snd p))) points ++ (b ++ r)).
  { rewrite <- Wb. destruct first.
    - cbn [app]. rewrite <- !app_assoc. reflexivity.
    - match goal with |- skipn 2 (?h ++ ?t) ++ r = _ => change (skipn 2 (h ++ t)) with t end. cbn [app]. rewrite <- app_assoc. reflexivity. }
  rewrite G. split.
  - destruct l as [|s l].
    + cbn [write_segments] in E. injection E as <- <-. cbn [List.length read_sections map app]. rewrite section_read by assumption. reflexivity.
    + destruct (IH false (k + 1) (Some c) b g r E F2 ltac:(discriminate)) as [IH1 IH2]. specialize (IH2 eq_refl).
      change (List.length ((points, Some c, flag) :: s :: l)) with (S (S (List.length l))). rewrite sections_next, section_read by assumption.
      rewrite <- (firstn_skipn 2 b) at 1. rewrite IH2, <- app_assoc, word_w.
      change (32771 mod 65536 =? 32771) with true. cbn match. change (S (List.length l)) with (List.length (s :: l)). cbn match in IH1.
      rewrite IH1. reflexivity.
  - intros ->. rewrite <- Wb. reflexivity.
Qed.
Lemma pairs_read : forall l r, Forall (fun p => 0 <= fst p < 65536 /\ 0 <= snd p < 65536) l ->
  read_pairs (List.length l) (flat_map (fun i => write_int_16le (fst i) ++ write_int_16le (snd i)) l ++ r) = Some (l, r).
Proof.
  induction l as [|[x y] l IH]; intros r H; cbn [List.length flat_map read_pairs app]; [reflexivity|].
  inversion_clear H as [|? ? [H1 H2] H3]. cbn [fst snd] in *. rewrite <- !app_assoc, word_w, word_w, (IH r H3), !Z.mod_small by assumption. reflexivity.
Qed.
(** The colour log. *)
Lemma fold_later k : forall log c, Forall (fun e : Z * Z => k < fst e) log -> fold_left (fun c e => if fst e <=? k then Some (snd e) else c) log c = c.
Proof.
  induction log as [|e log IH]; intros c H; cbn [fold_left]; [reflexivity|]. inversion_clear H as [|? ? H1 H2].
  destruct (Z.leb_spec (fst e) k); [lia|]. apply IH, H2.
Qed.
Lemma log_bounds : forall l first k prev bytes log, write_segments first k prev l = Ok (bytes, log) -> Forall seg_ok l -> 0 <= k ->
  Forall (fun e => k <= fst e < k + zlen l /\ 0 <= snd e < 65536) log /\ (List.length log <= List.length l)%nat /\
  Forall (fun s => match snd (fst s) with Some _ => True | None => False end) l.
Proof.
  induction l as [|[[points code] flag] l IH]; intros first k prev bytes log W F K; cbn [write_segments] in W.
  - injection W as <- <-. split; [constructor|]. split; [cbn; lia|constructor].
  - destruct code as [c|]; [|discriminate]. destruct (write_segments false (k + 1) (Some c) l) as [[b g]|] eqn:E; cbn [bindr] in W; [|discriminate].
    injection W as _ <-. inversion_clear F as [|? ? F0 F2]. unfold seg_ok in F0. destruct F0 as (_ & _ & _ & F1). assert (K1 : 0 <= k + 1) by lia. destruct (IH _ _ _ _ _ E F2 K1) as (B & L & O).
    assert (Z1 : forall A (x : A) r, zlen (x :: r) = 1 + zlen r) by (intros; unfold zlen; cbn [List.length]; lia).
    assert (Z0 : 0 <= zlen l) by (unfold zlen; lia).
    split; [|split].
    + apply Forall_app. split.
      * destruct (oidx_eqb prev (Some c)); constructor; [|constructor]. cbn [fst snd]. rewrite Z1. lia.
      * eapply Forall_impl; [|exact B]. intros e [[B1 B2] B3]. rewrite Z1. split; [split; [lia|]|exact B3].
        lia.
    + rewrite app_length. destruct (oidx_eqb prev (Some c)); cbn [List.length]; lia.
    + constructor; [exact I|exact O].
Qed.
Lemma log_colour : forall l first k prev bytes log, write_segments first k prev l = Ok (bytes, log) -> Forall seg_ok l -> 0 <= k ->
  forall j s, nth_error l j = Some s -> forall c, c = match prev with Some p => Some (Z.of_nat p) | None => None end ->
  fold_left (fun c e => if fst e <=? k + Z.of_nat j then Some (snd e) else c) log c = Some (sec_colour (sec_of s)).
Proof.
  induction l as [|[[points code] flag] l IH]; intros first k prev bytes log W F K j s J c C; [destruct j; discriminate|]. cbn [write_segments] in W.
  destruct code as [d|]; [|discriminate]. destruct (write_segments false (k + 1) (Some d) l) as [[b g]|] eqn:E; cbn [bindr] in W; [|discriminate].
  injection W as _ <-. inversion_clear F as [|? ? F0 F2]. unfold seg_ok in F0. destruct F0 as (_ & _ & _ & F1). assert (K1 : 0 <= k + 1) by lia. destruct (log_bounds _ _ _ _ _ _ E F2 K1) as (B & _ & _).
  rewrite fold_left_app.
  assert (Z' : fold_left (fun c e => if fst e <=? k + Z.of_nat j then Some (snd e) else c) (if oidx_eqb prev (Some d) then [] else [(k, Z.of_nat d)]) c = Some (Z.of_nat d)).
  { destruct (oidx_eqb prev (Some d)) eqn:O; cbn [fold_left fst snd].
    - subst c. destruct prev as [p|]; [|discriminate]. cbn [oidx_eqb] in O. apply Nat.eqb_eq in O. subst p. reflexivity.
    - destruct (Z.leb_spec k (k + Z.of_nat j)); [reflexivity|lia]. }
  rewrite Z'. destruct j as [|j]; cbn [nth_error] in J.
  - injection J as <-. cbn [sec_of sec_colour code_of]. apply fold_later. eapply Forall_impl; [|exact B]. intros e [B1 _]. lia.
  - replace (k + Z.of_nat (S j)) with (k + 1 + Z.of_nat j) by lia. apply (IH _ _ _ _ _ E F2 K1 j s J). reflexivity.
Qed.
(** The whole list is read back. *)
Theorem design_read get chart ax ay l bytes n log r : write_pes_embsewseg_segments get chart ax ay l = Ok (bytes, n, log) ->
  let segs := get_as_segments_blocks get chart ax ay l in
  Forall seg_ok segs -> zlen segs < 65536 ->
  n = zlen segs /\ read_design n (bytes ++ r) = Some (map sec_of segs, log, r) /\
  (forall k s, nth_error (map sec_of segs) k = Some s -> colour_at log (Z.of_nat k) = Some (sec_colour s)) /\
  Forall (fun s => match snd (fst s) with Some _ => True | None => False end) segs.
Proof.
  intros W segs F ZL. unfold write_pes_embsewseg_segments in W. fold segs in W.
  destruct (write_segments true 0 None segs) as [[b g]|] eqn:E; cbn [bindr] in W; [|discriminate]. injection W as Wb Wn Wl. subst n g.
  destruct (log_bounds _ _ _ _ _ _ E F (Z.le_refl 0)) as (B & L & O). split; [reflexivity|]. split; [|split; [|exact O]].
  - unfold read_design. unfold zlen at 1. rewrite Nat2Z.id.
    assert (G : read_sections (List.length segs) (b ++ (write_int_16le (zlen log) ++ flat_map (fun i => write_int_16le (fst i) ++ write_int_16le (snd i)) log) ++ r)
               = Some (map sec_of segs, (write_int_16le (zlen log) ++ flat_map (fun i => write_int_16le (fst i) ++ write_int_16le (snd i)) log) ++ r)).
    { destruct segs as [|s q] eqn:S.
      - cbn [write_segments] in E. injection E as <- <-. reflexivity.
      - apply (segs_read (s :: q) true 0 None b log); [exact E|exact F|discriminate]. }
    assert (Eb : bytes = b ++ (write_int_16le (zlen log) ++ flat_map (fun i => write_int_16le (fst i) ++ write_int_16le (snd i)) log)) by (rewrite <- Wb; reflexivity).
    rewrite Eb, <- app_assoc, G, <- app_assoc, word_w. unfold zlen in *. rewrite Z.mod_small by lia. rewrite Nat2Z.id, pairs_read; [reflexivity|].
    eapply Forall_impl; [|exact B]. intros e [B1 B2]. unfold zlen in *. lia.
  - intros k s K. rewrite nth_error_map in K. destruct (nth_error segs k) as [u|] eqn:U; cbn [option_map] in K; [|discriminate]. injection K as <-.
    unfold colour_at. apply (log_colour _ _ _ _ _ _ E F (Z.le_refl 0) k u U). reflexivity.
Qed.

(** ** What the segments hold *)
Section Content.
Variables (get : Z -> thread) (chart : list (option thread)) (ax ay : Q).
Definition near (i : Z) : option nat := find_nearest_color_index (t_color (get i)) chart.
Definition rel (p : Q * Q) : Q * Q := ((fst p - ax)%Q, (snd p - ay)%Q).
Definition flag_is (f : Z) (s : segment) : bool := snd s =? f.
(** The stitches and the travels of the segments. *)
Definition seg_sewn (l : list segment) : list (option nat * (Q * Q)) :=
  flat_map (fun s => map (fun p => (snd (fst s), p)) (fst (fst s))) (filter (flag_is 0) l).
Definition seg_travels (l : list segment) : list (option nat * list (Q * Q)) :=
  map (fun s => (snd (fst s), fst (fst s))) (filter (flag_is 1) l).
Definition shown_sewn (i : Z) (l : list (stitch Q)) := map (fun p => (near (fst p), rel (snd p))) (sewn i l).
Definition shown_travels (i : Z) (at_ : Q * Q) (l : list (stitch Q)) :=
  map (fun p => (near (fst p), [rel (fst (snd p)); rel (snd (snd p))])) (travels i at_ l).
(** A run of one command, before something else. *)
Lemma sewn_run i b l : Forall (fun s => cmd_of (scmd s) = STITCH) b -> sewn i (b ++ l) = map (fun s => (i, (sx s, sy s))) b ++ sewn i l.
Proof. induction 1 as [|s b H F IH]; cbn [app sewn map]; [reflexivity|]. rewrite H. cbn [Z.eqb]. change (STITCH =? STITCH) with true. cbn match. rewrite IH. reflexivity. Qed.
Lemma travels_run i at_ b s l : Forall (fun s => cmd_of (scmd s) = STITCH) (s :: b) ->
  travels i at_ ((s :: b) ++ l) = travels i (sx (last (s :: b) s), sy (last (s :: b) s)) l.
Proof.
  intros H. assert (G : forall b at_, Forall (fun s => cmd_of (scmd s) = STITCH) b -> b <> [] -> forall d, travels i at_ (b ++ l) = travels i (sx (last b d), sy (last b d)) l).
  { clear. induction b as [|s b IH]; intros at_ H N d; [contradiction|]. inversion_clear H as [|? ? H1 H2]. cbn [app travels].
    rewrite H1. change (STITCH =? JUMP) with false. change (STITCH =? STITCH) with true. cbn match.
    destruct b as [|t b]; [reflexivity|]. change (last (s :: t :: b) d) with (last (t :: b) d). apply IH; [exact H2|discriminate]. }
  apply G; [exact H|discriminate].
Qed.
Lemma sewn_other i c b l : Forall (fun s => cmd_of (scmd s) = c) b -> c <> STITCH -> c <> COLOR_CHANGE -> sewn i (b ++ l) = sewn i l.
Proof.
  intros H N1 N2. induction H as [|s b H F IH]; cbn [app sewn]; [reflexivity|]. rewrite H, IH.
  destruct (Z.eqb_spec c STITCH); [contradiction|]. destruct (Z.eqb_spec c COLOR_CHANGE); [contradiction|reflexivity].
Qed.
Lemma travels_other i at_ c b l : Forall (fun s => cmd_of (scmd s) = c) b -> c <> STITCH -> c <> COLOR_CHANGE -> c <> JUMP -> travels i at_ (b ++ l) = travels i at_ l.
Proof.
  intros H N1 N2 N3. induction H as [|s b H F IH]; cbn [app travels]; [reflexivity|]. rewrite H, IH.
  destruct (Z.eqb_spec c JUMP); [contradiction|]. destruct (Z.eqb_spec c STITCH); [contradiction|]. destruct (Z.eqb_spec c COLOR_CHANGE); [contradiction|reflexivity].
Qed.
Lemma travels_jump i at_ l : jumps_on l = false -> forall b d, b <> [] -> Forall (fun s => cmd_of (scmd s) = JUMP) b ->
  travels i at_ (b ++ l) = (i, (at_, (sx (last b d), sy (last b d)))) :: travels i at_ l.
Proof.
  intros J. induction b as [|s b IH]; intros d N H; [contradiction|]. inversion_clear H as [|? ? H1 H2]. cbn [app travels]. rewrite H1.
  change (JUMP =? JUMP) with true. cbn match. destruct b as [|t b].
  - cbn [app]. rewrite J. reflexivity.
  - assert (T : jumps_on ((t :: b) ++ l) = true). { cbn [app jumps_on]. inversion_clear H2 as [|? ? H3 _]. rewrite H3. reflexivity. }
    rewrite T. cbn [app]. change (t :: b ++ l) with ((t :: b) ++ l). rewrite (IH d ltac:(discriminate) H2).
    reflexivity.
Qed.
Lemma single_app : forall b l, single_changes (b ++ l) -> single_changes l.
Proof. induction b as [|s b IH]; intros l H; [exact H|]. cbn [app single_changes] in H. apply IH, H. Qed.
Lemma seg_cons s l : seg_sewn (s :: l) = (if flag_is 0 s then map (fun p => (snd (fst s), p)) (fst (fst s)) else []) ++ seg_sewn l /\
  seg_travels (s :: l) = (if flag_is 1 s then [(snd (fst s), fst (fst s))] else []) ++ seg_travels l.
Proof. unfold seg_sewn, seg_travels. cbn [filter]. split; [destruct (flag_is 0 s)|destruct (flag_is 1 s)]; reflexivity. Qed.
Lemma blocks_content : forall l bs, command_cut l bs -> single_changes l -> forall i at_,
  let segs := segments_blocks get chart ax ay (i + 1) (near i) at_ bs in
  seg_sewn segs = shown_sewn i l /\ seg_travels segs = shown_travels i at_ l /\
  Forall (fun s => (snd s = 0 \/ snd s = 1) /\ fst (fst s) <> []) segs.
Proof.
  assert (STEP : forall c b l bs, b <> [] -> Forall (fun s => cmd_of (scmd s) = c) b -> jumps_on l = false \/ c <> JUMP ->
    single_changes (b ++ l) -> 
    (forall i at_, let segs := segments_blocks get chart ax ay (i + 1) (near i) at_ bs in
      seg_sewn segs = shown_sewn i l /\ seg_travels segs = shown_travels i at_ l /\ Forall (fun s => (snd s = 0 \/ snd s = 1) /\ fst (fst s) <> []) segs) ->
    forall i at_, let segs := segments_blocks get chart ax ay (i + 1) (near i) at_ (b :: bs) in
      seg_sewn segs = shown_sewn i (b ++ l) /\ seg_travels segs = shown_travels i at_ (b ++ l) /\ Forall (fun s => (snd s = 0 \/ snd s = 1) /\ fst (fst s) <> []) segs).
  { intros c b l bs N F J U IH i at_. cbv zeta. destruct b as [|s b]; [contradiction|]. cbn [segments_blocks].
    assert (Ec : cmd_of (scmd s) = c) by (inversion_clear F; assumption). rewrite Ec.
    destruct (Z.eqb_spec c JUMP) as [->|NJ].
    { destruct J as [J|J]; [|contradiction]. destruct (IH i at_) as (A & B & D).
      match goal with |- seg_sewn (?h :: ?t) = _ /\ _ => destruct (seg_cons h t) as [S1 S2]; change (h :: t) with (@cons segment h t) end. rewrite S1, S2. unfold flag_is. cbn [snd fst].
      change (1 =? 0) with false. change (1 =? 1) with true. cbn match.
      unfold shown_sewn, shown_travels. rewrite (sewn_other i JUMP (s :: b) l F ltac:(discriminate) ltac:(discriminate)), (travels_jump i at_ l J (s :: b) s ltac:(discriminate) F).
      split; [exact A|]. cbn [map fst snd]. split; [|constructor; [split; [right; reflexivity|discriminate]|exact D]].
      cbn [app]. f_equal. exact B. }
    destruct (Z.eqb_spec c COLOR_CHANGE) as [->|NC].
    { assert (B1 : b = []). { destruct b as [|t b]; [reflexivity|]. exfalso. cbn [app single_changes] in U. destruct U as [U _]. inversion_clear F as [|? ? F1 F2]. inversion_clear F2 as [|? ? F3 _]. exact (U F1 F3). }
      subst b. destruct (IH (i + 1) at_) as (A & B & D). change (find_nearest_color_index (t_color (get (i + 1))) chart) with (near (i + 1)).
      unfold shown_sewn, shown_travels. cbn [app sewn travels]. rewrite Ec.
      change (COLOR_CHANGE =? STITCH) with false. change (COLOR_CHANGE =? JUMP) with false. change (COLOR_CHANGE =? COLOR_CHANGE) with true. cbn match.
      split; [exact A|]. split; [exact B|exact D]. }
    destruct (Z.eqb_spec c STITCH) as [->|NS].
    { destruct (IH i (sx (last (s :: b) s), sy (last (s :: b) s))) as (A & B & D).
      match goal with |- seg_sewn (?h :: ?t) = _ /\ _ => destruct (seg_cons h t) as [S1 S2]; change (h :: t) with (@cons segment h t) end. rewrite S1, S2. unfold flag_is. cbn [snd fst].
      change (0 =? 0) with true. change (0 =? 1) with false. cbn match.
      unfold shown_sewn, shown_travels. rewrite (sewn_run i (s :: b) l F), (travels_run i at_ b s l F).
      split; [|split; [exact B|constructor; [split; [left; reflexivity|discriminate]|exact D]]].
      rewrite map_app, A, !map_map. reflexivity. }
    destruct (IH i at_) as (A & B & D). unfold shown_sewn, shown_travels.
    rewrite (sewn_other i c (s :: b) l F NS NC), (travels_other i at_ c (s :: b) l F NS NC NJ). split; [exact A|]. split; [exact B|exact D]. }
  induction 1 as [|c b N F|c b s l bs N F D K IH]; intros U.
  - intros i at_. cbv zeta. cbn [segments_blocks]. split; [reflexivity|]. split; [reflexivity|constructor].
  - pose proof (STEP c b [] [] N F (or_introl eq_refl)) as T. rewrite app_nil_r in T. apply T; [exact U|].
    intros i at_. cbv zeta. cbn [segments_blocks]. split; [reflexivity|]. split; [reflexivity|constructor].
  - apply (STEP c b (s :: l) bs); [exact N|exact F| |exact U|apply IH, (single_app b _ U)].
    cbn [jumps_on]. destruct (Z.eqb_spec (cmd_of (scmd s)) JUMP) as [E|E]; [right; congruence|left; reflexivity].
Qed.
Theorem segments_content l : single_changes l ->
  let segs := get_as_segments_blocks get chart ax ay l in
  seg_sewn segs = shown_sewn 0 l /\ seg_travels segs = shown_travels 0 (0%Q, 0%Q) l /\
  Forall (fun s => (snd s = 0 \/ snd s = 1) /\ fst (fst s) <> []) segs.
Proof. intros U. apply (blocks_content l (get_as_command_blocks l) (command_blocks_spec l) U 0). Qed.
End Content.
