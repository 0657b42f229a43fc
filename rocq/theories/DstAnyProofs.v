(** Reading arbitrary bytes as a DST file. *)
From Coq Require Import Ascii String ZArith QArith Qabs List Bool Lia.
From Verif Require Import PyBase EmbConst StreamModel StreamSpec NumQ ThreadModel Utf8Model Utf8Proofs
  TextModel TextProofs PatternModel TrimProofs CsvModel DstModel DstFileModel DstFileSpec DstHeaderProofs DstWholeProofs.
Import ListNotations.
Open Scope Z_scope.
Ltac Zify.zify_post_hook ::= idtac.

(** ** The trim interpolation always ends *)
Lemma py_index_ok {A} (l : list A) i : 0 <= i < zlen l -> exists a, py_index i l = Ok a.
Proof.
  intros H. unfold py_index. destruct (Z.ltb_spec i 0); [lia|].
  destruct (nth_error l (Z.to_nat i)) as [a|] eqn:E; [exists a; reflexivity|].
  apply nth_error_None in E. unfold zlen in H. lia.
Qed.
Lemma py_insert_len {A} i (v : A) l : 0 <= i <= zlen l -> zlen (py_insert i v l) = zlen l + 1.
Proof.
  intros H. unfold py_insert, zlen in *. rewrite app_length, firstn_length. cbn [List.length]. rewrite skipn_length. lia.
Qed.
Lemma py_del_len {A} a b (l : list A) : 0 <= a <= b -> b <= zlen l -> zlen (py_del a b l) = zlen l - (b - a).
Proof.
  intros H1 H2. unfold py_del, zlen in *. rewrite app_length, firstn_length, skipn_length. lia.
Qed.
Lemma trim_at_ok pos l : 0 <= pos < zlen l -> exists l', trim_at pos l = Ok l' /\ zlen l' = zlen l + 1.
Proof.
  intros H. unfold trim_at, insert_stitch_relative. cbn [p_stitches].
  destruct (Z.ltb_spec pos 0); [lia|]. destruct (Z.eqb_spec pos 0) as [E|E].
  - cbn [bindr p_stitches]. eexists. split; [reflexivity|]. apply py_insert_len. lia.
  - destruct (Z.eqb_spec pos (zlen l)); [lia|]. destruct (Z.ltb_spec 0 pos); [|lia]. destruct (Z.ltb_spec pos (zlen l)); [|lia].
    cbn [andb]. destruct (py_index_ok l (pos - 1)) as [q ->]; [lia|]. cbn [bindr p_stitches]. eexists. split; [reflexivity|].
    apply py_insert_len. lia.
Qed.

Definition sound (st : trim_state) : Prop :=
  r_ie st = zlen (r_ss st) - 1 /\ -1 <= r_i st <= r_ie st /\ (r_jumping st = true -> 0 <= r_start st <= r_i st + 1).
Lemma trim_step_ok jumps dist clip st : sound st -> r_i st < r_ie st ->
  exists st', trim_step jumps dist clip st = Ok st' /\ sound st' /\ r_ie st' - r_i st' = r_ie st - r_i st - 1.
Proof.
  intros (H1 & H2 & H3) Hi. unfold trim_step.
  destruct (py_index_ok (r_ss st) (r_i st + 1)) as [s ->]; [lia|]. cbn [bindr].
  destruct (if _ || _ then (false, false) else _) as [trimmed jumping] eqn:Ej.
  assert (J : jumping = true -> r_jumping st = true).
  { destruct (_ || _) in Ej; [injection Ej as <- <-; discriminate|]. destruct (_ || _) in Ej; injection Ej as <- <-; [discriminate|tauto]. }
  destruct (cmd_of (scmd s) =? JUMP).
  2:{ eexists. split; [reflexivity|]. unfold sound. cbn [r_ie r_ss r_i r_jumping r_start]. split; [|lia]. split; [lia|]. split; [lia|].
      intros Hj. specialize (H3 (J Hj)). lia. }
  destruct (if jumping then _ else _) as [[[dx dy] count] start] eqn:Es.
  assert (Hs : 0 <= start <= r_i st + 1).
  { destruct jumping; injection Es as <- <- <- <-; [apply H3, J; reflexivity|lia]. }
  cbv zeta.
  match goal with |- context [if negb trimmed && ?c then _ else _] => set (req := negb trimmed && c) end.
  assert (M : exists ss start' i' ie' tr, (if req then do ss <- trim_at start (r_ss st); Ok (ss, start + 1, r_i st + 1 + 1, r_ie st + 1, true)
       else Ok (r_ss st, start, r_i st + 1, r_ie st, trimmed)) = Ok (ss, start', i', ie', tr) /\
       ie' = zlen ss - 1 /\ 0 <= start' <= i' /\ i' <= ie' /\ ie' - i' = r_ie st - r_i st - 1).
  { destruct req.
    - destruct (trim_at_ok start (r_ss st)) as (ss & -> & L); [lia|]. cbn [bindr].
      do 5 eexists. split; [reflexivity|]. lia.
    - do 5 eexists. split; [reflexivity|]. lia. }
  destruct M as (ss & start' & i' & ie' & tr & -> & M1 & M2 & M3 & M4). clearbody req. cbn [bindr].
  destruct (_ && _) eqn:B.
  - eexists. split; [reflexivity|]. unfold sound. cbn [r_ie r_ss r_i r_jumping r_start].
    pose proof (py_del_len start' (i' + 1) ss ltac:(lia) ltac:(lia)) as L. split; [split; [reflexivity|split; lia]|]. lia.
  - eexists. split; [reflexivity|]. unfold sound. cbn [r_ie r_ss r_i r_jumping r_start]. split; [split; [exact M1|split; lia]|]. exact M4.
Qed.
Lemma trim_loop_ok jumps dist clip : forall fuel st, sound st -> r_ie st - r_i st <= Z.of_nat fuel ->
  exists st', trim_loop jumps dist clip fuel st = Ok st'.
Proof.
  induction fuel as [|fuel IH]; intros st S F; cbn [trim_loop]; destruct (Z.ltb_spec (r_i st) (r_ie st)) as [H|H];
    try (eexists; reflexivity).
  - lia.
  - destruct (trim_step_ok jumps dist clip st S H) as (st' & -> & S' & L). cbn [bindr]. apply IH; [exact S'|lia].
Qed.
Theorem interpolate_trims_total jumps dist clip fuel l : (List.length l <= fuel)%nat ->
  exists l', interpolate_trims jumps dist clip fuel l = Ok l'.
Proof.
  intros H. unfold interpolate_trims.
  destruct (trim_loop_ok jumps dist clip fuel (mkTr l (-1) (zlen l - 1) 0%Q 0%Q 0 0 0%Q 0%Q false true)) as [st ->].
  - unfold sound. cbn [r_ie r_ss r_i r_jumping r_start]. unfold zlen. split; [reflexivity|]. split; [lia|discriminate].
  - cbn [r_ie r_i]. unfold zlen. lia.
  - eexists. reflexivity.
Qed.

(** ** The header *)
Definition contains (t : list Z) (s : list Z) : Prop := exists a c, s = a ++ t ++ c.
Lemma contains_cons t b s : contains t s -> contains t (b :: s).
Proof. intros (a & c & ->). exists (b :: a), c. reflexivity. Qed.
Lemma contains_app t a s : contains t s -> contains t (a ++ s).
Proof. intros (b & c & ->). exists (a ++ b), c. rewrite <- app_assoc. reflexivity. Qed.
Lemma contains_appl t a s : contains t s -> contains t (s ++ a).
Proof. intros (b & c & ->). exists b, (c ++ a). rewrite <- !app_assoc. reflexivity. Qed.

(** One character at the front of what was decoded. *)
Lemma decode_first s c r : utf8_decode s = Some (c :: r) ->
  exists a s', s = a ++ s' /\ utf8_decode s' = Some r /\ (c < 0x80 -> a = [c]) /\ a <> [].
Proof.
  assert (O : forall c' x, ocons c' x = Some (c :: r) -> c' = c /\ x = Some r).
  { intros c' [x|] E; [|discriminate E]. injection E as -> ->. auto. }
  destruct s as [|b0 r0]; [discriminate|]. cbn [utf8_decode]. intros E.
  destruct (Z.ltb_spec b0 0x80).
  { apply O in E as [-> E]. exists [c], r0. repeat split; auto. discriminate. }
  destruct (b0 <? 0xC0); [discriminate|]. destruct r0 as [|b1 r1]; [discriminate|].
  destruct (negb (cont b1)); [discriminate|]. destruct (b0 <? 0xE0).
  { destruct (Z.ltb_spec ((b0 - 0xC0) * 64 + (b1 - 0x80)) 0x80); [discriminate|]. apply O in E as [E1 E].
    exists [b0; b1], r1. repeat split; auto; [lia|discriminate]. }
  destruct r1 as [|b2 r2]; [discriminate|]. destruct (negb (cont b2)); [discriminate|]. destruct (b0 <? 0xF0).
  { destruct (Z.ltb_spec ((b0 - 0xE0) * 4096 + (b1 - 0x80) * 64 + (b2 - 0x80)) 0x800); cbn [orb] in E; [discriminate|].
    destruct (surrogate _); [discriminate|]. apply O in E as [E1 E].
    exists [b0; b1; b2], r2. repeat split; auto; [lia|discriminate]. }
  destruct r2 as [|b3 r3]; [discriminate|]. destruct (_ || _) in E; [discriminate|].
  destruct (Z.ltb_spec ((b0 - 0xF0) * 262144 + (b1 - 0x80) * 4096 + (b2 - 0x80) * 64 + (b3 - 0x80)) 0x10000); cbn [orb] in E; [discriminate|].
  destruct (_ <? _) in E; [discriminate|]. apply O in E as [E1 E].
  exists [b0; b1; b2; b3], r3. repeat split; auto; [lia|discriminate].
Qed.
Lemma decode_contains : forall x s y, utf8_decode s = Some (x ++ [84; 67] ++ y) -> contains [84; 67] s.
Proof.
  induction x as [|c x IH]; intros s y E.
  - cbn [app] in E. apply decode_first in E as (a & s' & -> & E & A & _). rewrite (A ltac:(lia)).
    apply decode_first in E as (a' & s'' & -> & _ & A' & _). rewrite (A' ltac:(lia)). exists [], s''. reflexivity.
  - cbn [app] in E. apply decode_first in E as (a & s' & -> & E & _). apply contains_app. eapply IH. exact E.
Qed.
Lemma pieces_contains t : forall s piece data, In data (header_pieces piece s) -> contains t data -> contains t (piece ++ s).
Proof.
  induction s as [|e s IH]; intros piece data H C; cbn [header_pieces] in H; [destruct H|].
  destruct ((e =? 13) || (e =? 10)).
  - destruct H as [<-|H]; [apply contains_appl; exact C|]. apply contains_app. exact (IH [e] data H C).
  - replace (piece ++ e :: s) with ((piece ++ [e]) ++ s) by (rewrite <- app_assoc; reflexivity). exact (IH _ data H C).
Qed.
Lemma strip_inside t : contains (strip t) t.
Proof.
  destruct (strip_cases t) as [[E _]|(a & c & r & -> & _ & B & E)]; rewrite E.
  - exists [], t. reflexivity.
  - exists a. unfold rstrip. destruct (split_blanks (rev r)) as (b & Eb & _). exists (rev b).
    cbn [app]. f_equal. rewrite <- rev_app_distr, <- Eb, rev_involutive. reflexivity.
Qed.
Lemma contains_trans a b c : contains a b -> contains b c -> contains a c.
Proof. intros (x & y & ->) (u & v & ->). exists (u ++ x), (y ++ v). rewrite <- !app_assoc. reflexivity. Qed.

Definition bad_thread (e : exn) : Prop := e = IndexError \/ e = ValueError.
Lemma color_hex_err h e : color_hex h = Err e -> bad_thread e.
Proof.
  assert (A : forall t acc e, int16_acc acc t = Err e -> e = ValueError).
  { induction t as [|c t IH]; intros acc e' E; cbn [int16_acc] in E; [discriminate|].
    destruct (digit_value c); [eapply IH; exact E|injection E as <-; reflexivity]. }
  assert (I : forall t e, int16 t = Err e -> e = ValueError).
  { intros [|c t] e' E; [injection E as <-; reflexivity|]. eapply A. exact E. }
  unfold color_hex, bad_thread. destruct (_ || _).
  - destruct (int16 _) eqn:E; [discriminate|]. intros [= <-]. right. eapply I. exact E.
  - destruct (_ || _); [|discriminate]. destruct (lstrip 35 h) as [|a [|b [|c r]]]; try (intros [= <-]; left; reflexivity).
    destruct (int16 _) eqn:E; [discriminate|]. intros [= <-]. right. eapply I. exact E.
Qed.
Lemma process_err prefix value out e : process_header_info prefix value out = Err e -> prefix = text_of "TC" /\ bad_thread e.
Proof.
  unfold process_header_info.
  destruct (text_eqb prefix (text_of "LA")); [discriminate|]. destruct (text_eqb prefix (text_of "AU")); [discriminate|].
  destruct (text_eqb prefix (text_of "CP")); [discriminate|]. destruct (text_eqb prefix (text_of "TC")) eqn:E; [|discriminate].
  intros H. split.
  { clear - E. revert E. destruct prefix as [|a [|b [|c r]]]; cbn; rewrite ?andb_false_r; try discriminate.
    intros E. apply andb_true_iff in E as [E1 E2]. apply andb_true_iff in E2 as [E2 _]. apply Z.eqb_eq in E1, E2. subst. reflexivity. }
  destruct (map strip (split_on 44 value)) as [|h [|d [|c r]]]; try (injection H as <-; left; reflexivity).
  destruct (color_hex h) eqn:Eh; [discriminate|]. injection H as <-. eapply color_hex_err. exact Eh.
Qed.
Lemma strip_two t : strip (firstn 2 t) = [84; 67] -> contains [84; 67] t.
Proof.
  intros E. apply (contains_trans _ (firstn 2 t)).
  - rewrite <- E at 1. apply strip_inside.
  - exists [], (skipn 2 t). cbn [app]. symmetry. apply firstn_skipn.
Qed.
Lemma read_pieces_err : forall l out e, read_pieces l out = Err e ->
  bad_thread e /\ exists data, In data l /\ contains [84; 67] data.
Proof.
  induction l as [|data l IH]; intros out e E; cbn [read_pieces] in E; [discriminate|].
  destruct (utf8_decode data) as [line|] eqn:D.
  - cbn zeta in E. destruct (3 <? zlen (strip line)).
    + destruct (process_header_info _ _ out) as [o|e'] eqn:P.
      * cbn [bindr] in E. destruct (IH _ _ E) as (H & d & Hd & C). split; [exact H|]. exists d. split; [right; exact Hd|exact C].
      * cbn [bindr] in E. injection E as <-. apply process_err in P as [P B]. split; [exact B|]. exists data. split; [left; reflexivity|].
        apply strip_two in P. destruct (contains_trans _ _ _ P (strip_inside line)) as (x & y & ->). eapply decode_contains. exact D.
    + cbn [bindr] in E. destruct (IH _ _ E) as (H & d & Hd & C). split; [exact H|]. exists d. split; [right; exact Hd|exact C].
  - destruct (IH _ _ E) as (H & d & Hd & C). split; [exact H|]. exists d. split; [right; exact Hd|exact C].
Qed.

Theorem dst_read_any count_max dist clip file fuel : (List.length file < fuel)%nat ->
  match dst_read count_max dist clip fuel file with
  | Ok _ => True
  | Err e => bad_thread e /\ contains [84; 67] (firstn 512 file)
  end.
Proof.
  intros Hf. unfold dst_read, dst_read_header.
  destruct (read_pieces _ _) as [o|e] eqn:E; cbn [bindr].
  - destruct (interpolate_trims_total (Some count_max) (match dist with Some d => Some (d * 10)%Q | None => None end) clip fuel
      (map of_int (dst_read_raw (skipn 512 file)))) as [l' ->]; [|exact I].
    rewrite map_length. unfold dst_read_raw. rewrite apply_rel_length, app_length. cbn [List.length].
    pose proof (read_loop_length _ (skipn 512 file) false (Nat.le_refl _)). rewrite skipn_length in *. lia.
  - apply read_pieces_err in E as (B & data & Hd & C). split; [exact B|]. exact (pieces_contains _ (firstn 512 file) [] data Hd C).
Qed.
