(** JSON texts with other line ends. *)
From Coq Require Import Ascii String ZArith List Bool Lia.
From Verif Require Import PyBase EmbConst ThreadModel TextModel NameModel CsvModel JsonModel JsonTextModel JsonTextSpec JsonTextProofs.
Import ListNotations.
Open Scope Z_scope.

Section lines.
Variable e : text.
Hypothesis blanks : Forall json_blank e.
Hypothesis some : e <> [].
Notation ends := (line_ends e).
Lemma ends_cons : forall c s, c <> 10 -> ends (c :: s) = c :: ends s.
Proof. intros c s H. unfold line_ends. cbn [flat_map]. destruct (Z.eqb_spec c 10); [contradiction|]. reflexivity. Qed.
Lemma ends_10 : forall s, ends (10 :: s) = e ++ ends s.
Proof. reflexivity. Qed.
Lemma blank_space : forall c, json_blank c -> is_space c = true.
Proof. unfold json_blank, is_space. lia. Qed.
Lemma skip_blanks : forall s, skip (e ++ s) = skip s.
Proof. intros s. clear some. induction blanks as [|c r Hc Hr IH]; [reflexivity|]. cbn [app skip]. rewrite (blank_space c Hc). exact (IH Hr). Qed.
Lemma skip_ends : forall s, skip (ends s) = ends (skip s).
Proof.
  induction s as [|c s IH]; [reflexivity|]. destruct (Z.eq_dec c 10) as [->|H]; [rewrite ends_10, skip_blanks; exact IH|].
  rewrite ends_cons by exact H. cbn [skip]. destruct (is_space c); [exact IH|]. rewrite ends_cons by exact H. reflexivity.
Qed.
(** What an altered text begins with: the same character, or a blank. *)
Lemma ends_first : forall s, match s with [] => ends s = [] | c :: r => if c =? 10 then exists b q, ends s = b :: q /\ json_blank b else ends s = c :: ends r end.
Proof.
  intros [|c r]; [reflexivity|]. destruct (Z.eqb_spec c 10) as [->|H]; [|exact (ends_cons c r H)]. rewrite ends_10. clear - blanks some.
  destruct e as [|b q]; [congruence|]. apply Forall_cons_iff in blanks. eexists _, _. split; [reflexivity|apply blanks].
Qed.
Lemma string_ends : forall k s t q, (List.length s <= k)%nat -> scan_str s = Ok (t, q) -> scan_str (ends s) = Ok (t, ends q).
Proof.
  induction k as [|k IH]; intros s t q L E; [destruct s; [discriminate E|cbn in L; lia]|]. destruct s as [|c s]; [discriminate E|]. cbn [List.length] in L.
  assert (N10 : c <> 10) by (intros ->; discriminate E). rewrite ends_cons by exact N10. cbn [scan_str] in E |- *.
  destruct (c =? 34); [injection E as <- <-; reflexivity|].
  assert (One : forall n s' t', (List.length s' <= k)%nat -> cons_text n (scan_str s') = Ok (t', q) -> cons_text n (scan_str (ends s')) = Ok (t', ends q)).
  { intros n s' t' L' E'. apply cons_text_ok in E'. destruct E' as (t0 & E0 & ->). rewrite (IH _ _ _ L' E0). reflexivity. }
  destruct (c =? 92); [|destruct (c <? 32); [discriminate E|]; apply One; [lia|exact E]].
  destruct s as [|f s]; [discriminate E|]. cbn [List.length] in L. assert (Nf : f <> 10) by (intros ->; discriminate E). rewrite ends_cons by exact Nf.
  destruct (f =? 117); [|destruct (unescaped f); [|discriminate E]; apply One; [lia|exact E]].
  destruct s as [|a [|b [|c2 [|d s]]]]; try discriminate E. cbn [List.length] in L. destruct (four a b c2 d) as [n|] eqn:Ef; [|discriminate E].
  assert (X : forall h, hex_value h <> None -> h <> 10) by (intros h Hh ->; apply Hh; reflexivity).
  assert (Y : forall a b c d n, four a b c d = Some n -> a <> 10 /\ b <> 10 /\ c <> 10 /\ d <> 10).
  { intros a' b' c' d' n' H. unfold four in H. destruct (hex_value a') eqn:A; [|discriminate H]. destruct (hex_value b') eqn:B; [|discriminate H]. destruct (hex_value c') eqn:C; [|discriminate H].
    destruct (hex_value d') eqn:D; [|discriminate H]. repeat split; apply X; congruence. }
  destruct (Y _ _ _ _ _ Ef) as (Na & Nb & Nc & Nd). rewrite !ends_cons by assumption. rewrite Ef. destruct ((55296 <=? n) && (n <=? 56319)); [|apply One; [lia|exact E]].
  (* the text behind a high half *)
  assert (Other : cons_text n (scan_str s) = Ok (t, q) -> (forall a b c d r, s = 92 :: 117 :: a :: b :: c :: d :: r -> exists m, four a b c d = Some m /\ (56320 <=? m) && (m <=? 57343) = false) ->
    match ends s with
    | bs :: u :: a :: b :: c :: d :: r' => if (bs =? 92) && (u =? 117) then match four a b c d with None => Err ValueError
        | Some m => if (56320 <=? m) && (m <=? 57343) then cons_text (65536 + (n - 55296) * 1024 + (m - 56320)) (scan_str r') else cons_text n (scan_str (ends s)) end else cons_text n (scan_str (ends s))
    | _ => cons_text n (scan_str (ends s)) end = Ok (t, ends q)).
  { intros E' H'. pose proof (One n s t ltac:(lia) E') as G. destruct (ends s) as [|bs [|u [|a1 [|b1 [|c1 [|d1 r']]]]]] eqn:Es; try exact G.
    destruct ((bs =? 92) && (u =? 117)) eqn:Eb; [|exact G]. apply andb_true_iff in Eb. destruct Eb as [E1 E2]. apply Z.eqb_eq in E1, E2. subst bs u.
    apply cons_text_ok in E'. destruct E' as (t0 & E0 & _).
    assert (Hs : exists a b c d r, s = 92 :: 117 :: a :: b :: c :: d :: r /\ four a b c d <> None).
    { destruct s as [|z0 s]; [discriminate E0|]. pose proof (ends_first (z0 :: s)) as F0. cbv beta iota in F0. rewrite Es in F0. destruct (z0 =? 10) eqn:Z0; [apply Z.eqb_eq in Z0; subst z0; discriminate E0|]. injection F0 as <- F0.
      cbn [scan_str] in E0. cbn [Z.eqb Pos.eqb] in E0. destruct s as [|z1 s]; [discriminate E0|]. pose proof (ends_first (z1 :: s)) as F1. cbv beta iota in F1. rewrite <- F0 in F1.
      destruct (z1 =? 10) eqn:Z1; [apply Z.eqb_eq in Z1; subst z1; discriminate E0|]. injection F1 as <- F1. cbn [Z.eqb Pos.eqb] in E0.
      destruct s as [|z2 [|z3 [|z4 [|z5 s]]]]; try discriminate E0. exists z2, z3, z4, z5, s. split; [reflexivity|]. destruct (four z2 z3 z4 z5); [discriminate|discriminate E0]. }
    destruct Hs as (z2 & z3 & z4 & z5 & r & -> & Hf). destruct (H' _ _ _ _ _ eq_refl) as (m & Em & Hm). destruct (Y _ _ _ _ _ Em) as (N2 & N3 & N4 & N5).
    rewrite !ends_cons in Es by (assumption || discriminate). injection Es as <- <- <- <- <-. rewrite Em, Hm. exact G. }
  destruct s as [|bs [|u [|a1 [|b1 [|c1 [|d1 s']]]]]]; try (apply Other; [exact E|intros ? ? ? ? ? Z; discriminate Z]).
  destruct ((bs =? 92) && (u =? 117)) eqn:Eb.
  - destruct (four a1 b1 c1 d1) as [m|] eqn:Em; [|discriminate E]. destruct ((56320 <=? m) && (m <=? 57343)) eqn:El.
    + apply andb_true_iff in Eb. destruct Eb as [E1 E2]. apply Z.eqb_eq in E1, E2. subst bs u. destruct (Y _ _ _ _ _ Em) as (N2 & N3 & N4 & N5). rewrite !ends_cons by (assumption || discriminate).
      cbn [Z.eqb Pos.eqb andb]. rewrite Em, El. cbn [List.length] in L. apply One; [lia|exact E].
    + apply Other; [exact E|]. intros ? ? ? ? ? Z. injection Z as _ _ <- <- <- <- _. exists m. auto.
  - apply Other; [exact E|]. intros ? ? ? ? ? Z. injection Z as -> -> _ _ _ _ _. discriminate Eb.
Qed.
Lemma digit_not_blank : forall b, json_blank b -> is_digit b = false /\ b <> 45 /\ b <> 46 /\ b <> 101 /\ b <> 69 /\ b <> 48 /\ b <> 43.
Proof. intros b [-> |[-> |[-> | ->]]]; (split; [reflexivity|lia]). Qed.
Lemma span_ends : forall s a b, span s = (a, b) -> span (ends s) = (a, ends b).
Proof.
  induction s as [|c s IH]; intros a b E; cbn [span] in E; [injection E as <- <-; reflexivity|]. pose proof (ends_first (c :: s)) as F0. cbv beta iota in F0. destruct (Z.eqb_spec c 10) as [->|N].
  - cbn in E. injection E as <- <-. destruct F0 as (z & q & -> & Hz). cbn [span]. rewrite (proj1 (digit_not_blank z Hz)). reflexivity.
  - rewrite F0. cbn [span]. destruct (is_digit c); [|injection E as <- <-; rewrite F0; reflexivity]. destruct (span s) as [a' b'] eqn:Es. rewrite (IH _ _ eq_refl). injection E as <- <-. reflexivity.
Qed.
Lemma sign_ends : forall s m r, sign_part s = (m, r) -> sign_part (ends s) = (m, ends r).
Proof.
  intros [|c s] m r E; cbn [sign_part] in E; [injection E as <- <-; reflexivity|]. pose proof (ends_first (c :: s)) as F0. cbv beta iota in F0. destruct (Z.eqb_spec c 10) as [->|N].
  - cbn in E. injection E as <- <-. destruct F0 as (z & q & -> & Hz). unfold sign_part. destruct (Z.eqb_spec z 45); [apply digit_not_blank in Hz; lia|reflexivity].
  - rewrite F0. unfold sign_part. destruct (c =? 45); injection E as <- <-; [reflexivity|rewrite F0; reflexivity].
Qed.
Lemma int_ends : forall s i r, int_part s = Some (i, r) -> int_part (ends s) = Some (i, ends r).
Proof.
  intros s i r E. unfold int_part in *. destruct (sign_part s) as [m s'] eqn:Em. rewrite (sign_ends _ _ _ Em). destruct s' as [|c s']; [discriminate E|].
  assert (N : c <> 10) by (intros ->; discriminate E). rewrite ends_cons by exact N. destruct (c =? 48); [injection E as <- <-; reflexivity|]. destruct (is_digit c) eqn:Ed; [|discriminate E].
  destruct (span (c :: s')) as [a b] eqn:Es. rewrite <- (ends_cons c s' N), (span_ends _ _ _ Es). injection E as <- <-. reflexivity.
Qed.
Lemma frac_ends : forall s f r, frac_part s = (f, r) -> frac_part (ends s) = (f, ends r).
Proof.
  intros [|c s] f r E; cbn [frac_part] in E; [injection E as <- <-; reflexivity|]. pose proof (ends_first (c :: s)) as F0. cbv beta iota in F0. destruct (Z.eqb_spec c 10) as [->|N].
  - cbn in E. injection E as <- <-. destruct F0 as (z & q & -> & Hz). unfold frac_part. destruct (Z.eqb_spec z 46); [apply digit_not_blank in Hz; lia|reflexivity].
  - rewrite F0. unfold frac_part. destruct (c =? 46); [|injection E as <- <-; rewrite F0; reflexivity]. destruct (span s) as [a b] eqn:Es. rewrite (span_ends _ _ _ Es).
    destruct a; injection E as <- <-; [rewrite F0|]; reflexivity.
Qed.
Lemma exp_ends : forall s f r, exp_part s = (f, r) -> exp_part (ends s) = (f, ends r).
Proof.
  intros [|c s] f r E; cbn [exp_part] in E; [injection E as <- <-; reflexivity|]. pose proof (ends_first (c :: s)) as F0. cbv beta iota in F0. destruct (Z.eqb_spec c 10) as [->|N].
  - cbn in E. injection E as <- <-. destruct F0 as (z & q & -> & Hz). unfold exp_part. replace ((z =? 101) || (z =? 69)) with false by (apply digit_not_blank in Hz; symmetry; lia). reflexivity.
  - rewrite F0. unfold exp_part. destruct ((c =? 101) || (c =? 69)); [|injection E as <- <-; rewrite F0; reflexivity].
    set (w := match s with d :: r' => if (d =? 45) || (d =? 43) then ([d], r') else ([], s) | [] => ([], s) end) in E. destruct w as [g r3] eqn:Ew.
    assert (W : match ends s return text * text with d :: r' => if (d =? 45) || (d =? 43) then ([d] : text, r' : text) else ([] : text, ends s) | [] => ([] : text, ends s) end = (g, ends r3)).
    { unfold w in Ew. destruct s as [|d s]; [injection Ew as <- <-; reflexivity|]. pose proof (ends_first (d :: s)) as F1. cbv beta iota in F1. destruct (Z.eqb_spec d 10) as [->|N1].
      - cbn in Ew. injection Ew as <- <-. destruct F1 as (z & q & -> & Hz). replace ((z =? 45) || (z =? 43)) with false by (apply digit_not_blank in Hz; symmetry; lia). reflexivity.
      - rewrite F1. destruct ((d =? 45) || (d =? 43)); injection Ew as <- <-; [reflexivity|rewrite F1; reflexivity]. }
    match goal with |- (let '(_, _) := ?w in _) = _ => change w with (match ends s return text * text with d :: r' => if (d =? 45) || (d =? 43) then ([d] : text, r' : text) else ([] : text, ends s) | [] => ([] : text, ends s) end) end.
    rewrite W. destruct (span r3) as [a b] eqn:Es. rewrite (span_ends _ _ _ Es). destruct a; injection E as <- <-; [rewrite F0|]; reflexivity.
Qed.
Lemma literal_ends : forall w s q, ~ In 10 w -> literal w s = Some q -> literal w (ends s) = Some (ends q).
Proof.
  induction w as [|a w IH]; intros s q N E; cbn [literal] in E; [injection E as <-; reflexivity|]. destruct s as [|b s]; [discriminate E|]. destruct (Z.eqb_spec a b) as [->|]; [|discriminate E].
  cbn [In] in N. rewrite ends_cons by tauto. cbn [literal]. rewrite Z.eqb_refl. apply IH; [tauto|exact E].
Qed.

Context {F : Type}.
Variable read : text -> F.
Notation scan_value := (scan_value read). Notation scan_items := (scan_items read). Notation scan_members := (scan_members read).
Lemma number_ends : forall s v r, scan_number read s = Ok (v, r) -> scan_number read (ends s) = Ok (v, ends r).
Proof.
  intros s v r E. unfold scan_number in *. destruct (int_part s) as [[i r0]|] eqn:Ei; [|discriminate E]. rewrite (int_ends _ _ _ Ei). destruct (frac_part r0) as [f r1] eqn:Ef. rewrite (frac_ends _ _ _ Ef).
  destruct (exp_part r1) as [x r2] eqn:Ex. rewrite (exp_ends _ _ _ Ex). destruct (f ++ x); [|injection E as <- <-; reflexivity]. destruct (int_of_text i); [|discriminate E]. cbn [bindr] in *. injection E as <- <-. reflexivity.
Qed.
Lemma skip_not_10 : forall s c q, skip s = c :: q -> c <> 10.
Proof. intros s c q E ->. apply skip_first in E. discriminate E. Qed.
Lemma scan_ends : forall n,
  (forall s v r, scan_value n s = Ok (v, r) -> scan_value n (ends s) = Ok (v, ends r)) /\
  (forall s l r, scan_items n s = Ok (l, r) -> scan_items n (ends s) = Ok (l, ends r)) /\
  (forall s l r, scan_members n s = Ok (l, r) -> scan_members n (ends s) = Ok (l, ends r)).
Proof.
  induction n as [|n (IV & II & IM)]; [split; [|split]; intros s l r E; discriminate E|]. split; [|split].
  - intros s v r E. destruct s as [|c s]; [discriminate E|]. assert (N : c <> 10) by (intros ->; discriminate E). rewrite ends_cons by exact N. rewrite value_S in E |- *. rewrite skip_ends, <- (ends_cons c s N).
    destruct (c =? 34). { apply bind_ok in E. destruct E as ([t q] & E & E'). injection E' as <- <-. rewrite (string_ends _ _ _ _ (Nat.le_refl _) E). reflexivity. }
    destruct (c =? 123).
    { destruct (skip s) as [|d q] eqn:Es; [discriminate E|]. rewrite ends_cons by exact (skip_not_10 _ _ _ Es). destruct (d =? 125); [injection E as <- <-; reflexivity|].
      apply bind_ok in E. destruct E as ([l q'] & E & E'). injection E' as <- <-. rewrite <- (ends_cons d q) by exact (skip_not_10 _ _ _ Es). rewrite (IM _ _ _ E). reflexivity. }
    destruct (c =? 91).
    { destruct (skip s) as [|d q] eqn:Es; [discriminate E|]. rewrite ends_cons by exact (skip_not_10 _ _ _ Es). destruct (d =? 93); [injection E as <- <-; reflexivity|].
      apply bind_ok in E. destruct E as ([l q'] & E & E'). injection E' as <- <-. rewrite <- (ends_cons d q) by exact (skip_not_10 _ _ _ Es). rewrite (II _ _ _ E). reflexivity. }
    assert (Li : forall w q, forallb (fun c => negb (c =? 10)) w = true -> literal w (c :: s) = Some q -> literal w (ends (c :: s)) = Some (ends q)).
    { intros w q Hw. apply literal_ends. intros X. rewrite forallb_forall in Hw. specialize (Hw 10 X). discriminate Hw. }
    destruct (c =? 110); [destruct (literal _ _) as [q|] eqn:El; [|discriminate E]; injection E as <- <-; rewrite (Li (text_of "null") _ eq_refl El); reflexivity|].
    destruct (c =? 116); [destruct (literal _ _) as [q|] eqn:El; [|discriminate E]; injection E as <- <-; rewrite (Li (text_of "true") _ eq_refl El); reflexivity|].
    destruct (c =? 102); [destruct (literal _ _) as [q|] eqn:El; [|discriminate E]; injection E as <- <-; rewrite (Li (text_of "false") _ eq_refl El); reflexivity|].
    exact (number_ends _ _ _ E).
  - intros s l r E. rewrite items_S in E |- *. apply bind_ok in E. destruct E as ([v q] & Ev & E). rewrite (IV _ _ _ Ev). cbn [bindr]. rewrite skip_ends.
    destruct (skip q) as [|c q'] eqn:Es; [discriminate E|]. rewrite ends_cons by exact (skip_not_10 _ _ _ Es). rewrite skip_ends. destruct (c =? 44).
    + apply bind_ok in E. destruct E as ([l' q2] & El & E). injection E as <- <-. rewrite (II _ _ _ El). reflexivity.
    + destruct (c =? 93); [|discriminate E]. injection E as <- <-. reflexivity.
  - intros s l r E. destruct s as [|c0 s]; [discriminate E|]. assert (N : c0 <> 10) by (intros ->; discriminate E). rewrite ends_cons by exact N. rewrite members_S in E |- *. destruct (c0 =? 34); [|discriminate E].
    apply bind_ok in E. destruct E as ([k r0] & Ek & E). rewrite (string_ends _ _ _ _ (Nat.le_refl _) Ek). cbn [bindr]. rewrite skip_ends. destruct (skip r0) as [|c1 r1] eqn:E1; [discriminate E|].
    rewrite ends_cons by exact (skip_not_10 _ _ _ E1). destruct (c1 =? 58); [|discriminate E]. apply bind_ok in E. destruct E as ([v q] & Ev & E). rewrite skip_ends, (IV _ _ _ Ev). cbn [bindr]. rewrite skip_ends.
    destruct (skip q) as [|c q'] eqn:Es; [discriminate E|]. rewrite ends_cons by exact (skip_not_10 _ _ _ Es). rewrite skip_ends. destruct (c =? 44).
    + apply bind_ok in E. destruct E as ([l' q2] & El & E). injection E as <- <-. rewrite (IM _ _ _ El). reflexivity.
    + destruct (c =? 125); [|discriminate E]. injection E as <- <-. reflexivity.
Qed.
Lemma ends_length : forall s, (List.length s <= List.length (ends s))%nat.
Proof.
  induction s as [|c s IH]; [apply Nat.le_refl|]. destruct (Z.eq_dec c 10) as [->|N]; [|rewrite ends_cons by exact N; cbn [List.length]; lia]. rewrite ends_10, app_length. cbn [List.length].
  destruct e; [congruence|cbn [List.length]; lia].
Qed.
Theorem loads_ends : forall s v, json_loads read s = Ok v -> json_loads read (ends s) = Ok v.
Proof.
  intros s v E. unfold json_loads in *. apply bind_ok in E. destruct E as ([w r] & E & E'). rewrite skip_ends. apply (proj1 (scan_ends _)) in E.
  assert (L : (2 * List.length s + 1 <= 2 * List.length (ends s) + 1)%nat) by (pose proof (ends_length s); lia). rewrite (value_mono read _ _ _ _ L E). cbn [bindr]. rewrite skip_ends. destruct (skip r); [|discriminate E']. exact E'.
Qed.
End lines.
