(** Proofs about the text of JSON files. *)
From Coq Require Import Ascii String Decimal DecimalFacts DecimalPos ZArith List Bool Lia.
From Verif Require Import PyBase BitLemmas EmbConst ThreadModel TextModel TextProofs NameModel CsvModel JsonModel JsonTextModel JsonTextSpec.
Import ListNotations.
Open Scope Z_scope.

(** ** Strings *)
Lemma hex_low_value : forall d, 0 <= d < 16 -> hex_value (hex_low d) = Some d.
Proof.
  intros d H. assert (X : In d [0;1;2;3;4;5;6;7;8;9;10;11;12;13;14;15]) by (cbn [In]; lia).
  cbn [In] in X. repeat (destruct X as [<-|X]; [reflexivity|]). contradiction.
Qed.
Lemma four_u4 : forall n, 0 <= n < 65536 ->
  four (hex_low (n / 4096 mod 16)) (hex_low (n / 256 mod 16)) (hex_low (n / 16 mod 16)) (hex_low (n mod 16)) = Some n.
Proof.
  intros n H. unfold four. rewrite !hex_low_value by (apply Z.mod_pos_bound; lia). f_equal. lia.
Qed.
Definition is_high (c : Z) : bool := (0xd800 <=? c) && (c <=? 0xdbff).
(** What begins with an escape of four digits that is the second half of a pair. *)
Definition low_next (r : text) : Prop :=
  exists a b c d q m, r = 92 :: 117 :: a :: b :: c :: d :: q /\ (four a b c d = None \/ four a b c d = Some m /\ 0xdc00 <= m <= 0xdfff).
Lemma scan_u4 : forall n r, 0 <= n < 65536 -> (is_high n = true -> ~ low_next r) -> scan_str (u4 n ++ r) = cons_text n (scan_str r).
Proof.
  intros n r H L. unfold u4. cbn [app scan_str]. cbn [Z.eqb Pos.eqb]. rewrite four_u4 by exact H. fold (is_high n). destruct (is_high n) eqn:E; [|reflexivity].
  specialize (L eq_refl). destruct r as [|bs [|u [|a [|b [|c [|d q]]]]]]; try reflexivity.
  destruct ((bs =? 92) && (u =? 117)) eqn:Eb; [|reflexivity]. apply andb_true_iff in Eb. destruct Eb as [E1 E2]. apply Z.eqb_eq in E1, E2. subst bs u.
  destruct (four a b c d) as [m|] eqn:Ef.
  - destruct ((56320 <=? m) && (m <=? 57343)) eqn:Em; [|reflexivity]. exfalso. apply L. exists a, b, c, d, q, m. split; [reflexivity|]. right. split; [exact Ef|lia].
  - exfalso. apply L. exists a, b, c, d, q, 0. split; [reflexivity|]. left. exact Ef.
Qed.
Lemma scan_pair : forall n m r, 0xd800 <= n <= 0xdbff -> 0xdc00 <= m <= 0xdfff ->
  scan_str (u4 n ++ u4 m ++ r) = cons_text (0x10000 + (n - 0xd800) * 1024 + (m - 0xdc00)) (scan_str r).
Proof.
  intros n m r Hn Hm. unfold u4 at 1. cbn [app scan_str]. cbn [Z.eqb Pos.eqb]. rewrite four_u4 by lia.
  replace ((55296 <=? n) && (n <=? 56319)) with true by (symmetry; lia). unfold u4. cbn [app Z.eqb Pos.eqb andb]. rewrite four_u4 by lia.
  replace ((56320 <=? m) && (m <=? 57343)) with true by (symmetry; lia). reflexivity.
Qed.
(** How a character is escaped. *)
Lemma esc_cases : forall c, 0 <= c < 0x110000 ->
  (exists e, esc c = [92; e] /\ e <> 117 /\ unescaped e = Some c /\ is_high c = false) \/
  (esc c = [c] /\ 32 <= c <= 126 /\ c <> 34 /\ c <> 92) \/
  (esc c = u4 c /\ 0 <= c < 65536) \/
  (exists n m, esc c = u4 n ++ u4 m /\ 0xd800 <= n <= 0xdbff /\ 0xdc00 <= m <= 0xdfff /\ c = 0x10000 + (n - 0xd800) * 1024 + (m - 0xdc00)).
Proof.
  intros c H. unfold esc.
  destruct (Z.eqb_spec c 92) as [->|]; [left; exists 92; repeat split; discriminate|].
  destruct (Z.eqb_spec c 34) as [->|]; [left; exists 34; repeat split; discriminate|].
  destruct (Z.eqb_spec c 8) as [->|]; [left; exists 98; repeat split; discriminate|].
  destruct (Z.eqb_spec c 12) as [->|]; [left; exists 102; repeat split; discriminate|].
  destruct (Z.eqb_spec c 10) as [->|]; [left; exists 110; repeat split; discriminate|].
  destruct (Z.eqb_spec c 13) as [->|]; [left; exists 114; repeat split; discriminate|].
  destruct (Z.eqb_spec c 9) as [->|]; [left; exists 116; repeat split; discriminate|].
  destruct ((32 <=? c) && (c <=? 126)) eqn:E; [right; left; split; [reflexivity|lia]|].
  destruct (Z.ltb_spec c 65536); [right; right; left; split; [reflexivity|lia]|].
  right; right; right. exists (0xd800 + (c - 65536) / 1024 mod 1024), (0xdc00 + (c - 65536) mod 1024). split; [reflexivity|].
  lia.
Qed.
Lemma hex_low_digit : forall d, 0 <= d < 16 -> hex_low d <> 34.
Proof. intros d H. unfold hex_low. destruct (Z.ltb_spec d 10); lia. Qed.
Lemma u4_next : forall n q, 0 <= n < 65536 -> low_next (u4 n ++ q) -> 0xdc00 <= n <= 0xdfff.
Proof.
  intros n q H (a & b & c & d & q' & m & E & X). unfold u4 in E. cbn [app] in E. injection E as <- <- <- <- _. rewrite four_u4 in X by exact H.
  destruct X as [X|[X Y]]; [discriminate X|]. congruence.
Qed.
Lemma scan_escaped : forall t q, sound_text t -> scan_str (flat_map esc t ++ 34 :: q) = Ok (t, q).
Proof.
  induction t as [|c t IH]; intros q [H1 H2]; [reflexivity|]. apply Forall_cons_iff in H1. destruct H1 as [Hc Ht].
  assert (St : sound_text t) by (split; [exact Ht|]; destruct t; [exact I|exact (proj2 H2)]). specialize (IH q St).
  cbn [flat_map]. rewrite <- app_assoc.
  destruct (esc_cases c Hc) as [(e & -> & He & Hu & _)|[(-> & Hr & N1 & N2)|[(-> & Hr)|(n & m & -> & Hn & Hm & ->)]]].
  - cbn [app scan_str Z.eqb Pos.eqb]. destruct (Z.eqb_spec e 117); [contradiction|]. rewrite Hu, IH. reflexivity.
  - cbn [app scan_str]. destruct (Z.eqb_spec c 34); [contradiction|]. destruct (Z.eqb_spec c 92); [contradiction|]. destruct (Z.ltb_spec c 32); [lia|]. rewrite IH. reflexivity.
  - rewrite scan_u4; [rewrite IH; reflexivity|exact Hr|]. intros Hh L. destruct t as [|d t]; cbn [flat_map app] in L.
    + destruct L as (? & ? & ? & ? & ? & ? & X & _). discriminate X.
    + rewrite <- app_assoc in L. apply Forall_cons_iff in Ht. destruct Ht as [Hd _]. cbn [no_pairs] in H2. destruct H2 as [H2 _].
      destruct (esc_cases d Hd) as [(e & Ee & He & _)|[(Ee & Hr' & N1 & N2)|[(Ee & Hr')|(n & m & Ee & Hn & Hm & Ex)]]]; rewrite Ee in L.
      * destruct L as (? & ? & ? & ? & ? & ? & X & _). cbn [app] in X. injection X as X _. contradiction.
      * destruct L as (? & ? & ? & ? & ? & ? & X & _). cbn [app] in X. injection X as X _. contradiction.
      * apply u4_next in L; [|exact Hr']. apply H2. unfold high_half, low_half, is_high in *. split; lia.
      * rewrite <- app_assoc in L. apply u4_next in L; lia.
  - rewrite <- app_assoc, scan_pair by assumption. rewrite IH. reflexivity.
Qed.
Lemma cons_text_ok : forall c r t q, cons_text c r = Ok (t, q) -> exists t', r = Ok (t', q) /\ t = c :: t'.
Proof. intros c [[t' q']|] t q E; [|discriminate E]. cbn in E. injection E as <- <-. exists t'. auto. Qed.
Lemma short_escape : forall s t q, scan_str s = Ok (t, q) -> (List.length s < 6)%nat -> forall y p, s ++ y <> 92 :: 117 :: p.
Proof.
  intros s t q E L y p X. destruct s as [|z0 [|z1 w]]; [discriminate E|cbn [app] in X; injection X as -> _; discriminate E|].
  cbn [app] in X. injection X as -> -> _. cbn [scan_str Z.eqb Pos.eqb] in E. destruct w as [|a [|b [|c [|d w]]]]; try discriminate E. cbn [List.length] in L. lia.
Qed.
Lemma short_pair : forall k s t q, cons_text k (scan_str s) = Ok (t, q) -> (List.length s < 6)%nat -> forall y,
  match s ++ y with
  | bs :: u :: a :: b :: c :: d :: r' => if (bs =? 92) && (u =? 117) then match four a b c d with
      | Some m => if (56320 <=? m) && (m <=? 57343) then cons_text (65536 + (k - 55296) * 1024 + (m - 56320)) (scan_str r') else cons_text k (scan_str (s ++ y))
      | None => Err ValueError end else cons_text k (scan_str (s ++ y))
  | _ => cons_text k (scan_str (s ++ y)) end = cons_text k (scan_str (s ++ y)).
Proof.
  intros k s t q E L y. apply cons_text_ok in E. destruct E as (t' & E & _). pose proof (short_escape s t' q E L y) as X.
  destruct (s ++ y) as [|p0 [|p1 [|p2 [|p3 [|p4 [|p5 w]]]]]]; try reflexivity.
  destruct ((p0 =? 92) && (p1 =? 117)) eqn:Ep; [|reflexivity]. apply andb_true_iff in Ep. destruct Ep as [Ep1 Ep2]. apply Z.eqb_eq in Ep1, Ep2. subst p0 p1.
  exfalso. exact (X _ eq_refl).
Qed.
(** More text behind a closed string changes nothing. *)
Lemma scan_str_more : forall n s t q x, (List.length s <= n)%nat -> scan_str s = Ok (t, q) -> scan_str (s ++ x) = Ok (t, q ++ x) /\ (List.length q < List.length s)%nat.
Proof.
  induction n as [|n IH]; intros s t q x Hn E; (destruct s as [|c r]; [discriminate E|]); cbn [List.length] in *; [lia|].
  assert (G : forall k s', (List.length s' <= n)%nat -> cons_text k (scan_str s') = Ok (t, q) -> cons_text k (scan_str (s' ++ x)) = Ok (t, q ++ x) /\ (List.length q < List.length s')%nat).
  { intros k s' L X. apply cons_text_ok in X. destruct X as (t' & X & ->). destruct (IH _ _ _ x L X) as [-> Y]. auto. }
  cbn [scan_str app] in *. destruct (c =? 34); [injection E as <- <-; auto|]. destruct (c =? 92).
  - destruct r as [|e r]; [discriminate E|]. cbn [app List.length] in *. destruct (e =? 117).
    + destruct r as [|a [|b [|c' [|d r]]]]; try discriminate E. cbn [app List.length] in *. destruct (four a b c' d) as [k|]; [|discriminate E].
      destruct ((55296 <=? k) && (k <=? 56319)); [|destruct (G k r ltac:(lia) E); split; [assumption|lia]].
      destruct r as [|bs [|u [|a2 [|b2 [|c2 [|d2 r']]]]]].
      1-6: (lazymatch type of E with cons_text _ (scan_str ?w) = _ => assert (Lw : (List.length w <= n)%nat) by (cbn [List.length] in *; lia); destruct (G k w Lw E) as [G1 G2] end); (split; [|cbn [List.length] in *; lia]); rewrite <- G1; (apply short_pair with (t := t) (q := q); [exact E|cbn [List.length]; lia]).
      cbn [app List.length] in *. destruct ((bs =? 92) && (u =? 117)).
      * destruct (four a2 b2 c2 d2) as [m|]; [|discriminate E]. destruct ((56320 <=? m) && (m <=? 57343)).
        -- destruct (G _ r' ltac:(lia) E). split; [assumption|lia].
        -- destruct (G k (bs :: u :: a2 :: b2 :: c2 :: d2 :: r') ltac:(cbn [List.length]; lia) E) as [G1 G2]. cbn [app List.length] in *. split; [exact G1|lia].
      * destruct (G k (bs :: u :: a2 :: b2 :: c2 :: d2 :: r') ltac:(cbn [List.length]; lia) E) as [G1 G2]. cbn [app List.length] in *. split; [exact G1|lia].
    + destruct (unescaped e) as [k|]; [|discriminate E]. destruct (G k r ltac:(lia) E). split; [assumption|lia].
  - destruct (c <? 32); [discriminate E|]. destruct (G c r ltac:(lia) E). split; [assumption|lia].
Qed.

(** ** Numbers *)
Definition nodig (s : text) : Prop := match s with [] => True | c :: _ => is_digit c = false end.
Definition halts (s : text) : Prop :=
  match s with [] => True | c :: _ => is_digit c = false /\ c <> 46 /\ c <> 101 /\ c <> 69 /\ c <> 45 /\ c <> 43 end.
Lemma span_more : forall s a b x, span s = (a, b) -> nodig (b ++ x) -> span (s ++ x) = (a, b ++ x).
Proof.
  induction s as [|c s IH]; intros a b x E H; cbn [span app] in *.
  - injection E as <- <-. cbn [app] in *. destruct x as [|c x]; [reflexivity|]. cbn [nodig span] in *. rewrite H. reflexivity.
  - destruct (is_digit c) eqn:Ec.
    + destruct (span s) as [a' b']. injection E as <- <-. rewrite (IH a' b' x eq_refl H). reflexivity.
    + injection E as <- <-. reflexivity.
Qed.
Lemma span_numerals : forall a x, Forall numeral a -> nodig x -> span (a ++ x) = (a, x).
Proof.
  induction a as [|c a IH]; intros x H Hx; cbn [app span].
  - destruct x as [|c x]; [reflexivity|]. cbn [nodig span] in *. rewrite Hx. reflexivity.
  - apply Forall_cons_iff in H. destruct H as [Hc H]. unfold numeral in Hc. replace (is_digit c) with true by (unfold is_digit; symmetry; lia). rewrite (IH x H Hx). reflexivity.
Qed.
Lemma span_length : forall s a b, span s = (a, b) -> (List.length b <= List.length s)%nat /\ nodig b.
Proof.
  induction s as [|c s IH]; intros a b E; cbn [span] in E.
  - injection E as <- <-. split; [lia|exact I].
  - destruct (is_digit c) eqn:Ec; [|injection E as <- <-; split; [lia|exact Ec]]. destruct (span s) as [a' b']. injection E as <- <-. destruct (IH a' b' eq_refl) as [L N]. cbn [List.length]. split; [lia|exact N].
Qed.
Lemma int_more : forall s i r x, int_part s = Some (i, r) -> nodig (r ++ x) -> int_part (s ++ x) = Some (i, r ++ x).
Proof.
  intros s i r x E H. unfold int_part in *. destruct s as [|c s]; [discriminate E|]. cbn [app sign_part] in *.
  assert (G : forall m u, match u with c :: r0 => if c =? 48 then Some (m ++ [c], r0) else if is_digit c then let '(a, b) := span u in Some (m ++ a, b) else None | [] => None end = Some (i, r) ->
    match u ++ x with c :: r0 => if c =? 48 then Some (m ++ [c], r0) else if is_digit c then let '(a, b) := span (u ++ x) in Some (m ++ a, b) else None | [] => None end = Some (i, r ++ x)).
  { intros m [|d u] X; [discriminate X|]. cbn [app]. destruct (d =? 48); [injection X as <- <-; reflexivity|]. destruct (is_digit d); [|discriminate X].
    destruct (span (d :: u)) as [a b] eqn:Es. injection X as <- <-. change (d :: u ++ x) with ((d :: u) ++ x). rewrite (span_more _ _ _ x Es H). reflexivity. }
  destruct (c =? 45); [exact (G [c] s E)|exact (G [] (c :: s) E)].
Qed.
Lemma int_length : forall s i r, int_part s = Some (i, r) -> (List.length r < List.length s)%nat.
Proof.
  intros s i r E. unfold int_part in E. destruct s as [|c s]; [discriminate E|]. cbn [sign_part] in E.
  assert (G : forall m u, match u with c :: r0 => if c =? 48 then Some (m ++ [c], r0) else if is_digit c then let '(a, b) := span u in Some (m ++ a, b) else None | [] => None end = Some (i, r) ->
    (List.length r < List.length u)%nat).
  { intros m [|d u] X; [discriminate X|]. destruct (d =? 48); [injection X as <- <-; cbn; lia|]. destruct (is_digit d) eqn:Ed; [|discriminate X].
    cbn [span] in X. rewrite Ed in X. destruct (span u) as [a b] eqn:Es. injection X as <- <-. destruct (span_length _ _ _ Es) as [L _]. cbn [List.length]. lia. }
  destruct (c =? 45); [pose proof (G [c] s E)|pose proof (G [] (c :: s) E)]; cbn [List.length] in *; lia.
Qed.
Lemma frac_more : forall s f r x, frac_part s = (f, r) -> nodig (r ++ x) -> (match r ++ x with c :: _ => c <> 46 | [] => True end) -> frac_part (s ++ x) = (f, r ++ x).
Proof.
  intros s f r x E H1 H2. destruct s as [|c s]; cbn [frac_part app] in *.
  - injection E as <- <-. cbn [app] in *. destruct x as [|c x]; [reflexivity|]. cbn [frac_part]. destruct (Z.eqb_spec c 46); [contradiction|reflexivity].
  - destruct (Z.eqb_spec c 46) as [->|N]; [|injection E as <- <-; reflexivity]. destruct (span s) as [a b] eqn:Es. destruct a as [|a0 a].
    + injection E as <- <-. cbn [app] in H2. contradiction.
    + injection E as <- <-. rewrite (span_more _ _ _ x Es H1). reflexivity.
Qed.
Lemma exp_more : forall s e r x, exp_part s = (e, r) -> halts (r ++ x) -> exp_part (s ++ x) = (e, r ++ x).
Proof.
  intros s e r x E H. destruct s as [|c s]; cbn [exp_part app] in *.
  - injection E as <- <-. cbn [app] in *. destruct x as [|c x]; [reflexivity|]. cbn [exp_part halts] in *. destruct H as (_ & _ & N1 & N2 & _).
    destruct (Z.eqb_spec c 101); [contradiction|]. destruct (Z.eqb_spec c 69); [contradiction|]. reflexivity.
  - destruct ((c =? 101) || (c =? 69)) eqn:Ec; [|injection E as <- <-; reflexivity].
    assert (Hc : c = 101 \/ c = 69) by lia.
    assert (Nd : forall a, nodig (a ++ x) \/ ~ halts (a ++ x)).
    { intros [|d a]; cbn [app]; [destruct x as [|d x]; [left; exact I|]|]; (destruct (is_digit d) eqn:Ed; [right; cbn [halts app]; intros [K _]; congruence|left; cbn [nodig]; first [exact Ed|reflexivity]]). }
    destruct s as [|d s].
    + cbn [span] in E. injection E as <- <-. cbn [app halts] in H. destruct H as (_ & _ & N1 & N2 & _). destruct Hc; contradiction.
    + cbn [app]. destruct ((d =? 45) || (d =? 43)).
      * destruct (span s) as [a b] eqn:Es. destruct a as [|a0 a]; injection E as <- <-; [cbn [app halts] in H; destruct H as (_ & _ & N1 & N2 & _); destruct Hc; contradiction|].
        destruct (Nd b) as [K|K]; [|contradiction]. rewrite (span_more _ _ _ x Es K). reflexivity.
      * destruct (span (d :: s)) as [a b] eqn:Es. destruct a as [|a0 a]; injection E as <- <-; [cbn [app halts] in H; destruct H as (_ & _ & N1 & N2 & _); destruct Hc; contradiction|].
        destruct (Nd b) as [K|K]; [|contradiction]. change (d :: s ++ x) with ((d :: s) ++ x). rewrite (span_more _ _ _ x Es K). reflexivity.
Qed.
Lemma exp_length : forall s e r, exp_part s = (e, r) -> (List.length r <= List.length s)%nat /\ (e <> [] -> match s with c :: _ => c = 101 \/ c = 69 | [] => False end) /\ (e = [] -> r = s).
Proof.
  intros s e r E. destruct s as [|c s]; cbn [exp_part] in E; [injection E as <- <-; split; [lia|]; split; [intros K; contradiction K; reflexivity|reflexivity]|].
  destruct ((c =? 101) || (c =? 69)) eqn:Ec; [|injection E as <- <-; split; [lia|]; split; [intros K; contradiction K; reflexivity|reflexivity]].
  assert (Hc : c = 101 \/ c = 69) by lia. destruct s as [|d s].
  - cbn in E. injection E as <- <-. split; [lia|]. auto.
  - destruct ((d =? 45) || (d =? 43)); [destruct (span s) as [a b] eqn:Es|destruct (span (d :: s)) as [a b] eqn:Es]; destruct (span_length _ _ _ Es) as [L _];
      (destruct a as [|a0 a]; injection E as <- <-; cbn [List.length] in *; (split; [lia|]; split; [auto|try reflexivity; discriminate])).
Qed.
Lemma frac_length : forall s f r, frac_part s = (f, r) -> (List.length r <= List.length s)%nat /\ (f <> [] -> match s with c :: _ => c = 46 | [] => False end) /\ (f = [] -> r = s).
Proof.
  intros s f r E. destruct s as [|c s]; cbn [frac_part] in E; [injection E as <- <-; split; [lia|]; split; [intros K; contradiction K; reflexivity|reflexivity]|].
  destruct (Z.eqb_spec c 46) as [->|N]; [|injection E as <- <-; split; [lia|]; split; [intros K; contradiction K; reflexivity|reflexivity]].
  destruct (span s) as [a b] eqn:Es. destruct (span_length _ _ _ Es) as [L _]. destruct a; injection E as <- <-; cbn [List.length] in *; (split; [lia|]; split; [auto|try reflexivity; discriminate]).
Qed.

Section text.
Context {F : Type}.
Variable show : F -> text.
Variable read : text -> F.
Notation scan_number := (scan_number read).
Notation scan_value := (scan_value read).
Notation scan_items := (scan_items read).
Notation scan_members := (scan_members read).

Lemma number_more : forall s v r x, scan_number s = Ok (v, r) -> halts (r ++ x) -> scan_number (s ++ x) = Ok (v, r ++ x) /\ (List.length r < List.length s)%nat.
Proof.
  intros s v r x E H. unfold JsonTextModel.scan_number in *. destruct (int_part s) as [[i r0]|] eqn:Ei; [|discriminate E].
  destruct (frac_part r0) as [f r1] eqn:Ef. destruct (exp_part r1) as [e r2] eqn:Ee.
  assert (R : r2 = r) by (destruct (f ++ e); [destruct (int_of_text i); [|discriminate E]; cbn [bindr] in E; injection E as _ <-; reflexivity|injection E as _ <-; reflexivity]). subst r2.
  destruct (exp_length _ _ _ Ee) as (Le & E1 & E2). destruct (frac_length _ _ _ Ef) as (Lf & F1 & F2). pose proof (int_length _ _ _ Ei) as Li.
  assert (H1 : nodig (r1 ++ x) /\ match r1 ++ x with c :: _ => c <> 46 | [] => True end).
  { destruct e as [|e0 e].
    - rewrite <- (E2 eq_refl). destruct (r ++ x) as [|c w]; [split; exact I|]. cbn [halts nodig] in *. tauto.
    - specialize (E1 ltac:(discriminate)). destruct r1 as [|c w]; [contradiction|]. cbn [app nodig]. destruct E1 as [-> | ->]; split; reflexivity || lia. }
  assert (H0 : nodig (r0 ++ x)).
  { destruct f as [|f0 f]; [rewrite <- (F2 eq_refl); exact (proj1 H1)|]. specialize (F1 ltac:(discriminate)). destruct r0 as [|c w]; [contradiction|]. subst c. reflexivity. }
  rewrite (int_more _ _ _ x Ei H0), (frac_more _ _ _ x Ef (proj1 H1) (proj2 H1)), (exp_more _ _ _ x Ee H). split; [|lia].
  destruct (f ++ e); [destruct (int_of_text i) as [z|]; [|discriminate E]; cbn [bindr] in *; injection E as <-; reflexivity|injection E as <-; reflexivity].
Qed.
(** A number as written. *)
Lemma number_scanned : forall m i fr ex x, (m = [] \/ m = [45]) ->
  (i = [48] \/ exists c r, i = c :: r /\ 49 <= c <= 57 /\ Forall numeral r) ->
  (fr = [] \/ exists d r, fr = 46 :: d :: r /\ Forall numeral (d :: r)) ->
  (ex = [] \/ exists e g d r, ex = e :: g ++ d :: r /\ (e = 101 \/ e = 69) /\ (g = [] \/ g = [43] \/ g = [45]) /\ Forall numeral (d :: r)) -> halts x ->
  scan_number (m ++ i ++ fr ++ ex ++ x) = match fr ++ ex with [] => do v <- int_of_text (m ++ i); Ok (JInt v, x) | _ => Ok (JFloat (read (m ++ i ++ fr ++ ex)), x) end.
Proof.
  intros m i fr ex x Hm Hi Hf He Hx. unfold JsonTextModel.scan_number.
  assert (N2 : nodig x /\ match x with c :: _ => c <> 46 | [] => True end) by (destruct x; cbn in *; tauto).
  assert (N1 : nodig (ex ++ x) /\ match ex ++ x with c :: _ => c <> 46 | [] => True end).
  { destruct He as [-> |(e & g & d & r & -> & He & _)]; [exact N2|]. cbn. destruct He as [-> | ->]; split; reflexivity || lia. }
  assert (N0 : nodig (fr ++ ex ++ x)) by (destruct Hf as [-> |(d & r & -> & _)]; [exact (proj1 N1)|reflexivity]).
  assert (I1 : int_part (m ++ i ++ fr ++ ex ++ x) = Some (m ++ i, fr ++ ex ++ x)).
  { unfold int_part. assert (S1 : sign_part (m ++ i ++ fr ++ ex ++ x) = (m, i ++ fr ++ ex ++ x)).
    { destruct Hm as [-> | ->]; [|reflexivity]. destruct Hi as [-> |(c & r & -> & Hc & _)]; [reflexivity|]. cbn [app sign_part]. destruct (Z.eqb_spec c 45); [lia|reflexivity]. }
    rewrite S1. destruct Hi as [-> |(c & r & -> & Hc & Hr)]; [reflexivity|]. cbn [app]. destruct (Z.eqb_spec c 48); [lia|].
    replace (is_digit c) with true by (unfold is_digit; symmetry; lia). change (c :: r ++ fr ++ ex ++ x) with ((c :: r) ++ fr ++ ex ++ x).
    rewrite span_numerals; [reflexivity|constructor; [unfold numeral; lia|exact Hr]|exact N0]. }
  rewrite I1.
  assert (I2 : frac_part (fr ++ ex ++ x) = (fr, ex ++ x)).
  { destruct Hf as [-> |(d & r & -> & Hr)].
    - cbn [app]. destruct (ex ++ x) as [|c w]; [reflexivity|]. cbn [frac_part]. destruct (Z.eqb_spec c 46); [destruct N1; contradiction|reflexivity].
    - cbn [app frac_part Z.eqb Pos.eqb]. change (d :: r ++ ex ++ x) with ((d :: r) ++ ex ++ x). rewrite span_numerals by (try exact Hr; exact (proj1 N1)). reflexivity. }
  rewrite I2.
  assert (I3 : exp_part (ex ++ x) = (ex, x)).
  { destruct He as [-> |(e & g & d & r & -> & He & Hg & Hr)].
    - cbn [app]. destruct x as [|c w]; [reflexivity|]. cbn [exp_part halts] in *. destruct (Z.eqb_spec c 101); [tauto|]. destruct (Z.eqb_spec c 69); [tauto|]. reflexivity.
    - cbn [app exp_part]. replace ((e =? 101) || (e =? 69)) with true by (symmetry; lia). rewrite <- app_assoc.
      assert (Hd : numeral d) by (apply Forall_cons_iff in Hr; tauto). unfold numeral in Hd.
      assert (Sp : span ((d :: r) ++ x) = (d :: r, x)) by (apply span_numerals; [exact Hr|exact (proj1 N2)]). cbn [app] in Sp.
      destruct Hg as [-> |[-> | ->]]; cbn [app].
      + replace ((d =? 45) || (d =? 43)) with false by (symmetry; lia). rewrite Sp. reflexivity.
      + cbn [Z.eqb Pos.eqb orb]. rewrite Sp. reflexivity.
      + cbn [Z.eqb Pos.eqb orb]. rewrite Sp. reflexivity. }
  rewrite I3. rewrite <- app_assoc. destruct (fr ++ ex); reflexivity.
Qed.
Lemma positive_text : forall p, exists c r, text_of_digits (Pos.to_uint p) = c :: r /\ 49 <= c <= 57 /\ Forall numeral r.
Proof.
  intros p. assert (X : Pos.to_uint p = unorm (Pos.to_uint p)).
  { rewrite <- (Unsigned.to_of (Pos.to_uint p)), Unsigned.of_to. reflexivity. }
  assert (Z0 : Pos.to_uint p <> Nil /\ forall d, Pos.to_uint p <> D0 d).
  { split; [exact (Unsigned.to_uint_nonnil p)|]. intros d E. pose proof (Unsigned.of_to p) as O. rewrite E in X, O. unfold unorm in X.
    destruct (nzhead (D0 d)) eqn:En; try discriminate X.
    - injection X as ->. discriminate O.
    - exact (nzhead_nonzero _ _ En). }
  pose proof (text_of_digits_digits (Pos.to_uint p)) as T. destruct Z0 as [Z1 Z2].
  assert (D : forall d, Forall numeral (text_of_digits d)).
  { intros d. eapply Forall_impl; [|exact (text_of_digits_digits d)]. intros a Ha. unfold digit, numeral in *. lia. }
  destruct (Pos.to_uint p) as [|d|d|d|d|d|d|d|d|d|d]; [contradiction Z1; reflexivity|destruct (Z2 d eq_refl)| | | | | | | | |];
    cbn [text_of_digits]; eexists _, _; (split; [reflexivity|]; split; [lia|apply D]).
Qed.
Lemma int_scanned : forall v x, halts x -> scan_number (str_of_int v ++ x) = Ok (JInt v, x).
Proof.
  intros v x Hx.
  assert (G : exists m i, str_of_int v = m ++ i /\ (m = [] \/ m = [45]) /\ (i = [48] \/ exists c r, i = c :: r /\ 49 <= c <= 57 /\ Forall numeral r)).
  { destruct v as [|p|p].
    - exists [], [48]. auto.
    - exists [], (text_of_digits (Pos.to_uint p)). split; [reflexivity|]. split; [auto|]. right. destruct (positive_text p) as (c & r & E & H). rewrite E. eauto.
    - exists [45], (text_of_digits (Pos.to_uint p)). split; [reflexivity|]. split; [auto|]. right. destruct (positive_text p) as (c & r & E & H). rewrite E. eauto. }
  destruct G as (m & i & E & Hm & Hi). pose proof (number_scanned m i [] [] x Hm Hi (or_introl eq_refl) (or_introl eq_refl) Hx) as N. cbn [app] in N.
  rewrite E, <- app_assoc, N, <- E, int_of_str_0. reflexivity.
Qed.
Lemma float_scanned : forall t x, decimal_text t -> halts x -> scan_number (t ++ x) = Ok (JFloat (read t), x).
Proof.
  intros t x (m & i & fr & ex & -> & Hm & Hi & Hf & He & Hn) Hx. rewrite <- !app_assoc, (number_scanned m i fr ex x Hm Hi Hf He Hx).
  destruct (fr ++ ex); [contradiction Hn; reflexivity|reflexivity].
Qed.
Lemma number_length : forall s v r, scan_number s = Ok (v, r) -> (List.length r < List.length s)%nat.
Proof.
  intros s v r E. unfold JsonTextModel.scan_number in E. destruct (int_part s) as [[i r0]|] eqn:Ei; [|discriminate E].
  destruct (frac_part r0) as [f r1] eqn:Ef. destruct (exp_part r1) as [e r2] eqn:Ee.
  assert (R : r2 = r) by (destruct (f ++ e); [destruct (int_of_text i); [|discriminate E]; cbn [bindr] in E; injection E as _ <-; reflexivity|injection E as _ <-; reflexivity]). subst r2.
  destruct (exp_length _ _ _ Ee) as (Le & _). destruct (frac_length _ _ _ Ef) as (Lf & _). pose proof (int_length _ _ _ Ei) as Li. lia.
Qed.
Lemma number_kind : forall s v r, scan_number s = Ok (v, r) -> match v with JInt _ | JFloat _ => True | _ => False end.
Proof.
  intros s v r E. unfold JsonTextModel.scan_number in E. destruct (int_part s) as [[i r0]|]; [|discriminate E]. destruct (frac_part r0) as [f r1]. destruct (exp_part r1) as [e r2].
  destruct (f ++ e); [destruct (int_of_text i); [|discriminate E]; cbn [bindr] in E|]; injection E as <- <-; exact I.
Qed.

(** ** Values *)
Lemma skip_more : forall s c r x, skip s = c :: r -> skip (s ++ x) = c :: r ++ x.
Proof.
  induction s as [|d s IH]; intros c r x E; cbn [skip app] in *; [discriminate E|]. destruct (is_space d); [exact (IH _ _ x E)|]. injection E as <- <-. reflexivity.
Qed.
Lemma skip_length : forall s, (List.length (skip s) <= List.length s)%nat.
Proof. induction s as [|d s IH]; cbn [skip]; [lia|]. destruct (is_space d); cbn [List.length] in *; lia. Qed.
Lemma skip_first : forall s c r, skip s = c :: r -> is_space c = false.
Proof. induction s as [|d s IH]; intros c r E; cbn [skip] in E; [discriminate E|]. destruct (is_space d) eqn:Ed; [exact (IH _ _ E)|]. injection E as <- _. exact Ed. Qed.
Definition closes (c : Z) : Prop := c = 44 \/ c = 93 \/ c = 125.
Lemma space_halts : forall c r, is_space c = true -> halts (c :: r).
Proof.
  intros c r H. unfold is_space in H. repeat rewrite orb_true_iff in H. rewrite !Z.eqb_eq in H. unfold halts. destruct H as [[[-> | ->] | ->] | ->]; repeat split; discriminate.
Qed.
Lemma closes_halts : forall c r, closes c -> halts (c :: r).
Proof. intros c r [-> |[-> | ->]]; cbn; repeat split; discriminate. Qed.
Lemma skip_halts : forall s c r x, skip s = c :: r -> closes c -> halts (s ++ x).
Proof.
  intros [|d s] c r x E H; cbn [skip] in E; [discriminate E|]. cbn [app]. destruct (is_space d) eqn:Ed; [exact (space_halts _ _ Ed)|]. injection E as -> _. exact (closes_halts _ _ H).
Qed.
Lemma literal_more : forall w s q x, literal w s = Some q -> literal w (s ++ x) = Some (q ++ x) /\ (List.length q + List.length w = List.length s)%nat.
Proof.
  induction w as [|a w IH]; intros s q x E; cbn [literal] in *; [injection E as <-; split; [reflexivity|cbn; lia]|]. destruct s as [|b s]; [discriminate E|]. cbn [app].
  destruct (a =? b); [|discriminate E]. destruct (IH s q x E) as [-> L]. split; [reflexivity|cbn [List.length]; lia].
Qed.
Lemma bind_ok : forall A B (r : res A) (f : A -> res B) b, bindr r f = Ok b -> exists a, r = Ok a /\ f a = Ok b.
Proof. intros A B [a|e] f b E; [exists a; auto|discriminate E]. Qed.
Definition is_number (v : json F) : Prop := match v with JInt _ | JFloat _ => True | _ => False end.

Lemma value_S : forall n c s, scan_value (S n) (c :: s) = (if c =? 34 then do '(t, q) <- scan_str s; Ok (JStr t, q)
  else if c =? 123 then match skip s with d :: q => if d =? 125 then Ok (JObj [], q) else do '(l, q) <- scan_members n (d :: q); Ok (JObj l, q) | [] => Err ValueError end
  else if c =? 91 then match skip s with d :: q => if d =? 93 then Ok (JArr [], q) else do '(l, q) <- scan_items n (d :: q); Ok (JArr l, q) | [] => Err ValueError end
  else if c =? 110 then match literal (text_of "null") (c :: s) with Some q => Ok (JNull, q) | None => Err ValueError end
  else if c =? 116 then match literal (text_of "true") (c :: s) with Some q => Ok (JBool true, q) | None => Err ValueError end
  else if c =? 102 then match literal (text_of "false") (c :: s) with Some q => Ok (JBool false, q) | None => Err ValueError end
  else scan_number (c :: s)).
Proof. reflexivity. Qed.
Lemma items_S : forall n s, scan_items (S n) s = (do '(v, r) <- scan_value n s;
  match skip r with c :: r => if c =? 44 then do '(l, q) <- scan_items n (skip r); Ok (v :: l, q) else if c =? 93 then Ok ([v], r) else Err ValueError | [] => Err ValueError end).
Proof. reflexivity. Qed.
Lemma members_S : forall n c0 s, scan_members (S n) (c0 :: s) = (if c0 =? 34 then do '(k, r) <- scan_str s;
  match skip r with c :: r => if c =? 58 then do '(v, r) <- scan_value n (skip r);
      match skip r with c :: r => if c =? 44 then do '(l, q) <- scan_members n (skip r); Ok ((k, v) :: l, q) else if c =? 125 then Ok ([(k, v)], r) else Err ValueError
      | [] => Err ValueError end else Err ValueError | [] => Err ValueError end else Err ValueError).
Proof. reflexivity. Qed.
(** More text behind what was scanned changes nothing. *)
Lemma scan_more : forall n,
  (forall s v r, scan_value n s = Ok (v, r) -> (List.length r < List.length s)%nat /\ forall x, (is_number v -> halts (r ++ x)) -> scan_value n (s ++ x) = Ok (v, r ++ x)) /\
  (forall s l r, scan_items n s = Ok (l, r) -> (List.length r < List.length s)%nat /\ forall x, scan_items n (s ++ x) = Ok (l, r ++ x)) /\
  (forall s l r, scan_members n s = Ok (l, r) -> (List.length r < List.length s)%nat /\ forall x, scan_members n (s ++ x) = Ok (l, r ++ x)).
Proof.
  induction n as [|n (IV & II & IM)]; [split; [|split]; intros s l r E; discriminate E|]. split; [|split].
  - intros s v r E. destruct s as [|c s]; [discriminate E|]. rewrite value_S in E. cbn [app List.length]. setoid_rewrite value_S.
    destruct (c =? 34).
    { apply bind_ok in E. destruct E as ([t q] & E & E'). injection E' as <- <-. destruct (scan_str_more _ _ _ _ [] (Nat.le_refl _) E) as [_ L]. split; [lia|].
      intros x _. destruct (scan_str_more _ _ _ _ x (Nat.le_refl _) E) as [-> _]. reflexivity. }
    destruct (c =? 123).
    { pose proof (skip_length s) as Ls. destruct (skip s) as [|d q] eqn:Es; [discriminate E|]. cbn [List.length] in Ls. destruct (d =? 125) eqn:Ed.
      - injection E as <- <-. split; [lia|]. intros x _. rewrite (skip_more _ _ _ x Es), Ed. reflexivity.
      - apply bind_ok in E. destruct E as ([l q'] & E & E'). injection E' as <- <-. destruct (IM _ _ _ E) as [L M]. cbn [List.length] in L. split; [lia|].
        intros x _. rewrite (skip_more _ _ _ x Es), Ed. specialize (M x). cbn [app] in M. rewrite M. reflexivity. }
    destruct (c =? 91).
    { pose proof (skip_length s) as Ls. destruct (skip s) as [|d q] eqn:Es; [discriminate E|]. cbn [List.length] in Ls. destruct (d =? 93) eqn:Ed.
      - injection E as <- <-. split; [lia|]. intros x _. rewrite (skip_more _ _ _ x Es), Ed. reflexivity.
      - apply bind_ok in E. destruct E as ([l q'] & E & E'). injection E' as <- <-. destruct (II _ _ _ E) as [L M]. cbn [List.length] in L. split; [lia|].
        intros x _. rewrite (skip_more _ _ _ x Es), Ed. specialize (M x). cbn [app] in M. rewrite M. reflexivity. }
    destruct (c =? 110).
    { destruct (literal (text_of "null") (c :: s)) as [q|] eqn:El; [|discriminate E]. injection E as <- <-. destruct (literal_more _ _ _ [] El) as [_ L]. cbn [List.length text_of] in L.
      split; [lia|]. intros x _. destruct (literal_more _ _ _ x El) as [M _]. cbn [app] in M. rewrite M. reflexivity. }
    destruct (c =? 116).
    { destruct (literal (text_of "true") (c :: s)) as [q|] eqn:El; [|discriminate E]. injection E as <- <-. destruct (literal_more _ _ _ [] El) as [_ L]. cbn [List.length text_of] in L.
      split; [lia|]. intros x _. destruct (literal_more _ _ _ x El) as [M _]. cbn [app] in M. rewrite M. reflexivity. }
    destruct (c =? 102).
    { destruct (literal (text_of "false") (c :: s)) as [q|] eqn:El; [|discriminate E]. injection E as <- <-. destruct (literal_more _ _ _ [] El) as [_ L]. cbn [List.length text_of] in L.
      split; [lia|]. intros x _. destruct (literal_more _ _ _ x El) as [M _]. cbn [app] in M. rewrite M. reflexivity. }
    split; [exact (number_length _ _ _ E)|]. intros x Hx. refine (proj1 (number_more (c :: s) v r x E (Hx _))). exact (number_kind _ _ _ E).
  - intros s l r E. rewrite items_S in E. setoid_rewrite items_S. apply bind_ok in E. destruct E as ([v q] & E & E'). destruct (IV _ _ _ E) as [L M].
    pose proof (skip_length q) as Lq. destruct (skip q) as [|c q'] eqn:Es; [discriminate E'|]. cbn [List.length] in Lq. destruct (c =? 44) eqn:E44.
    + apply bind_ok in E'. destruct E' as ([l' q2] & E2 & E3). injection E3 as <- <-. destruct (II _ _ _ E2) as [L2 M2]. pose proof (skip_length q') as Lq'. split; [lia|].
      intros x. rewrite M by (intros _; apply (skip_halts _ _ _ x Es); left; lia). cbn [bindr]. rewrite (skip_more _ _ _ x Es), E44.
      destruct (skip q') as [|d w] eqn:Ew; [cbn [List.length] in L2; lia|]. rewrite (skip_more _ _ _ x Ew). specialize (M2 x). cbn [app] in M2. rewrite M2. reflexivity.
    + destruct (c =? 93) eqn:E93; [|discriminate E']. injection E' as <- <-. split; [lia|]. intros x.
      rewrite M by (intros _; apply (skip_halts _ _ _ x Es); right; left; lia). cbn [bindr]. rewrite (skip_more _ _ _ x Es), E44, E93. reflexivity.
  - intros s l r E. destruct s as [|c0 s]; [discriminate E|]. rewrite members_S in E. cbn [app]. setoid_rewrite members_S. destruct (c0 =? 34); [|discriminate E].
    apply bind_ok in E. destruct E as ([k q0] & E0 & E). destruct (scan_str_more _ _ _ _ [] (Nat.le_refl _) E0) as [_ L0].
    pose proof (skip_length q0) as Lq0. destruct (skip q0) as [|c1 q1] eqn:Es1; [discriminate E|]. cbn [List.length] in Lq0. destruct (c1 =? 58) eqn:E58; [|discriminate E].
    pose proof (skip_length q1) as Lq1. apply bind_ok in E. destruct E as ([v q] & E & E'). destruct (IV _ _ _ E) as [L M].
    destruct (skip q1) as [|d1 w1] eqn:Ew1; [cbn [List.length] in L; lia|].
    pose proof (skip_length q) as Lq. destruct (skip q) as [|c q'] eqn:Es; [discriminate E'|]. cbn [List.length] in Lq. destruct (c =? 44) eqn:E44.
    + apply bind_ok in E'. destruct E' as ([l' q2] & E2 & E3). injection E3 as <- <-. destruct (IM _ _ _ E2) as [L2 M2]. pose proof (skip_length q') as Lq'. cbn [List.length] in *. split; [lia|].
      intros x. destruct (scan_str_more _ _ _ _ x (Nat.le_refl _) E0) as [-> _]. cbn [bindr]. rewrite (skip_more _ _ _ x Es1), E58, (skip_more _ _ _ x Ew1).
      specialize (M x (fun _ => skip_halts _ _ _ x Es (or_introl (proj1 (Z.eqb_eq _ _) E44)))). cbn [app] in M. rewrite M. cbn [bindr]. rewrite (skip_more _ _ _ x Es), E44.
      destruct (skip q') as [|d w] eqn:Ew; [cbn [List.length] in L2; lia|]. rewrite (skip_more _ _ _ x Ew). specialize (M2 x). cbn [app] in M2. rewrite M2. reflexivity.
    + destruct (c =? 125) eqn:E125; [|discriminate E']. injection E' as <- <-. cbn [List.length] in *. split; [lia|]. intros x.
      destruct (scan_str_more _ _ _ _ x (Nat.le_refl _) E0) as [-> _]. cbn [bindr]. rewrite (skip_more _ _ _ x Es1), E58, (skip_more _ _ _ x Ew1).
      specialize (M x (fun _ => skip_halts _ _ _ x Es (or_intror (or_intror (proj1 (Z.eqb_eq _ _) E125))))). cbn [app] in M. rewrite M. cbn [bindr]. rewrite (skip_more _ _ _ x Es), E44, E125. reflexivity.
Qed.

(** ** Fuel *)
Lemma scan_mono : forall n,
  (forall s, scan_value n s <> Err OutOfFuel -> scan_value (S n) s = scan_value n s) /\
  (forall s, scan_items n s <> Err OutOfFuel -> scan_items (S n) s = scan_items n s) /\
  (forall s, scan_members n s <> Err OutOfFuel -> scan_members (S n) s = scan_members n s).
Proof.
  induction n as [|n (IV & II & IM)]; [split; [|split]; intros s E; contradiction E; reflexivity|]. split; [|split]; intros s E.
  - destruct s as [|c s]; [reflexivity|].
    rewrite value_S in E. rewrite !value_S. destruct (c =? 34); [reflexivity|]. destruct (c =? 123).
    { destruct (skip s) as [|d q]; [reflexivity|]. destruct (d =? 125); [reflexivity|]. rewrite IM; [reflexivity|]. intros X. apply E. rewrite X. reflexivity. }
    destruct (c =? 91); [|reflexivity]. destruct (skip s) as [|d q]; [reflexivity|]. destruct (d =? 93); [reflexivity|]. rewrite II; [reflexivity|]. intros X. apply E. rewrite X. reflexivity.
  - rewrite items_S in E. rewrite (items_S (S n)), (items_S n). rewrite IV by (intros X; apply E; rewrite X; reflexivity). destruct (scan_value n s) as [[v r]|]; [|reflexivity]. cbn [bindr] in *.
    destruct (skip r) as [|c r']; [reflexivity|]. destruct (c =? 44); [|reflexivity]. rewrite II; [reflexivity|]. intros X. apply E. rewrite X. reflexivity.
  - destruct s as [|c0 s]; [reflexivity|]. rewrite members_S in E. rewrite (members_S (S n)), (members_S n). destruct (c0 =? 34); [|reflexivity]. destruct (scan_str s) as [[k r]|]; [|reflexivity]. cbn [bindr] in *.
    destruct (skip r) as [|c r']; [reflexivity|]. destruct (c =? 58); [|reflexivity]. rewrite IV by (intros X; apply E; rewrite X; reflexivity).
    destruct (scan_value n (skip r')) as [[v q]|]; [|reflexivity]. cbn [bindr] in *. destruct (skip q) as [|c2 q']; [reflexivity|]. destruct (c2 =? 44); [|reflexivity].
    rewrite IM; [reflexivity|]. intros X. apply E. rewrite X. reflexivity.
Qed.
Lemma value_mono : forall n m s v, (n <= m)%nat -> scan_value n s = Ok v -> scan_value m s = Ok v.
Proof.
  intros n m s v L E. induction L as [|m L IH]; [exact E|]. rewrite (proj1 (scan_mono m)); [exact IH|]. rewrite IH. discriminate.
Qed.
Lemma items_mono : forall n m s v, (n <= m)%nat -> scan_items n s = Ok v -> scan_items m s = Ok v.
Proof.
  intros n m s v L E. induction L as [|m L IH]; [exact E|]. rewrite (proj1 (proj2 (scan_mono m))); [exact IH|]. rewrite IH. discriminate.
Qed.
Lemma members_mono : forall n m s v, (n <= m)%nat -> scan_members n s = Ok v -> scan_members m s = Ok v.
Proof.
  intros n m s v L E. induction L as [|m L IH]; [exact E|]. rewrite (proj2 (proj2 (scan_mono m))); [exact IH|]. rewrite IH. discriminate.
Qed.
Lemma str_errors : forall n s e, (List.length s <= n)%nat -> scan_str s = Err e -> e = ValueError.
Proof.
  induction n as [|n IH]; intros s e Hn E; (destruct s as [|c r]; [cbn in E; congruence|]); cbn [List.length] in *; [lia|].
  assert (G : forall k s', (List.length s' <= n)%nat -> cons_text k (scan_str s') = Err e -> e = ValueError).
  { intros k s' L X. destruct (scan_str s') as [[t q]|e'] eqn:Es; [discriminate X|]. cbn in X. injection X as <-. exact (IH _ _ L Es). }
  cbn [scan_str] in E. destruct (c =? 34); [discriminate E|]. destruct (c =? 92).
  - destruct r as [|z r]; [congruence|]. cbn [List.length] in *. destruct (z =? 117).
    + destruct r as [|a [|b [|c' [|d r]]]]; try congruence. cbn [List.length] in *. destruct (four a b c' d) as [k|]; [|congruence].
      assert (G1 : cons_text k (scan_str r) = Err e -> e = ValueError) by (apply G; lia).
      destruct ((55296 <=? k) && (k <=? 56319)); [|exact (G1 E)].
      destruct r as [|bs [|u [|a2 [|b2 [|c2 [|d2 r']]]]]]; try exact (G1 E). destruct ((bs =? 92) && (u =? 117)); [|exact (G1 E)].
      destruct (four a2 b2 c2 d2) as [m|]; [|congruence]. destruct ((56320 <=? m) && (m <=? 57343)); [|exact (G1 E)]. refine (G _ r' _ E). cbn [List.length] in *. lia.
    + destruct (unescaped z) as [k|]; [|congruence]. refine (G k r _ E). lia.
  - destruct (c <? 32); [congruence|]. refine (G c r _ E). lia.
Qed.
Lemma number_errors : forall s e, scan_number s = Err e -> e = ValueError.
Proof.
  intros s e E. unfold JsonTextModel.scan_number in E. destruct (int_part s) as [[i r0]|]; [|congruence]. destruct (frac_part r0) as [f r1]. destruct (exp_part r1) as [z r2].
  destruct (f ++ z); [|discriminate E]. unfold int_of_text in E. destruct (strip i) as [|c w]; [cbn in E; congruence|].
  assert (N : forall t e', number t = Err e' -> e' = ValueError) by (intros t e'; unfold number; destruct t; [congruence|destruct (digits_of _); congruence]).
  destruct (c =? 45); [|destruct (c =? 43)].
  - destruct (number w) eqn:En; cbn [bindr] in E; [discriminate E|]. injection E as <-. exact (N _ _ En).
  - destruct (number w) eqn:En; cbn [bindr] in E; [discriminate E|]. injection E as <-. exact (N _ _ En).
  - destruct (number (c :: w)) eqn:En; cbn [bindr] in E; [discriminate E|]. injection E as <-. exact (N _ _ En).
Qed.
Lemma scan_errors : forall n,
  (forall s e, (2 * List.length s + 1 <= n)%nat -> scan_value n s = Err e -> e = ValueError) /\
  (forall s e, (2 * List.length s + 2 <= n)%nat -> scan_items n s = Err e -> e = ValueError) /\
  (forall s e, (2 * List.length s + 2 <= n)%nat -> scan_members n s = Err e -> e = ValueError).
Proof.
  induction n as [|n (IV & II & IM)]; [split; [|split]; intros s e L; lia|]. split; [|split]; intros s e L E.
  - destruct s as [|c s]; [cbn in E; congruence|]. rewrite value_S in E. cbn [List.length] in L. destruct (c =? 34).
    { destruct (scan_str s) as [[t q]|e'] eqn:Es; cbn [bindr] in E; [discriminate E|]. injection E as <-. exact (str_errors _ _ _ (Nat.le_refl _) Es). }
    pose proof (skip_length s) as Ls. destruct (c =? 123).
    { destruct (skip s) as [|d q]; [congruence|]. destruct (d =? 125); [discriminate E|]. destruct (scan_members n (d :: q)) as [[l r]|e'] eqn:Em; cbn [bindr] in E; [discriminate E|].
      injection E as <-. refine (IM _ _ _ Em). lia. }
    destruct (c =? 91).
    { destruct (skip s) as [|d q]; [congruence|]. destruct (d =? 93); [discriminate E|]. destruct (scan_items n (d :: q)) as [[l r]|e'] eqn:Em; cbn [bindr] in E; [discriminate E|].
      injection E as <-. refine (II _ _ _ Em). lia. }
    destruct (c =? 110); [destruct (literal _ _); congruence|]. destruct (c =? 116); [destruct (literal _ _); congruence|]. destruct (c =? 102); [destruct (literal _ _); congruence|].
    exact (number_errors _ _ E).
  - rewrite items_S in E. destruct (scan_value n s) as [[v r]|e'] eqn:Ev; cbn [bindr] in E; [|injection E as <-; refine (IV _ _ _ Ev); lia].
    destruct (proj1 (scan_more n) _ _ _ Ev) as [Lv _]. pose proof (skip_length r) as Lr. destruct (skip r) as [|c q]; [congruence|]. cbn [List.length] in Lr. pose proof (skip_length q) as Lq.
    destruct (c =? 44); [|destruct (c =? 93); congruence]. destruct (scan_items n (skip q)) as [[l r2]|e'] eqn:Em; cbn [bindr] in E; [discriminate E|]. injection E as <-. refine (II _ _ _ Em). lia.
  - destruct s as [|c0 s]; [cbn in E; congruence|]. rewrite members_S in E. destruct (c0 =? 34); [|congruence]. cbn [List.length] in L.
    destruct (scan_str s) as [[k r0]|e'] eqn:Es; cbn [bindr] in E; [|injection E as <-; exact (str_errors _ _ _ (Nat.le_refl _) Es)].
    destruct (scan_str_more _ _ _ _ [] (Nat.le_refl _) Es) as [_ L0]. pose proof (skip_length r0) as Lr0. destruct (skip r0) as [|c1 q1]; [congruence|]. cbn [List.length] in Lr0.
    destruct (c1 =? 58); [|congruence]. pose proof (skip_length q1) as Lq1.
    destruct (scan_value n (skip q1)) as [[v r]|e'] eqn:Ev; cbn [bindr] in E; [|injection E as <-; refine (IV _ _ _ Ev); lia].
    destruct (proj1 (scan_more n) _ _ _ Ev) as [Lv _]. pose proof (skip_length r) as Lr. destruct (skip r) as [|c q]; [congruence|]. cbn [List.length] in Lr. pose proof (skip_length q) as Lq.
    destruct (c =? 44); [|destruct (c =? 125); congruence]. destruct (scan_members n (skip q)) as [[l r2]|e'] eqn:Em; cbn [bindr] in E; [discriminate E|]. injection E as <-. refine (IM _ _ _ Em). lia.
Qed.

(** ** Dumping *)
Section induction.
Variable P : json F -> Prop.
Hypothesis H1 : P JNull. Hypothesis H2 : forall b, P (JBool b). Hypothesis H3 : forall i, P (JInt i). Hypothesis H4 : forall f, P (JFloat f).
Hypothesis H5 : forall t, P (JStr t). Hypothesis H6 : forall l, Forall P l -> P (JArr l). Hypothesis H7 : forall l, Forall (fun e => P (snd e)) l -> P (JObj l).
Fixpoint json_induction (v : json F) : P v :=
  match v with
  | JNull => H1 | JBool b => H2 b | JInt i => H3 i | JFloat f => H4 f | JStr t => H5 t
  | JArr l => H6 l ((fix go l : Forall P l := match l with [] => Forall_nil _ | v :: r => Forall_cons _ (json_induction v) (go r) end) l)
  | JObj l => H7 l ((fix go l : Forall (fun e => P (snd e)) l := match l with [] => Forall_nil _ | e :: r => Forall_cons e (json_induction (snd e)) (go r) end) l)
  end.
End induction.

(** Sound texts, and floats that are written as decimals and read back. *)
Fixpoint sound (v : json F) : Prop :=
  match v with
  | JFloat f => decimal_text (show f) /\ read (show f) = f
  | JStr t => sound_text t
  | JArr l => fold_right (fun v p => sound v /\ p) True l
  | JObj l => fold_right (fun e p => (sound_text (fst e) /\ sound (snd e)) /\ p) True l
  | _ => True
  end.
Notation dump := (dump show).
Lemma dump_arr : forall level v l, dump level (JArr (v :: l)) =
  [91] ++ newline (S level) ++ joined (44 :: newline (S level)) (map (dump (S level)) (v :: l)) ++ newline level ++ [93].
Proof. reflexivity. Qed.
Definition member_text (level : nat) (e : text * json F) : text := dump_str (fst e) ++ [58; 32] ++ dump level (snd e).
Lemma dump_obj : forall level e l, dump level (JObj (e :: l)) =
  [123] ++ newline (S level) ++ joined (44 :: newline (S level)) (map (member_text (S level)) (e :: l)) ++ newline level ++ [125].
Proof. reflexivity. Qed.
Lemma skip_newline : forall k s, skip (newline k ++ s) = skip s.
Proof. intros k s. unfold newline. cbn [app skip]. change (is_space 10) with true. cbv iota. generalize (4 * k)%nat. intros n. induction n as [|n IH]; [reflexivity|]. cbn [repeat app skip]. exact IH. Qed.
Lemma decimal_first : forall t, decimal_text t -> exists c w, t = c :: w /\ (c = 45 \/ 48 <= c <= 57).
Proof.
  intros t (m & i & fr & ex & -> & Hm & Hi & _). destruct Hm as [-> | ->]; [|eexists _, _; split; [reflexivity|lia]].
  destruct Hi as [-> |(c & r & -> & Hc & _)]; eexists _, _; (split; [reflexivity|lia]).
Qed.
Lemma int_first : forall v, exists c w, str_of_int v = c :: w /\ (c = 45 \/ 48 <= c <= 57).
Proof.
  intros [|p|p]; [exists 48, []; split; [reflexivity|lia]| |eexists 45, _; split; [reflexivity|lia]].
  destruct (positive_text p) as (c & r & E & H & _). exists c, r. split; [exact E|lia].
Qed.
Lemma dump_first : forall v level, sound v -> exists c w, dump level v = c :: w /\ is_space c = false /\ c <> 93 /\ c <> 125.
Proof.
  assert (N : forall c, c = 45 \/ 48 <= c <= 57 -> is_space c = false /\ c <> 93 /\ c <> 125) by (intros c H; unfold is_space; lia).
  intros [| b | i | f | t | [|v l] | [|e l]] level H; try (eexists _, _; split; [reflexivity|repeat split; discriminate]).
  - destruct b; (eexists _, _; split; [reflexivity|repeat split; discriminate]).
  - destruct (int_first i) as (c & w & E & Hc). exists c, w. split; [exact E|exact (N c Hc)].
  - cbn [sound] in H. destruct (decimal_first _ (proj1 H)) as (c & w & E & Hc). exists c, w. split; [exact E|exact (N c Hc)].
Qed.
Lemma skip_dump : forall v level x, sound v -> skip (dump level v ++ x) = dump level v ++ x.
Proof. intros v level x H. destruct (dump_first v level H) as (c & w & -> & Hc & _). cbn [app skip]. rewrite Hc. reflexivity. Qed.
Lemma number_value : forall n c w v r, (c = 45 \/ 48 <= c <= 57) -> scan_number (c :: w) = Ok (v, r) -> scan_value (S n) (c :: w) = Ok (v, r).
Proof.
  intros n c w v r H E. rewrite value_S.
  replace (c =? 34) with false by (symmetry; lia). replace (c =? 123) with false by (symmetry; lia). replace (c =? 91) with false by (symmetry; lia).
  replace (c =? 110) with false by (symmetry; lia). replace (c =? 116) with false by (symmetry; lia). replace (c =? 102) with false by (symmetry; lia). exact E.
Qed.
Lemma newline_halts : forall k x, halts (newline k ++ x).
Proof. intros k x. unfold newline. cbn [app]. apply space_halts. reflexivity. Qed.
Definition scans (v : json F) : Prop := forall level x, sound v -> (is_number v -> halts x) -> exists n, scan_value n (dump level v ++ x) = Ok (v, x).
Lemma items_scanned : forall l v level x, Forall scans (v :: l) -> sound (JArr (v :: l)) ->
  exists n, scan_items n (joined (44 :: newline (S level)) (map (dump (S level)) (v :: l)) ++ newline level ++ 93 :: x) = Ok (v :: l, x).
Proof.
  induction l as [|w l IH]; intros v level x H Sd; apply Forall_cons_iff in H; destruct H as [Hv H]; cbn [sound fold_right] in Sd; destruct Sd as [Sv Sd].
  - destruct (Hv (S level) (newline level ++ 93 :: x) Sv (fun _ => newline_halts _ _)) as [n E]. exists (S n). cbn [map joined]. rewrite items_S, E. cbn [bindr].
    rewrite skip_newline. reflexivity.
  - destruct (IH w level x H Sd) as [n1 E1].
    set (rest := joined (44 :: newline (S level)) (map (dump (S level)) (w :: l)) ++ newline level ++ 93 :: x) in *.
    assert (K : skip rest = rest).
    { unfold rest. destruct (dump_first w (S level) (proj1 Sd)) as (c & u & Ew & Hc & _). destruct l as [|w2 l]; cbn [map joined]; rewrite Ew; cbn [app skip]; rewrite Hc; reflexivity. }
    destruct (Hv (S level) ((44 :: newline (S level)) ++ rest) Sv) as [n2 E2]; [intros _; apply closes_halts; left; reflexivity|].
    exists (S (Nat.max n1 n2)). rewrite items_S.
    replace (joined (44 :: newline (S level)) (map (dump (S level)) (v :: w :: l)) ++ newline level ++ 93 :: x) with (dump (S level) v ++ (44 :: newline (S level)) ++ rest)
      by (unfold rest; cbn [map joined]; rewrite <- !app_assoc; reflexivity).
    rewrite (value_mono n2 _ _ _ (Nat.le_max_r n1 n2) E2). cbn [bindr app skip]. change (is_space 44) with false. cbv iota. cbn [Z.eqb Pos.eqb].
    rewrite skip_newline, K, (items_mono n1 _ _ _ (Nat.le_max_l n1 n2) E1). reflexivity.
Qed.
Lemma members_scanned : forall l e level x, Forall (fun e => scans (snd e)) (e :: l) -> sound (JObj (e :: l)) ->
  exists n, scan_members n (joined (44 :: newline (S level)) (map (member_text (S level)) (e :: l)) ++ newline level ++ 125 :: x) = Ok (e :: l, x).
Proof.
  assert (M : forall (e : text * json F) level y n, sound_text (fst e) -> sound (snd e) -> scan_members (S n) (member_text level e ++ y) =
    (do '(v, r) <- scan_value n (dump level (snd e) ++ y);
     match skip r with c :: r => if c =? 44 then do '(l, q) <- scan_members n (skip r); Ok ((fst e, v) :: l, q) else if c =? 125 then Ok ([(fst e, v)], r) else Err ValueError
     | [] => Err ValueError end)).
  { intros e level y n S1 S2. unfold member_text, dump_str. rewrite <- !app_assoc. cbn [app]. rewrite members_S. cbn [Z.eqb Pos.eqb]. rewrite scan_escaped by exact S1. cbn [bindr skip].
    change (is_space 58) with false. cbv iota. cbn [Z.eqb Pos.eqb skip]. change (is_space 32) with true. cbv iota. rewrite skip_dump by exact S2. reflexivity. }
  induction l as [|w l IH]; intros e level x H Sd; apply Forall_cons_iff in H; destruct H as [Hv H]; cbn [sound fold_right] in Sd; destruct Sd as [[St Sv] Sd].
  - destruct (Hv (S level) (newline level ++ 125 :: x) Sv (fun _ => newline_halts _ _)) as [n E]. exists (S n). cbn [map joined]. rewrite M, E by assumption. cbn [bindr].
    rewrite skip_newline. cbn [skip]. change (is_space 125) with false. cbv iota. cbn [Z.eqb Pos.eqb]. destruct e; reflexivity.
  - destruct (IH w level x H Sd) as [n1 E1].
    set (rest := joined (44 :: newline (S level)) (map (member_text (S level)) (w :: l)) ++ newline level ++ 125 :: x) in *.
    assert (K : skip rest = rest).
    { unfold rest. destruct l as [|w2 l]; cbn [map joined]; unfold member_text at 1; unfold member_text at 1 || idtac; reflexivity. }
    destruct (Hv (S level) ((44 :: newline (S level)) ++ rest) Sv) as [n2 E2]; [intros _; apply closes_halts; left; reflexivity|].
    exists (S (Nat.max n1 n2)).
    replace (joined (44 :: newline (S level)) (map (member_text (S level)) (e :: w :: l)) ++ newline level ++ 125 :: x) with (member_text (S level) e ++ (44 :: newline (S level)) ++ rest)
      by (unfold rest; cbn [map joined]; rewrite <- !app_assoc; reflexivity).
    rewrite M by assumption. rewrite (value_mono n2 _ _ _ (Nat.le_max_r n1 n2) E2). cbn [bindr app skip]. change (is_space 44) with false. cbv iota. cbn [Z.eqb Pos.eqb].
    rewrite skip_newline, K, (members_mono n1 _ _ _ (Nat.le_max_l n1 n2) E1). destruct e; reflexivity.
Qed.
Lemma dump_scanned : forall v, scans v.
Proof.
  apply json_induction; unfold scans.
  - intros level x _ _. exists 1%nat. reflexivity.
  - intros [|] level x _ _; exists 1%nat; reflexivity.
  - intros i level x _ H. exists 1%nat. cbn [JsonTextModel.dump]. pose proof (int_scanned i x (H I)) as E. destruct (int_first i) as (c & w & Ei & Hc). rewrite Ei in *. cbn [app] in *.
    exact (number_value 0 _ _ _ _ Hc E).
  - intros f level x [S1 S2] H. exists 1%nat. cbn [JsonTextModel.dump]. pose proof (float_scanned _ x S1 (H I)) as E. rewrite S2 in E. destruct (decimal_first _ S1) as (c & w & Ei & Hc). rewrite Ei in *. cbn [app] in *.
    exact (number_value 0 _ _ _ _ Hc E).
  - intros t level x H _. exists 1%nat. cbn [JsonTextModel.dump sound] in *. unfold dump_str. rewrite <- !app_assoc. cbn [app]. rewrite value_S. cbn [Z.eqb Pos.eqb]. rewrite scan_escaped by exact H. reflexivity.
  - intros [|v l] Hl level x Sd _; [exists 1%nat; reflexivity|]. destruct (items_scanned l v level x Hl Sd) as [n E]. exists (S n). rewrite dump_arr, <- !app_assoc. cbn [app]. rewrite value_S. cbn [Z.eqb Pos.eqb].
    rewrite skip_newline. destruct (dump_first v (S level) (proj1 Sd)) as (c & u & Ev & Hc & N1 & _).
    assert (K : exists w, joined (44 :: newline (S level)) (map (dump (S level)) (v :: l)) ++ newline level ++ 93 :: x = c :: w) by (destruct l; cbn [map joined]; rewrite Ev; eexists; reflexivity).
    destruct K as [w K]. cbn [app] in *. rewrite K in *. cbn [skip]. rewrite Hc. destruct (Z.eqb_spec c 93); [contradiction|]. rewrite E. reflexivity.
  - intros [|e l] Hl level x Sd _; [exists 1%nat; reflexivity|]. destruct (members_scanned l e level x Hl Sd) as [n E]. exists (S n). rewrite dump_obj, <- !app_assoc. cbn [app]. rewrite value_S. cbn [Z.eqb Pos.eqb].
    rewrite skip_newline.
    assert (K : exists w, joined (44 :: newline (S level)) (map (member_text (S level)) (e :: l)) ++ newline level ++ 125 :: x = 34 :: w) by (destruct l; cbn [map joined]; eexists; reflexivity).
    destruct K as [w K]. cbn [app] in *. rewrite K in *. cbn [skip]. change (is_space 34) with false. cbv iota. cbn [Z.eqb Pos.eqb]. rewrite E. reflexivity.
Qed.
Lemma settled : forall n m s, (n <= m)%nat -> scan_value n s <> Err OutOfFuel -> scan_value m s = scan_value n s.
Proof. intros n m s L E. induction L as [|m L IH]; [reflexivity|]. rewrite (proj1 (scan_mono m)); [exact IH|]. rewrite IH. exact E. Qed.
Theorem loads_dump : forall v, sound v -> ~ is_number v -> json_loads read (dump 0 v) = Ok v.
Proof.
  intros v Sd N. destruct (dump_scanned v 0%nat [] Sd (fun H => False_ind _ (N H))) as [n E]. rewrite app_nil_r in E. unfold json_loads.
  replace (skip (dump 0 v)) with (dump 0 v) by (rewrite <- (app_nil_r (dump 0 v)) at 2; rewrite skip_dump by exact Sd; rewrite app_nil_r; reflexivity).
  assert (X : scan_value (2 * List.length (dump 0 v) + 1) (dump 0 v) = Ok (v, [])).
  { destruct (Nat.le_ge_cases n (2 * List.length (dump 0 v) + 1)) as [L|L]; [exact (value_mono _ _ _ _ L E)|].
    rewrite <- (settled _ _ _ L); [exact E|]. intros K. pose proof (proj1 (scan_errors _) _ _ (Nat.le_refl _) K). discriminate. }
  rewrite X. reflexivity.
Qed.
(** Nothing of an object or list that was cut off can be read. *)
Theorem loads_cut : forall v p q, sound v -> match v with JArr _ | JObj _ => True | _ => False end -> dump 0 v = p ++ q -> q <> [] -> json_loads read p = Err ValueError.
Proof.
  intros v p q Sd K E Hq. unfold json_loads. destruct p as [|c p]; [reflexivity|].
  assert (Hc : (c = 91 \/ c = 123) /\ is_space c = false).
  { destruct v as [| | | | | [|v l] | [|e l]]; try contradiction; injection E as <- _; (split; [auto|reflexivity]). }
  destruct Hc as [Hc Hs]. assert (Sk : skip (c :: p) = c :: p) by (cbn [skip]; rewrite Hs; reflexivity). rewrite Sk.
  destruct (scan_value (2 * List.length (c :: p) + 1) (c :: p)) as [[w r]|e] eqn:Ew; cbn [bindr].
  - exfalso. assert (Nw : ~ is_number w).
    { replace (2 * List.length (c :: p) + 1)%nat with (S (2 * List.length (c :: p))) in Ew by lia. rewrite value_S in Ew.
      destruct Hc as [-> | ->]; cbn [Z.eqb Pos.eqb] in Ew; (destruct (skip p) as [|d u]; [discriminate Ew|]).
      - destruct (d =? 93); [injection Ew as <- <-; intros []|]. apply bind_ok in Ew. destruct Ew as ([l u'] & _ & X). injection X as <- <-. intros [].
      - destruct (d =? 125); [injection Ew as <- <-; intros []|]. apply bind_ok in Ew. destruct Ew as ([l u'] & _ & X). injection X as <- <-. intros []. }
    pose proof (proj2 (proj1 (scan_more _) _ _ _ Ew) q (fun H => False_ind _ (Nw H))) as X. rewrite <- E in X.
    destruct (dump_scanned v 0%nat [] Sd) as [n D]; [destruct v; contradiction|]. rewrite app_nil_r in D.
    assert (Y : Ok (w, r ++ q) = Ok (v, [])).
    { destruct (Nat.le_ge_cases n (2 * List.length (c :: p) + 1)) as [L|L]; [exact (eq_trans (eq_sym X) (value_mono _ _ _ _ L D))|exact (eq_trans (eq_sym (value_mono _ _ _ _ L X)) D)]. }
    injection Y as _ Y. apply app_eq_nil in Y. tauto.
  - f_equal. refine (proj1 (scan_errors _) _ _ _ Ew). lia.
Qed.
(** Behind an object or a list only blanks may stand. *)
Theorem loads_behind : forall v x, sound v -> ~ is_number v -> json_loads read (dump 0 v ++ x) = match skip x with [] => Ok v | _ => Err ValueError end.
Proof.
  intros v x Sd N. destruct (dump_scanned v 0%nat x Sd (fun H => False_ind _ (N H))) as [n E]. unfold json_loads. rewrite skip_dump by exact Sd.
  assert (X : scan_value (2 * List.length (dump 0 v ++ x) + 1) (dump 0 v ++ x) = Ok (v, x)).
  { destruct (Nat.le_ge_cases n (2 * List.length (dump 0 v ++ x) + 1)) as [L|L]; [exact (value_mono _ _ _ _ L E)|].
    rewrite <- (settled _ _ _ L); [exact E|]. intros K. pose proof (proj1 (scan_errors _) _ _ (Nat.le_refl _) K). discriminate. }
  rewrite X. reflexivity.
Qed.
End text.
