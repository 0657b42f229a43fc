(** Which threads sew the stitches of a joined pattern. *)
From Coq Require Import ZArith List Bool Lia Arith.
From Verif Require Import PyBase EmbConst EncoderModel PatternModel HeapModel PatternSpec EjectProofs PatternProofs
  HeapSpec HeapProofs HeapOpsProofs JoinProofs.
Import ListNotations.
Open Scope Z_scope.

Section Colours.
Context {T C : Type}.
Notation stitch := (stitch C).

Lemma sewing_not_change (s : stitch) : is_sewing s -> ~ is_change s.
Proof.
  unfold is_sewing, is_change. cbn [In].
  intros [H|[H|[H|[]]]] [K|[K|[K|[]]]]; rewrite <- H in K; discriminate.
Qed.

Lemma in_app n f a ra n1 f1 b rb n2 f2 : @sewn_in C n f a ra n1 f1 -> sewn_in n1 f1 b rb n2 f2 ->
  sewn_in n f (a ++ b) (ra ++ rb) n2 f2.
Proof.
  intros Ha Hb. induction Ha; cbn [app].
  - exact Hb.
  - apply in_first; auto.
  - apply in_more; auto.
  - apply in_change; auto.
  - apply in_other; auto.
Qed.
Definition shift (k : Z) (r : list (stitch * Z)) := map (fun a => (fst a, snd a + k)) r.
Lemma in_shift k n f l r n' f' : @sewn_in C n f l r n' f' -> sewn_in (n + k) f l (shift k r) (n' + k) f'.
Proof.
  intros H. induction H; cbn [shift map fst snd].
  - constructor.
  - replace (n + 1 + k) with (n + k + 1) by lia. apply in_first; [assumption|].
    replace (n + k + 1) with (n + 1 + k) by lia. assumption.
  - apply in_more; assumption.
  - apply in_change; assumption.
  - apply in_other; assumption.
Qed.
Lemma no_command_calm (s : stitch) : scmd s = NO_COMMAND -> ~ is_sewing s /\ ~ is_change s.
Proof.
  intros H. unfold is_sewing, is_change. rewrite H. cbn [In]. vm_compute. split; intuition discriminate.
Qed.
Lemma in_suppressed n l r n' f' : @sewn_in C n true l r n' f' ->
  sewn_in n true (suppressed l) r n' f'.
Proof.
  intros H. remember true as f eqn:Ef. induction H; cbn [suppressed].
  - constructor.
  - assert (E : sews (scmd s) = true) by (apply sews_spec; assumption). rewrite E. apply in_first; assumption.
  - discriminate.
  - assert (E : sews (scmd s) = false).
    { destruct (sews (scmd s)) eqn:E; [|reflexivity]. apply sews_spec, sewing_not_change in E. contradiction. }
    assert (E' : changes (scmd s) = true) by (apply changes_spec; assumption). rewrite E, E', Ef.
    apply in_other; [| |apply IHsewn_in; reflexivity]; apply no_command_calm; reflexivity.
  - assert (E : sews (scmd s) = false).
    { destruct (sews (scmd s)) eqn:E; [|reflexivity]. apply sews_spec in E. contradiction. }
    assert (E' : changes (scmd s) = false).
    { destruct (changes (scmd s)) eqn:E'; [|reflexivity]. apply changes_spec in E'. contradiction. }
    rewrite E, E'. apply in_other; auto.
Qed.
Lemma in_continue n l r n' f' : @sewn_in C n true l r n' f' ->
  exists n2 f2, sewn_in (n + 1) false (suppressed l) r n2 f2.
Proof.
  intros H. remember true as f eqn:Ef. induction H; cbn [suppressed].
  - eexists _, _. constructor.
  - assert (E : sews (scmd s) = true) by (apply sews_spec; assumption). rewrite E. eexists _, _. apply in_more; eassumption.
  - discriminate.
  - assert (E : sews (scmd s) = false).
    { destruct (sews (scmd s)) eqn:E; [|reflexivity]. apply sews_spec, sewing_not_change in E. contradiction. }
    assert (E' : changes (scmd s) = true) by (apply changes_spec; assumption). rewrite E, E'.
    destruct (IHsewn_in eq_refl) as (n2 & f2 & K). exists n2, f2.
    apply in_other; [| |exact K]; apply no_command_calm; reflexivity.
  - assert (E : sews (scmd s) = false).
    { destruct (sews (scmd s)) eqn:E; [|reflexivity]. apply sews_spec in E. contradiction. }
    assert (E' : changes (scmd s) = false).
    { destruct (changes (scmd s)) eqn:E'; [|reflexivity]. apply changes_spec in E'. contradiction. }
    rewrite E, E'. destruct (IHsewn_in Ef) as (n2 & f2 & K). exists n2, f2. apply in_other; auto.
Qed.
Lemma in_count n f l r n' f' : @sewn_in C n f l r n' f' -> count_sections (n + 1) f l = n' + 1.
Proof.
  intros H. induction H; cbn [count_sections].
  - reflexivity.
  - assert (E : sews (scmd s) = true) by (apply sews_spec; assumption). rewrite E. assumption.
  - assert (E : sews (scmd s) = true) by (apply sews_spec; assumption). rewrite E. assumption.
  - assert (E : sews (scmd s) = false).
    { destruct (sews (scmd s)) eqn:E; [|reflexivity]. apply sews_spec, sewing_not_change in E. contradiction. }
    assert (E' : changes (scmd s) = true) by (apply changes_spec; assumption). rewrite E, E'. assumption.
  - assert (E : sews (scmd s) = false).
    { destruct (sews (scmd s)) eqn:E; [|reflexivity]. apply sews_spec in E. contradiction. }
    assert (E' : changes (scmd s) = false).
    { destruct (changes (scmd s)) eqn:E'; [|reflexivity]. apply changes_spec in E'. contradiction. }
    rewrite E, E'. assumption.
Qed.
Lemma in_range n f l r n' f' : @sewn_in C n f l r n' f' -> n <= n' /\
  Forall (fun a => n <= snd a <= n' /\ (f = true -> n < snd a)) r /\ (f' = false -> f = true -> n < n').
Proof.
  intros H. induction H.
  - split; [lia|]. split; [constructor|]. intros -> K. discriminate.
  - destruct IHsewn_in as (A & B & D). split; [lia|]. split.
    + constructor; [cbn; split; [lia|intros _; lia]|]. eapply Forall_impl; [|exact B]. cbn. intros a K. split; [lia|intros _; lia].
    + intros _ _. lia.
  - destruct IHsewn_in as (A & B & D). split; [lia|]. split.
    + constructor; [cbn; split; [lia|discriminate]|]. eapply Forall_impl; [|exact B]. cbn. intros a K. split; [lia|discriminate].
    + discriminate.
  - destruct IHsewn_in as (A & B & D). split; [lia|]. split.
    + eapply Forall_impl; [|exact B]. cbn. intros a [K1 K2]. split; [lia|intros _; apply K2; reflexivity].
    + intros K _. apply D; [exact K|reflexivity].
  - destruct IHsewn_in as (A & B & D). split; [lia|]. split; [exact B|exact D].
Qed.

Lemma in_calm n f (l : list stitch) : Forall (fun s => ~ is_sewing s /\ ~ is_change s) l -> sewn_in n f l [] n f.
Proof. induction 1 as [|s r [A B] Hr IH]; [constructor|]. apply in_other; assumption. Qed.
Lemma placement_calm (zero : C) dx dy x y r :
  Forall (fun s : stitch => ~ is_sewing s /\ ~ is_change s) (placement zero dx dy x y r).
Proof.
  assert (K : forall a b c, In c [MATRIX_TRANSLATE; MATRIX_SCALE; MATRIX_ROTATE] ->
            ~ is_sewing (@mkS C a b c) /\ ~ is_change (@mkS C a b c)).
  { intros a b c Hc. unfold is_sewing, is_change. cbn [scmd].
    cbn [In] in Hc. destruct Hc as [<-|[<-|[<-|[]]]]; vm_compute; split; intuition discriminate. }
  unfold placement. apply Forall_app. split; [|apply Forall_app; split].
  - destruct dx, dy; cbn; constructor; try constructor; apply K; cbn; auto.
  - destruct x; cbn; constructor; try constructor; apply K; cbn; auto.
  - destruct r; cbn; constructor; try constructor; apply K; cbn; auto.
Qed.

Definition same_thread (teq : T -> T -> bool) (a b : stitch * T) : Prop :=
  fst a = fst b /\ (snd a = snd b \/ teq (snd a) (snd b) = true).

(** The colours of a pattern followed by another: either the second goes on with the last
    thread of the first, or it starts its own list. *)
Lemma colours_joined (teq : T -> T -> bool) (sa : list stitch) ts u outa na sb t tsb outb nb ob :
  coloured (ts ++ [u]) sa outa na true -> na = Z.of_nat (length (ts ++ [u])) ->
  coloured (t :: tsb) sb outb nb ob ->
  (teq t u = true -> exists outb' n' o',
     coloured ((ts ++ [u]) ++ tsb) (sa ++ suppressed sb) (outa ++ outb') n' o' /\
     Forall2 (same_thread teq) outb outb') /\
  (forall x y, exists n' o',
     coloured ((ts ++ [u]) ++ t :: tsb) ((sa ++ [mkS x y COLOR_CHANGE]) ++ suppressed sb) (outa ++ outb) n' o').
Proof.
  intros (ra & n & Ha & Hna & Fa) Hlen (rb & m & Hb & Hnb & Fb).
  cbn [negb] in Ha.
  assert (Hn : n = Z.of_nat (length ts)) by (rewrite app_length in Hlen; cbn in Hlen; lia).
  destruct (in_range _ _ _ _ _ _ Ha) as (_ & Ra & _). destruct (in_range _ _ _ _ _ _ Hb) as (_ & Rb & _).
  assert (FA : forall more, Forall2 (fun (a : stitch * Z) (b : stitch * T) =>
      fst a = fst b /\ nth_error ((ts ++ [u]) ++ more) (Z.to_nat (snd a)) = Some (snd b)) ra outa).
  { intros more. clear - Fa. induction Fa as [|a b ra outa [A B] Fa IH]; constructor; [|exact IH].
    split; [exact A|]. rewrite nth_error_app1; [exact B|]. apply nth_error_Some. congruence. }
  split.
  - intros He.
    destruct (in_continue _ _ _ _ _ Hb) as (n2 & f2 & K). cbn in K.
    apply (in_shift n) in K. cbn in K.
    assert (FB : exists outb', Forall2 (fun (a : stitch * Z) (b : stitch * T) =>
        fst a = fst b /\ nth_error ((ts ++ [u]) ++ tsb) (Z.to_nat (snd a)) = Some (snd b)) (shift n rb) outb' /\
        Forall2 (same_thread teq) outb outb').
    { clear - Fb Rb He Hn. induction Fb as [|a b rb outb [A B] Fb IH]; [exists []; split; constructor|].
      inversion Rb as [|? ? R1 R2]; subst. destruct (IH R2) as (ob & I1 & I2). destruct R1 as [R1 R1'].
      specialize (R1' eq_refl). destruct a as [sa i], b as [sb v]. cbn in A, B, R1, R1'. subst sb.
      destruct (Z.to_nat i) as [|j] eqn:Ei.
      - assert (i = 0) by lia. subst i. cbn in B. injection B as <-.
        exists ((sa, u) :: ob). split; [|constructor; [split; cbn; auto|exact I2]].
        cbn [shift map fst snd]. constructor; [|exact I1]. cbn [fst snd]. split; [reflexivity|].
        rewrite Z.add_0_l, Nat2Z.id. rewrite <- app_assoc. rewrite nth_error_app2 by lia.
        rewrite Nat.sub_diag. reflexivity.
      - exists ((sa, v) :: ob). split; [|constructor; [split; cbn; auto|exact I2]].
        cbn [shift map fst snd]. constructor; [|exact I1]. cbn [fst snd]. split; [reflexivity|].
        replace (Z.to_nat (i + Z.of_nat (length ts))) with (length (ts ++ [u]) + j)%nat by (rewrite app_length; cbn; lia).
        rewrite nth_error_app2 by lia. replace (length (ts ++ [u]) + j - length (ts ++ [u]))%nat with j by lia.
        exact B. }
    destruct FB as (outb' & F1 & F2). exists outb', (n2 + n + 1), (negb f2). split; [|exact F2].
    exists (ra ++ shift n rb), (n2 + n). rewrite negb_involutive. split; [|split; [reflexivity|]].
    + eapply in_app; [exact Ha|]. exact K.
    + apply Forall2_app; [apply FA|exact F1].
  - intros x y. exists (m + (n + 1) + 1), ob.
    pose proof (in_shift (n + 1) _ _ _ _ _ _ (in_suppressed _ _ _ _ _ Hb)) as K.
    replace (-1 + (n + 1)) with n in K by lia.
    exists (ra ++ shift (n + 1) rb), (m + (n + 1)). split; [|split; [reflexivity|]].
    + rewrite <- app_assoc. eapply in_app; [exact Ha|]. cbn [app]. apply in_change; [|exact K].
      unfold is_change. cbn. left. reflexivity.
    + apply Forall2_app; [apply FA|].
      clear - Fb Rb Hn. induction Fb as [|a b rb outb [A B] Fb IH]; [constructor|].
      inversion Rb as [|? ? R1 R2]; subst. destruct R1 as [R1 R1']. specialize (R1' eq_refl).
      cbn [shift map]. constructor; [|exact (IH R2)]. cbn [fst snd]. split; [exact A|].
      replace (Z.to_nat (snd a + (Z.of_nat (length ts) + 1))) with (length (ts ++ [u]) + Z.to_nat (snd a))%nat
        by (rewrite app_length; cbn; lia).
      rewrite nth_error_app2 by lia.
      replace (length (ts ++ [u]) + Z.to_nat (snd a) - length (ts ++ [u]))%nat with (Z.to_nat (snd a)) by lia.
      exact B.
Qed.

Lemma coloured_calm (ts : list T) (l p : list stitch) out n :
  Forall (fun s => ~ is_sewing s /\ ~ is_change s) p ->
  coloured ts l out n true -> coloured ts (l ++ p) out n true.
Proof.
  intros Hp (r & m & H & E & F). exists r, m. split; [|split; assumption].
  rewrite <- (app_nil_r r). eapply in_app; [exact H|]. apply in_calm, Hp.
Qed.
Lemma coloured_fix (filler : Z -> T) (ts : list T) (l : list stitch) out n o :
  coloured ts l out n o -> n <= Z.of_nat (length ts) -> PatternModel.fix_color_count filler l ts = ts.
Proof.
  intros (r & m & H & E & F) Hl. unfold PatternModel.fix_color_count.
  pose proof (in_count _ _ _ _ _ _ H) as K. cbn in K. rewrite K.
  replace (Z.to_nat (m + 1 - zlen ts)) with 0%nat by (unfold zlen; lia). reflexivity.
Qed.
Lemma coloured_some (ts : list T) (l : list stitch) out n : coloured ts l out n true -> 0 < n.
Proof.
  intros (r & m & H & E & F). destruct (in_range _ _ _ _ _ _ H) as (A & _ & D).
  specialize (D eq_refl eq_refl). lia.
Qed.
End Colours.
