From Coq Require Import Ascii String ZArith List Bool Lia.
From Verif Require Import PyBase EmbConst PatternModel ThreadModel Utf8Model TextModel CsvModel CsvFileProofs.
Import ListNotations.
Open Scope Z_scope.

(** A row of metadata: its mark has an at sign and neither an asterisk nor a number sign. *)
Definition meta_row (row : list text) (name value : text) : Prop :=
  exists mark, row = [mark; name; value] /\ In 64 mark /\ ~ In 42 mark /\ ~ In 35 mark.
(** [value] stands in the last row of metadata that has the [name]. *)
Definition last_given (rows : list (list text)) (name value : text) : Prop :=
  exists before row after, rows = before ++ row :: after /\ meta_row row name value /\
    forall r v, In r after -> ~ meta_row r name v.

Lemma has_char_in c t : has_char c t = true <-> In c t.
Proof.
  unfold has_char. rewrite existsb_exists. split.
  - intros (x & H & E). apply Z.eqb_eq in E. subst. exact H.
  - intros H. exists c. split; [exact H|apply Z.eqb_refl].
Qed.
Lemma has_char_no c t : has_char c t = false <-> ~ In c t.
Proof. rewrite <- has_char_in. destruct (has_char c t); intuition discriminate. Qed.
Lemma text_same a b : text_eqb a b = true <-> a = b.
Proof.
  revert b. induction a as [|x a IH]; intros [|y b]; cbn [text_eqb]; try (split; discriminate); [tauto|].
  rewrite andb_true_iff, Z.eqb_eq, IH. split; [intros [-> ->]; reflexivity|intros [= -> ->]; auto].
Qed.
Lemma set_in k v d : NoDup (map fst d) -> NoDup (map fst (dict_set k v d)) /\
  forall n w, In (n, w) (dict_set k v d) <-> (n = k /\ w = v) \/ (n <> k /\ In (n, w) d).
Proof.
  induction d as [|[a b] r IH]; intros H; cbn [dict_set map fst].
  - split; [constructor; [intros []|constructor]|]. intros n w. cbn [In]. split; [intros [[= <- <-]|[]]; auto|intros [[-> ->]|[_ []]]; auto].
  - inversion H as [|x l H1 H2]; subst. destruct (text_eqb a k) eqn:E.
    + apply text_same in E as ->. split; [exact H|]. intros n w. cbn [In]. split.
      * intros [[= <- <-]|K]; [auto|]. right. split; [|auto]. intros ->. apply H1. apply (in_map fst) in K. exact K.
      * intros [[-> ->]|[N [[= -> ->]|K]]]; [auto|contradiction|auto].
    + assert (N : a <> k) by (intros ->; rewrite (proj2 (text_same k k) eq_refl) in E; discriminate).
      destruct (IH H2) as [I1 I2]. split.
      * cbn [map fst]. constructor; [|exact I1]. intros K. apply in_map_iff in K as ([n w] & En & K). cbn [fst] in En. subst n.
        apply I2 in K as [[K _]|[_ K]]; [contradiction|]. apply H1. apply (in_map fst) in K. exact K.
      * intros n w. cbn [In]. rewrite I2. split; [intros [[= <- <-]|[K|[K1 K2]]]; auto|intros [K|[K1 [[= -> ->]|K2]]]; auto].
Qed.

Section meta.
Context {C : Type} (zero : C) (float_of : text -> res C) (other : text -> Z).
Lemma row_extras row out out' : read_row zero float_of other row out = Ok out' ->
  (exists n v, meta_row row n v /\ d_extras out' = dict_set n v (d_extras out)) \/
  ((forall n v, ~ meta_row row n v) /\ d_extras out' = d_extras out).
Proof.
  unfold read_row. destruct row as [|mark cells]; [intros [= <-]; right; split; [intros n v (m & E & _); discriminate|reflexivity]|].
  destruct (has_char 42 mark) eqn:E1.
  { intros H. right. split; [intros n v (m & [= -> ->] & _ & N & _); apply has_char_in in E1; contradiction|].
    unfold read_stitch_row in H. repeat match type of H with bindr ?x _ = _ => destruct x; cbn [bindr] in H; [|discriminate] end.
    injection H as <-. reflexivity. }
  destruct (has_char 35 mark) eqn:E2.
  { intros [= <-]. right. split; [|reflexivity]. intros n v (m & [= -> ->] & _ & _ & N). apply has_char_in in E2. contradiction. }
  apply has_char_no in E1. apply has_char_no in E2.
  destruct (has_char 64 mark) eqn:E3.
  { apply has_char_in in E3. destruct cells as [|n [|v [|x r]]]; intros [= <-];
      try (right; split; [intros n' v' (m & [=] & _)|reflexivity]).
    left. exists n, v. split; [exists mark; auto|reflexivity]. }
  apply has_char_no in E3. intros H. right. split; [intros n v (m & [= -> ->] & N & _); contradiction|].
  destruct (has_char 36 mark); [|injection H as <-; reflexivity].
  unfold read_thread_row in H. match type of H with bindr ?x _ = _ => destruct x; cbn [bindr] in H; [|discriminate] end.
  injection H as <-. reflexivity.
Qed.
Lemma meta_row_same row n v n' v' : meta_row row n v -> meta_row row n' v' -> n = n' /\ v = v'.
Proof. intros (m & -> & _) (m' & [= _ <- <-] & _). auto. Qed.
Lemma rows_extras : forall rows done out out',
  NoDup (map fst (d_extras out)) -> (forall n v, In (n, v) (d_extras out) <-> last_given done n v) ->
  read_rows zero float_of other rows out = Ok out' ->
  exists rows', rows = map Ok rows' /\ NoDup (map fst (d_extras out')) /\
    forall n v, In (n, v) (d_extras out') <-> last_given (done ++ rows') n v.
Proof.
  induction rows as [|row rows IH]; intros done out out' N H E; cbn [read_rows] in E.
  - injection E as <-. exists []. rewrite app_nil_r. auto.
  - destruct row as [row|]; cbn [bindr] in E; [|discriminate].
    destruct (read_row zero float_of other row out) as [mid|] eqn:Er; cbn [bindr] in E; [|discriminate].
    assert (K : NoDup (map fst (d_extras mid)) /\ forall n v, In (n, v) (d_extras mid) <-> last_given (done ++ [row]) n v).
    { destruct (row_extras _ _ _ Er) as [(k & w & M & ->)|[M ->]].
      - destruct (set_in k w (d_extras out) N) as [N' I]. split; [exact N'|]. intros n v. rewrite I, H. split.
        + intros [[-> ->]|[Nk (b & r & a & -> & Mr & L)]].
          * exists done, row, []. split; [reflexivity|]. split; [exact M|]. intros r v [].
          * exists b, r, (a ++ [row]). rewrite <- app_assoc. split; [reflexivity|]. split; [exact Mr|].
            intros r' v' Hin M'. apply in_app_or in Hin as [Hin|[<-|[]]]; [exact (L _ _ Hin M')|].
            destruct (meta_row_same _ _ _ _ _ M M') as [-> _]. contradiction.
        + intros (b & r & a & Eb & Mr & L). destruct a as [|z a] using rev_ind.
          * apply app_inj_tail in Eb as [-> ->]. destruct (meta_row_same _ _ _ _ _ M Mr) as [-> ->]. auto.
          * clear IHa. rewrite app_comm_cons, app_assoc in Eb. apply app_inj_tail in Eb as [-> <-]. right. split.
            -- intros ->. apply (L row w); [apply in_or_app; right; left; reflexivity|exact M].
            -- exists b, r, a. split; [reflexivity|]. split; [exact Mr|]. intros r' v' Hin. apply L. apply in_or_app. auto.
      - split; [exact N|]. intros n v. rewrite H. split.
        + intros (b & r & a & -> & Mr & L). exists b, r, (a ++ [row]). rewrite <- app_assoc. split; [reflexivity|]. split; [exact Mr|].
          intros r' v' Hin. apply in_app_or in Hin as [Hin|[<-|[]]]; [exact (L _ _ Hin)|apply M].
        + intros (b & r & a & Eb & Mr & L). destruct a as [|z a] using rev_ind.
          * apply app_inj_tail in Eb as [-> ->]. exfalso. exact (M _ _ Mr).
          * clear IHa. rewrite app_comm_cons, app_assoc in Eb. apply app_inj_tail in Eb as [-> <-].
            exists b, r, a. split; [reflexivity|]. split; [exact Mr|]. intros r' v' Hin. apply L. apply in_or_app. auto. }
    destruct K as [N' H']. destruct (IH (done ++ [row]) mid out' N' H' E) as (rows' & -> & R1 & R2).
    exists (row :: rows'). split; [reflexivity|]. split; [exact R1|]. intros n v. rewrite R2, <- app_assoc. reflexivity.
Qed.
End meta.
