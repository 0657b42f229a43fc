From Coq Require Import Ascii String Decimal DecimalPos DecimalZ ZArith List Bool Lia.
From Verif Require Import PyBase ThreadModel TextModel.
Import ListNotations.
Open Scope Z_scope.

Lemma digits_round_trip d : digits_of (text_of_digits d) = Some d.
Proof. induction d; cbn [text_of_digits digits_of]; [reflexivity|rewrite IHd; reflexivity..]. Qed.

Definition digit (c : Z) : Prop := 48 <= c <= 57.
Lemma text_of_digits_digits d : Forall digit (text_of_digits d).
Proof. induction d; cbn [text_of_digits]; constructor; try assumption; unfold digit; lia. Qed.

Lemma to_int_nonnil v : match Z.to_int v with Pos d => d <> Nil | Neg d => d <> Nil end.
Proof.
  destruct v as [|p|p]; cbn [Z.to_int].
  - discriminate.
  - apply DecimalPos.Unsigned.to_uint_nonnil.
  - apply DecimalPos.Unsigned.to_uint_nonnil.
Qed.

Lemma text_of_digits_nonnil d : d <> Nil -> exists c r, text_of_digits d = c :: r /\ digit c.
Proof. destruct d; [congruence|..]; intros _; eexists; eexists; (split; [reflexivity|unfold digit; lia]). Qed.

(** Every character of str(v) is a digit or the minus sign. *)
Definition number_char (c : Z) : Prop := c = 45 \/ digit c.
Lemma str_of_int_chars v : Forall number_char (str_of_int v).
Proof.
  unfold str_of_int. destruct (Z.to_int v).
  - eapply Forall_impl; [|apply text_of_digits_digits]. intros a Ha; right; exact Ha.
  - constructor; [left; reflexivity|]. eapply Forall_impl; [|apply text_of_digits_digits]. intros a Ha; right; exact Ha.
Qed.
Lemma str_of_int_nonnil v : str_of_int v <> [].
Proof.
  unfold str_of_int. pose proof (to_int_nonnil v) as H. destruct (Z.to_int v) as [d|d]; [|discriminate].
  destruct (text_of_digits_nonnil d H) as (c & r & E & _). rewrite E. discriminate.
Qed.

Lemma blank_number c : number_char c -> blank c = false.
Proof.
  unfold number_char, digit, blank. intros H.
  destruct (Z.leb_spec 9 c), (Z.leb_spec c 13), (Z.leb_spec 28 c), (Z.leb_spec c 32); cbn; try reflexivity; lia.
Qed.
Lemma drop_blanks_head c r : blank c = false -> drop_blanks (c :: r) = c :: r.
Proof. intros H. cbn [drop_blanks]. rewrite H. reflexivity. Qed.
Lemma drop_blanks_app a r : Forall (fun c => blank c = true) a -> drop_blanks (a ++ r) = drop_blanks r.
Proof. induction 1 as [|c l Hc _ IH]; [reflexivity|]. cbn [app drop_blanks]. rewrite Hc. exact IH. Qed.

Lemma strip_trailing t b : t <> [] -> Forall number_char t -> Forall (fun c => blank c = true) b ->
  strip (t ++ b) = t.
Proof.
  intros Hn Ht Hb. unfold strip.
  assert (E : drop_blanks (t ++ b) = t ++ b).
  { destruct t as [|c r]; [congruence|]. cbn [app]. apply drop_blanks_head. apply blank_number. inversion Ht; assumption. }
  rewrite E, rev_app_distr, drop_blanks_app by (apply Forall_rev; exact Hb).
  assert (E2 : drop_blanks (rev t) = rev t).
  { pose proof (Forall_rev Ht) as Hr. destruct (rev t) as [|c r]; [reflexivity|].
    apply drop_blanks_head. apply blank_number. inversion Hr; assumption. }
  rewrite E2, rev_involutive. reflexivity.
Qed.

Lemma number_digits d : d <> Nil -> number (text_of_digits d) = Ok (Z.of_uint d).
Proof.
  intros H. unfold number. destruct (text_of_digits_nonnil d H) as (c & r & E & _). rewrite E, <- E, digits_round_trip. reflexivity.
Qed.

Lemma int_of_str v b : Forall (fun c => blank c = true) b -> int_of_text (str_of_int v ++ b) = Ok v.
Proof.
  intros Hb. unfold int_of_text. rewrite strip_trailing; [|apply str_of_int_nonnil|apply str_of_int_chars|exact Hb].
  pose proof (DecimalZ.of_to v) as R. pose proof (to_int_nonnil v) as N. unfold str_of_int.
  destruct (Z.to_int v) as [d|d]; cbn [Z.of_int] in R.
  - destruct (text_of_digits_nonnil d N) as (c & r & E & Hc). rewrite E.
    destruct (Z.eqb_spec c 45); [unfold digit in Hc; lia|]. destruct (Z.eqb_spec c 43); [unfold digit in Hc; lia|].
    rewrite <- E, number_digits, R by exact N. reflexivity.
  - rewrite Z.eqb_refl, number_digits by exact N. cbn [bindr]. rewrite R. reflexivity.
Qed.
Lemma int_of_str_0 v : int_of_text (str_of_int v) = Ok v.
Proof. rewrite <- (app_nil_r (str_of_int v)). apply int_of_str. constructor. Qed.

Lemma split_on_none sep a : ~ In sep a -> split_on sep a = [a].
Proof.
  induction a as [|c r IH]; intros H; [reflexivity|]. cbn [split_on].
  destruct (Z.eqb_spec c sep) as [->|_]; [exfalso; apply H; left; reflexivity|].
  rewrite IH by (intros K; apply H; right; exact K). reflexivity.
Qed.
Lemma split_on_first sep a r : ~ In sep a -> split_on sep (a ++ sep :: r) = a :: split_on sep r.
Proof.
  induction a as [|c q IH]; intros H; cbn [app split_on].
  - rewrite Z.eqb_refl. reflexivity.
  - destruct (Z.eqb_spec c sep) as [->|_]; [exfalso; apply H; left; reflexivity|].
    rewrite IH by (intros K; apply H; right; exact K). reflexivity.
Qed.
Lemma readline_first a r : ~ In 10 a -> readline (a ++ 10 :: r) = (a ++ [10], r).
Proof.
  induction a as [|c q IH]; intros H; cbn [app readline].
  - reflexivity.
  - destruct (Z.eqb_spec c 10) as [->|_]; [exfalso; apply H; left; reflexivity|].
    rewrite IH by (intros K; apply H; right; exact K). reflexivity.
Qed.
Lemma universal_newlines_crlf a r : ~ In 13 a ->
  universal_newlines (a ++ 13 :: 10 :: r) = a ++ 10 :: universal_newlines r.
Proof.
  induction a as [|c q IH]; intros H; cbn [app universal_newlines].
  - reflexivity.
  - destruct (Z.eqb_spec c 13) as [->|_]; [exfalso; apply H; left; reflexivity|].
    rewrite IH by (intros K; apply H; right; exact K). reflexivity.
Qed.
Lemma universal_newlines_none a : ~ In 13 a -> universal_newlines a = a.
Proof.
  induction a as [|c q IH]; intros H; cbn [universal_newlines]; [reflexivity|].
  destruct (Z.eqb_spec c 13) as [->|_]; [exfalso; apply H; left; reflexivity|].
  rewrite IH by (intros K; apply H; right; exact K). reflexivity.
Qed.

Lemma not_in_number k v : ~ number_char k -> ~ In k (str_of_int v).
Proof. intros H K. pose proof (str_of_int_chars v) as F. rewrite Forall_forall in F. exact (H (F k K)). Qed.
Ltac no_char := first [apply not_in_number; unfold number_char, digit; lia].
