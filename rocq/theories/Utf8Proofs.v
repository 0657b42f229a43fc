From Coq Require Import ZArith List Bool Lia.
From Verif Require Import PyBase Utf8Model BitLemmas.
Import ListNotations.
Open Scope Z_scope.

(** A code point that is not a surrogate. *)
Definition scalar (c : Z) : Prop := 0 <= c <= 0x10FFFF /\ ~ (0xD800 <= c <= 0xDFFF).
Definition ascii (c : Z) : Prop := 0 <= c < 0x80.

Ltac dec H := match goal with
  | |- context [?a <? ?b] => destruct (Z.ltb_spec a b) as [H|H]
  | |- context [?a <=? ?b] => destruct (Z.leb_spec a b) as [H|H]
  end.

Lemma utf8_char_decode c r : scalar c -> exists a, utf8_char c = Ok a /\ bytes_ok a /\
  utf8_decode (a ++ r) = ocons c (utf8_decode r).
Proof.
  intros [Hc Hs]. unfold utf8_char.
  assert (Es : surrogate c = false).
  { unfold surrogate. destruct (Z.leb_spec 0xD800 c), (Z.leb_spec c 0xDFFF); try reflexivity. lia. }
  rewrite Es.
  assert (K : forall v, cont (0x80 + v mod 64) = true).
  { intros v. unfold cont. pose proof (Z.mod_pos_bound v 64 ltac:(lia)).
    destruct (Z.leb_spec 0x80 (0x80 + v mod 64)), (Z.leb_spec (0x80 + v mod 64) 0xBF); try reflexivity; lia. }
  destruct (Z.ltb_spec c 0x80) as [H1|H1]; [|destruct (Z.ltb_spec c 0x800) as [H2|H2];
    [|destruct (Z.ltb_spec c 0x10000) as [H3|H3]]].
  - eexists. split; [reflexivity|]. split; [constructor; [unfold byte_ok; lia|constructor]|].
    cbn [app utf8_decode]. destruct (Z.ltb_spec c 0x80); [reflexivity|lia].
  - eexists. split; [reflexivity|]. split.
    { repeat (apply Forall_cons || apply Forall_nil); unfold byte_ok; lia. }
    cbn [app utf8_decode]. rewrite K.
    destruct (Z.ltb_spec (0xC0 + c / 64) 0x80); [lia|]. destruct (Z.ltb_spec (0xC0 + c / 64) 0xC0); [lia|].
    cbn [negb]. destruct (Z.ltb_spec (0xC0 + c / 64) 0xE0); [|lia].
    replace ((0xC0 + c / 64 - 0xC0) * 64 + (0x80 + c mod 64 - 0x80)) with c by lia.
    cbv zeta. destruct (Z.ltb_spec c 0x80); [lia|reflexivity].
  - eexists. split; [reflexivity|]. split.
    { repeat (apply Forall_cons || apply Forall_nil); unfold byte_ok; lia. }
    cbn [app utf8_decode]. rewrite !K.
    destruct (Z.ltb_spec (0xE0 + c / 4096) 0x80); [lia|]. destruct (Z.ltb_spec (0xE0 + c / 4096) 0xC0); [lia|].
    cbn [negb]. destruct (Z.ltb_spec (0xE0 + c / 4096) 0xE0); [lia|].
    destruct (Z.ltb_spec (0xE0 + c / 4096) 0xF0); [|lia].
    replace ((0xE0 + c / 4096 - 0xE0) * 4096 + (0x80 + (c / 64) mod 64 - 0x80) * 64 + (0x80 + c mod 64 - 0x80)) with c by lia.
    cbv zeta. rewrite Es. destruct (Z.ltb_spec c 0x800); [lia|reflexivity].
  - eexists. split; [reflexivity|]. split.
    { repeat (apply Forall_cons || apply Forall_nil); unfold byte_ok; lia. }
    cbn [app utf8_decode]. rewrite !K.
    destruct (Z.ltb_spec (0xF0 + c / 262144) 0x80); [lia|]. destruct (Z.ltb_spec (0xF0 + c / 262144) 0xC0); [lia|].
    cbn [negb]. destruct (Z.ltb_spec (0xF0 + c / 262144) 0xE0); [lia|].
    destruct (Z.ltb_spec (0xF0 + c / 262144) 0xF0); [lia|].
    destruct (Z.leb_spec 0xF5 (0xF0 + c / 262144)); [lia|]. cbn [orb].
    replace ((0xF0 + c / 262144 - 0xF0) * 262144 + (0x80 + (c / 4096) mod 64 - 0x80) * 4096
             + (0x80 + (c / 64) mod 64 - 0x80) * 64 + (0x80 + c mod 64 - 0x80)) with c by lia.
    cbv zeta. destruct (Z.ltb_spec c 0x10000); [lia|]. destruct (Z.ltb_spec 0x10FFFF c); [lia|]. reflexivity.
Qed.

Lemma utf8_round_trip t : Forall scalar t -> exists s, utf8_encode t = Ok s /\ bytes_ok s /\ utf8_decode s = Some t.
Proof.
  induction 1 as [|c r Hc _ (s & E & B & D)]; [exists []; split; [reflexivity|split; [constructor|reflexivity]]|].
  destruct (utf8_char_decode c s Hc) as (a & Ea & Ba & Da).
  exists (a ++ s). cbn [utf8_encode]. rewrite Ea, E. cbn [bindr]. split; [reflexivity|].
  split; [apply Forall_app; split; assumption|]. rewrite Da, D. reflexivity.
Qed.
Lemma utf8_ascii t : Forall ascii t -> utf8_encode t = Ok t /\ utf8_decode t = Some t.
Proof.
  induction 1 as [|c r Hc _ [E D]]; [split; reflexivity|].
  cbn [utf8_encode utf8_decode]. unfold utf8_char. destruct (Z.ltb_spec c 0x80); [|unfold ascii in Hc; lia].
  cbn [bindr]. rewrite E, D. split; reflexivity.
Qed.
Lemma ascii_scalar c : ascii c -> scalar c.
Proof. unfold ascii, scalar. lia. Qed.
