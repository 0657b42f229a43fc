From Coq Require Import ZArith List Lia.
From Verif Require Import PyBase HelperModel BitLemmas.
Import ListNotations.
Open Scope Z_scope.

Lemma sh8_spec : forall v k, 0 <= k -> sh8 v k = (v / 2 ^ k) mod 256.
Proof. intros v k Hk. unfold sh8. rewrite land_ff, Z.shiftr_div_pow2 by lia. reflexivity. Qed.

Lemma b8_sh8 : forall v k, b8 (sh8 v k) = sh8 v k.
Proof. intros v k. unfold b8, sh8. rewrite !land_ff. apply Z.mod_mod. lia. Qed.

Lemma signed8_spec : forall v, -128 <= signed8 (v mod 256) < 128 /\ (signed8 (v mod 256) - v) mod 256 = 0.
Proof.
  intros v. unfold signed8. pose proof (Z.mod_pos_bound v 256 ltac:(lia)).
  destruct (Z.gtb_spec (v mod 256) 127); lia.
Qed.

Lemma signed8_small : forall v, -128 <= v < 128 -> signed8 (Z.land v 0xFF) = v.
Proof.
  intros v Hv. rewrite land_ff. unfold signed8.
  destruct (Z.gtb_spec (v mod 256) 127); lia.
Qed.

Ltac rw := unfold write_int_8, write_int_16le, write_int_16be, write_int_24le, write_int_24be,
  write_int_32le, write_int_32be, read_int_8, read_int_16le, read_int_16be, read_int_24le,
  read_int_24be, read_int_32le, read_int_32be, read_sint_8;
  cbn [app firstn skipn]; rewrite ?b8_sh8, ?sh8_spec by lia;
  rewrite ?Z.shiftl_mul_pow2 by lia.

Lemma rw_8 : forall v s, read_int_8 (write_int_8 v ++ s) = (Some (v mod 2 ^ 8), s).
Proof. intros. rw. rewrite land_ff. reflexivity. Qed.
Lemma rw_s8 : forall v s, read_sint_8 (write_int_8 v ++ s) = (Some (signed8 (v mod 2 ^ 8)), s).
Proof. intros. rw. rewrite land_ff. reflexivity. Qed.

Lemma combine2 : forall v, (v / 2 ^ 0) mod 256 + (v / 2 ^ 8) mod 256 * 2 ^ 8 = v mod 2 ^ 16.
Proof. intros v. rewrite Z.pow_0_r, Z.div_1_r. lia. Qed.
Lemma combine3 : forall v, (v / 2 ^ 0) mod 256 + (v / 2 ^ 8) mod 256 * 2 ^ 8
   + (v / 2 ^ 16) mod 256 * 2 ^ 16 = v mod 2 ^ 24.
Proof. intros v. rewrite Z.pow_0_r, Z.div_1_r. lia. Qed.
Lemma combine4 : forall v, (v / 2 ^ 0) mod 256 + (v / 2 ^ 8) mod 256 * 2 ^ 8
   + (v / 2 ^ 16) mod 256 * 2 ^ 16 + (v / 2 ^ 24) mod 256 * 2 ^ 24 = v mod 2 ^ 32.
Proof. intros v. rewrite Z.pow_0_r, Z.div_1_r. lia. Qed.

Lemma rw_16le : forall v s, read_int_16le (write_int_16le v ++ s) = (Some (v mod 2 ^ 16), s).
Proof. intros. rw. rewrite <- combine2. reflexivity. Qed.
Lemma rw_16be : forall v s, read_int_16be (write_int_16be v ++ s) = (Some (v mod 2 ^ 16), s).
Proof. intros. rw. rewrite <- combine2. reflexivity. Qed.
Lemma rw_24le : forall v s, read_int_24le (write_int_24le v ++ s) = (Some (v mod 2 ^ 24), s).
Proof. intros. rw. rewrite <- combine3. reflexivity. Qed.
Lemma rw_24be : forall v s, read_int_24be (write_int_24be v ++ s) = (Some (v mod 2 ^ 24), s).
Proof. intros. rw. rewrite <- combine3. reflexivity. Qed.
Lemma rw_32le : forall v s, read_int_32le (write_int_32le v ++ s) = (Some (v mod 2 ^ 32), s).
Proof. intros. rw. rewrite <- combine4. reflexivity. Qed.
Lemma rw_32be : forall v s, read_int_32be (write_int_32be v ++ s) = (Some (v mod 2 ^ 32), s).
Proof. intros. rw. rewrite <- combine4. reflexivity. Qed.

Lemma sh8_byte : forall v k, byte_ok (sh8 v k).
Proof. intros. apply land_ff_byte. Qed.
