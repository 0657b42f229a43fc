(** Arithmetic facts about masks and shifts on unbounded integers. *)
From Coq Require Import ZArith List Lia.
From Verif Require Import PyBase.
Import ListNotations.
Open Scope Z_scope.

Ltac Zify.zify_post_hook ::= Z.div_mod_to_equations.

Lemma land_ff : forall v, Z.land v 0xFF = v mod 256.
Proof. intros v. change 0xFF with (Z.ones 8). rewrite Z.land_ones by lia. reflexivity. Qed.

Lemma land_ffff : forall v, Z.land v 0xFFFF = v mod 65536.
Proof. intros v. change 0xFFFF with (Z.ones 16). rewrite Z.land_ones by lia. reflexivity. Qed.

Lemma land_ffffff : forall v, Z.land v 0xFFFFFF = v mod 16777216.
Proof. intros v. change 0xFFFFFF with (Z.ones 24). rewrite Z.land_ones by lia. reflexivity. Qed.

Lemma land_ffffffff : forall v, Z.land v 0xFFFFFFFF = v mod 4294967296.
Proof. intros v. change 0xFFFFFFFF with (Z.ones 32). rewrite Z.land_ones by lia. reflexivity. Qed.

Lemma shiftr_mask : forall v k, 0 <= k ->
  Z.shiftr (Z.land v (Z.shiftl 0xFF k)) k = (v / 2 ^ k) mod 256.
Proof.
  intros v k Hk. rewrite Z.shiftr_land, Z.shiftr_shiftl_l by lia.
  replace (k - k) with 0 by lia. rewrite Z.shiftl_0_r, land_ff, Z.shiftr_div_pow2 by lia.
  reflexivity.
Qed.

(** Or-ing a value below 2^k with a value shifted by k is addition. *)
Lemma lor_shiftl_add : forall a b k, 0 <= k -> 0 <= a < 2 ^ k ->
  Z.lor a (Z.shiftl b k) = a + b * 2 ^ k.
Proof.
  intros a b k Hk Ha.
  assert (Hl : Z.land a (Z.shiftl b k) = 0).
  { apply Z.bits_inj'. intros n Hn. rewrite Z.land_spec, Z.bits_0.
    destruct (Z.ltb_spec n k) as [Hlt|Hge].
    - rewrite (Z.shiftl_spec_low b k n Hlt), Bool.andb_false_r. reflexivity.
    - replace a with (a mod 2 ^ k) by (apply Z.mod_small; lia).
      rewrite Z.mod_pow2_bits_high by lia. reflexivity. }
  rewrite <- Z.lxor_lor by exact Hl.
  rewrite <- Z.add_nocarry_lxor by exact Hl.
  rewrite Z.shiftl_mul_pow2 by lia. reflexivity.
Qed.

Lemma land_ff_byte : forall v, byte_ok (Z.land v 0xFF).
Proof. intros v. rewrite land_ff. unfold byte_ok. apply Z.mod_pos_bound. lia. Qed.
