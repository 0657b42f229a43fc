(** C202: compressed streams are expanded as their format says. *)
From Coq Require Import ZArith List Bool Lia.
From Verif Require Import PyBase CompressModel PropertiesCompress ExpandSpec ExpandProofs.
Import ListNotations.
Open Scope Z_scope.

(** A compressed section, with any number of blocks, any codes and any back references, expands to
    what its tokens mean.  [size] is the number of bytes the caller expects; a section that holds
    no more than that is expanded in full.  [fuel] bounds the tokens and is not a limit of the code. *)
Theorem C202_compressed_streams : forall (data : list Z) (ts : list token) (r : list Z) (size : option Z) (fuel : nat),
  compressed data ts -> means [] ts r ->
  match size with None => True | Some n => Z.of_nat (length r) <= n end ->
  (length ts < fuel)%nat ->
  expand fuel data size = Ok r.
Proof.
  intros data ts r size fuel C M Hs Hf. unfold expand.
  refine (stream_read data size 0 _ _ ts _ C fuel (mkE 0 (-1) (constant_huffman 0) (constant_huffman 0)) [] r 0 eq_refl (conj (Z.le_refl 0) eq_refl) Hf _ _ _ M _).
  - lia.
  - cbn [e_elements]. lia.
  - lia.
  - destruct size; exact Hs.
Qed.

(** Two streams that mean different things are different: a section has at most one meaning. *)
Theorem C202_one_meaning : forall data ts1 ts2 r1 r2,
  compressed data ts1 -> means [] ts1 r1 -> compressed data ts2 -> means [] ts2 r2 -> r1 = r2.
Proof.
  intros data ts1 ts2 r1 r2 C1 M1 C2 M2. set (fuel := S (length ts1 + length ts2)).
  pose proof (C202_compressed_streams data ts1 r1 None fuel C1 M1 I ltac:(unfold fuel; lia)) as E1.
  pose proof (C202_compressed_streams data ts2 r2 None fuel C2 M2 I ltac:(unfold fuel; lia)) as E2.
  congruence.
Qed.

(** Two blocks: three bytes 65 written with no bits at all; then, with codes of their own, the byte
    66, a copy of five bytes from two back, which overlaps itself, and the end. *)
Definition lens_c := Canonical ([0; 0; 1] ++ repeat 0 1 ++ [1]).
Definition lens_b := bits_of 5 5 ++ flat_map length_bits [0; 0; 1] ++ bits_of 2 1 ++ flat_map length_bits [1].
Definition chars_items := [Long 46; Length 2; Long 171; Length 2; Long 231; Length 2].
Definition chars_bs := [bits_of 1 0 ++ bits_of 9 46; bits_of 1 1; bits_of 1 0 ++ bits_of 9 171; bits_of 1 1; bits_of 1 0 ++ bits_of 9 231; bits_of 1 1].
Definition dist_b := bits_of 5 3 ++ flat_map length_bits [0; 1; 1].
Definition data_202 : list Z := [0; 3; 0; 0; 4; 16; 0; 0; 12; 160; 20; 255; 194; 233; 87; 57; 227; 4; 138].
Definition chars_c := Canonical (flat_map item_lengths chars_items).
Definition dist_c := Canonical [0; 1; 1].
Lemma in_range ls : forallb (fun l => (0 <=? l) && (l <=? 16)) ls = true -> Forall (fun l => 0 <= l <= 16) ls.
Proof. intros H. apply Forall_forall. intros x Hx. rewrite forallb_forall in H. specialize (H x Hx). apply andb_true_iff in H as [H1 H2]. lia. Qed.
Lemma code_case ls s L b : nth_error ls s = Some L -> (0 <? L) = true -> forallb (fun l => (0 <=? l) && (l <=? 16)) ls = true ->
  (canonical_code ls s <? 2 ^ L) = true -> bits_of (Z.to_nat L) (canonical_code ls s) = b -> coded (Canonical ls) (Z.of_nat s) b.
Proof. intros E H F K <-. apply coded_canonical; [exact E|lia|apply in_range; exact F|lia]. Qed.
Ltac code s L := apply (code_case _ s L); vm_compute; reflexivity.
Definition tokens_202 := [Byte 65; Byte 65; Byte 65; Byte 66; Copy 5 2].
Example C202_case_stream : compressed data_202 tokens_202.
Proof.
  unfold compressed, tokens_202.
  replace (data_bits data_202) with
    ((bits_of 16 3 ++ (bits_of 5 0 ++ bits_of 5 0) ++ (bits_of 9 0 ++ bits_of 9 65) ++ (bits_of 5 0 ++ bits_of 5 0))
     ++ [] ++ [] ++ [] ++ (bits_of 16 3 ++ lens_b ++ (bits_of 9 511 ++ concat chars_bs) ++ dist_b)
     ++ [false; false] ++ ([false; true] ++ ([false] ++ [])) ++ [true; false] ++ []) by (vm_compute; reflexivity).
  apply (stream_block 3 _ _ (Constant 65) (Constant 0)).
  { apply (head_of 3 (Constant 0)); [lia|constructor; lia|constructor; lia|constructor; lia]. }
  { discriminate. }
  do 3 (apply stream_token; [lia|apply token_byte; [constructor|lia]|discriminate|]).
  apply (stream_block 3 _ _ chars_c dist_c).
  { apply (head_of 3 lens_c); [lia| | |].
    - refine (length_many [0; 0; 1] 1 [1] eq_refl _ _ _ (in_range [0; 0; 1; 0; 1] eq_refl)); [lia|discriminate|reflexivity].
    - change (bits_of 9 511) with (bits_of 9 (Z.of_nat (length (flat_map item_lengths chars_items)))).
      apply (character_lengths_of lens_c chars_items chars_bs); [|split; vm_compute; reflexivity].
      assert (C2 : coded lens_c 2 (bits_of 1 0)) by code 2%nat 1. assert (C4 : coded lens_c (2 + 2) (bits_of 1 1)) by code 4%nat 1.
      unfold chars_items, chars_bs.
      repeat (apply Forall2_cons; [first [apply bits_long; [exact C2|lia] | apply ExpandSpec.bits_length; [exact C4|lia]]|]). constructor.
    - apply (distance_lengths_of [0; 1; 1]); [cbn; lia|apply in_range; reflexivity]. }
  { discriminate. }
  apply stream_token; [lia|apply token_byte; [code 66%nat 2|lia]|discriminate|].
  apply stream_token; [lia| |discriminate|].
  { apply (token_copy _ _ 5 2); [code 258%nat 2|lia|]. apply (distance_more _ 1 0); [code 1%nat 1|lia|lia]. }
  apply stream_end; [lia|code 510%nat 2|discriminate].
Qed.
Example C202_case_meaning : means [] tokens_202 [65; 65; 65; 66; 65; 66; 65; 66; 65].
Proof.
  unfold tokens_202. do 4 apply means_byte. apply (means_copy _ 5 2 [65; 66; 65; 66; 65]); [cbn; lia|reflexivity| |apply means_nothing].
  intros k Hk. cbn [length] in Hk. do 5 (destruct k as [|k]; [reflexivity|]). lia.
Qed.
Example C202_case : expand 6 data_202 (Some 9) = Ok [65; 65; 65; 66; 65; 66; 65; 66; 65].
Proof. apply (C202_compressed_streams _ _ _ _ _ C202_case_stream C202_case_meaning); cbn; lia. Qed.
Example C202_case_direct : expand 6 data_202 None = Ok [65; 65; 65; 66; 65; 66; 65; 66; 65].
Proof. vm_compute. reflexivity. Qed.

Print Assumptions C202_compressed_streams.
Print Assumptions C202_one_meaning.
