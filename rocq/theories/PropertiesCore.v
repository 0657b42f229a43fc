(** Properties C01-C03: thread-change packing and fixed-width integers. *)
From Coq Require Import ZArith List Lia.
From Verif Require Import PyBase EmbConst FunctionsModel HelperModel BitLemmas FunctionsProofs HelperProofs.
Import ListNotations.
Open Scope Z_scope.

(** ** C01 *)
Definition in_0_254 (v : option Z) : Prop :=
  match v with None => True | Some n => 0 <= n <= 254 end.

Theorem C01_thread_change_round_trip : forall command thread needle order,
  0 <= command <= 255 -> in_0_254 thread -> in_0_254 needle -> in_0_254 order ->
  decode_embroidery_command (encode_thread_change command thread needle order)
  = (command, thread, needle, order).
Proof.
  intros command thread needle order Hc Ht Hn Ho.
  assert (F : forall v, in_0_254 v -> field_fits v /\ field_low v = v).
  { intros [v|] H; cbn in *; [|split; [exact I|reflexivity]].
    rewrite Z.mod_small by lia. split; [lia|reflexivity]. }
  destruct (F _ Ht) as [Ft Et], (F _ Hn) as [Fn En], (F _ Ho) as [Fo Eo].
  rewrite decode_encode by assumption. rewrite Et, En, Eo, Z.mod_small by lia. reflexivity.
Qed.
Print Assumptions C01_thread_change_round_trip.

Example C01_case : decode_embroidery_command (encode_thread_change COLOR_CHANGE (Some 254) None (Some 0))
  = (COLOR_CHANGE, Some 254, None, Some 0).
Proof. vm_compute. reflexivity. Qed.

(** ** C02 *)
(** The property as listed: the needle number is unaffected by the thread number. *)
Theorem C02_thread_change_refuted :
  exists command thread needle order,
    0 <= command <= 255 /\ 0 <= thread <= 255 /\
    decode_embroidery_command (encode_thread_change command (Some thread) needle order)
    = (command, None, Some 0, None) /\ needle = None /\ order = None.
Proof.
  exists COLOR_CHANGE, 255, None, None. vm_compute. repeat split; try reflexivity; discriminate.
Qed.
Print Assumptions C02_thread_change_refuted.

(** What does hold: integers of any size and sign, as long as no low byte is 255; each
    field then comes back as its low byte. Missing: low byte 255. *)
Theorem C02_thread_change_partial : forall command thread needle order,
  let not255 v := match v with None => True | Some n => n mod 256 <> 255 end in
  let low := option_map (fun n => n mod 256) in
  not255 thread -> not255 needle -> not255 order ->
  decode_embroidery_command (encode_thread_change command thread needle order)
  = (command mod 256, low thread, low needle, low order).
Proof. intros command thread needle order not255 low. exact (decode_encode command thread needle order). Qed.
Print Assumptions C02_thread_change_partial.

Example C02_case : decode_embroidery_command (encode_thread_change (-1) (Some 300) (Some (-7)) None)
  = (255, Some 44, Some 249, None).
Proof. vm_compute. reflexivity. Qed.

(** ** C03 *)
Theorem C03_unsigned_round_trip : forall v rest,
  read_int_8 (write_int_8 v ++ rest) = (Some (v mod 2 ^ 8), rest) /\
  read_int_16le (write_int_16le v ++ rest) = (Some (v mod 2 ^ 16), rest) /\
  read_int_16be (write_int_16be v ++ rest) = (Some (v mod 2 ^ 16), rest) /\
  read_int_24le (write_int_24le v ++ rest) = (Some (v mod 2 ^ 24), rest) /\
  read_int_24be (write_int_24be v ++ rest) = (Some (v mod 2 ^ 24), rest) /\
  read_int_32le (write_int_32le v ++ rest) = (Some (v mod 2 ^ 32), rest) /\
  read_int_32be (write_int_32be v ++ rest) = (Some (v mod 2 ^ 32), rest).
Proof.
  intros v rest. exact (conj (rw_8 v rest) (conj (rw_16le v rest) (conj (rw_16be v rest)
    (conj (rw_24le v rest) (conj (rw_24be v rest) (conj (rw_32le v rest) (rw_32be v rest))))))).
Qed.
Print Assumptions C03_unsigned_round_trip.

Theorem C03_written_bytes : forall v,
  Forall (fun '(l, n) => length l = n /\ bytes_ok l)
    [(write_int_8 v, 1%nat); (write_int_16le v, 2%nat); (write_int_16be v, 2%nat);
     (write_int_24le v, 3%nat); (write_int_24be v, 3%nat);
     (write_int_32le v, 4%nat); (write_int_32be v, 4%nat)].
Proof.
  intros v. unfold bytes_ok.
  repeat apply Forall_cons; try apply Forall_nil; split; try reflexivity;
    repeat apply Forall_cons; try apply Forall_nil; try apply sh8_byte; apply land_ff_byte.
Qed.
Print Assumptions C03_written_bytes.

(** The signed readings give the representative in the signed range. *)
Theorem C03_signed_representative : forall v,
  (-2^7 <= signed8 (v mod 2^8) < 2^7 /\ (signed8 (v mod 2^8) - v) mod 2^8 = 0) /\
  (-2^15 <= signed16 v < 2^15 /\ (signed16 v - v) mod 2^16 = 0) /\
  (-2^23 <= signed24 v < 2^23 /\ (signed24 v - v) mod 2^24 = 0) /\
  (-2^31 <= signed32 v < 2^31 /\ (signed32 v - v) mod 2^32 = 0).
Proof.
  intros v. split; [exact (signed8_spec v)|].
  unfold signed16, signed24, signed32. rewrite land_ffff, land_ffffff, land_ffffffff.
  repeat split;
    repeat match goal with |- context [Z.gtb ?a ?b] => destruct (Z.gtb_spec a b) end; lia.
Qed.
Print Assumptions C03_signed_representative.

Theorem C03_short_stream : forall s,
  (length s < 1 -> fst (read_int_8 s) = None /\ fst (read_sint_8 s) = None)%nat /\
  (length s < 2 -> fst (read_int_16le s) = None /\ fst (read_int_16be s) = None)%nat /\
  (length s < 3 -> fst (read_int_24le s) = None /\ fst (read_int_24be s) = None)%nat /\
  (length s < 4 -> fst (read_int_32le s) = None /\ fst (read_int_32be s) = None)%nat.
Proof.
  intros s. destruct s as [|a [|b [|c [|d s]]]]; cbn [length];
    repeat split; try reflexivity; intros; lia.
Qed.
Print Assumptions C03_short_stream.

Example C03_case : read_int_24be (write_int_24be (-2) ++ [7]) = (Some 16777214, [7])
  /\ signed24 16777214 = -2.
Proof. vm_compute. split; reflexivity. Qed.
