(** pyembroidery/EmbFunctions.py lines 4-41: packing of thread-change commands. *)
From Coq Require Import ZArith.
From Verif Require Import EmbConst.
Open Scope Z_scope.

(** EmbFunctions.py 5-19: "if v is None: v = 0 else: v &= 0xFF; v += 1". *)
Definition enc_field (v : option Z) : Z :=
  match v with None => 0 | Some v => Z.land v 0xFF + 1 end.

(** EmbFunctions.py 4-21. *)
Definition encode_thread_change (command : Z) (thread needle order : option Z) : Z :=
  let thread := enc_field thread in
  let needle := enc_field needle in
  let order := enc_field order in
  let command := Z.land command COMMAND_MASK in
  Z.lor (Z.lor (Z.lor command (Z.shiftl order 24)) (Z.shiftl needle 16)) (Z.shiftl thread 8).

(** EmbFunctions.py 26-30: "v = command & MASK; v >>= k; v -= 1; if v == -1: v = None". *)
Definition dec_field (command mask : Z) (k : Z) : option Z :=
  let v := Z.shiftr (Z.land command mask) k - 1 in
  if v =? -1 then None else Some v.

(** EmbFunctions.py 24-41. *)
Definition decode_embroidery_command (command : Z) : Z * option Z * option Z * option Z :=
  (Z.land command COMMAND_MASK,
   dec_field command THREAD_MASK 8,
   dec_field command NEEDLE_MASK 16,
   dec_field command ORDER_MASK 24).
