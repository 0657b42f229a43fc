(** pyembroidery/WriteHelper.py and pyembroidery/ReadHelper.py: fixed-width integers.
    Writers return the bytes they append to the stream; readers take the remaining
    stream content and return the value (None at end of file) and the rest. *)
From Coq Require Import ZArith List.
From Verif Require Import PyBase.
Import ListNotations.
Open Scope Z_scope.

Definition sh8 (v k : Z) : Z := Z.land (Z.shiftr v k) 0xFF.

(* WriteHelper.py 16-24 *)
Definition write_int_8 (v : Z) : list Z := [Z.land v 0xFF].
(* WriteHelper.py 27-36 *)
Definition write_int_16le (v : Z) : list Z := [sh8 v 0; sh8 v 8].
(* WriteHelper.py 39-48 *)
Definition write_int_16be (v : Z) : list Z := [sh8 v 8; sh8 v 0].
(* WriteHelper.py 51-61 *)
Definition write_int_24le (v : Z) : list Z := [sh8 v 0; sh8 v 8; sh8 v 16].
(* WriteHelper.py 64-74 *)
Definition write_int_24be (v : Z) : list Z := [sh8 v 16; sh8 v 8; sh8 v 0].
(* WriteHelper.py 77-88 *)
Definition write_int_32le (v : Z) : list Z := [sh8 v 0; sh8 v 8; sh8 v 16; sh8 v 24].
(* WriteHelper.py 91-102 *)
Definition write_int_32be (v : Z) : list Z := [sh8 v 24; sh8 v 16; sh8 v 8; sh8 v 0].

(* ReadHelper.py 1-5 *)
Definition signed8 (b : Z) : Z := if b >? 127 then -256 + b else b.
(* ReadHelper.py 8-13 *)
Definition signed16 (v : Z) : Z :=
  let v := Z.land v 0xFFFF in if v >? 0x7FFF then -0x10000 + v else v.
(* ReadHelper.py 16-21 *)
Definition signed24 (v : Z) : Z :=
  let v := Z.land v 0xFFFFFF in if v >? 0x7FFFFF then -0x1000000 + v else v.
(* Vp3Reader.py 31-36 *)
Definition signed32 (v : Z) : Z :=
  let v := Z.land v 0xFFFFFFFF in if v >? 0x7FFFFFFF then -0x100000000 + v else v.

Definition b8 (b : Z) : Z := Z.land b 0xFF.

(* ReadHelper.py 24-29 *)
Definition read_signed (n : nat) (s : list Z) : list Z * list Z :=
  (map signed8 (firstn n s), skipn n s).
(* ReadHelper.py 32-36 *)
Definition read_sint_8 (s : list Z) : option Z * list Z :=
  match firstn 1 s with [b] => (Some (signed8 b), skipn 1 s) | _ => (None, skipn 1 s) end.
(* ReadHelper.py 39-43 *)
Definition read_int_8 (s : list Z) : option Z * list Z :=
  match firstn 1 s with [b] => (Some b, skipn 1 s) | _ => (None, skipn 1 s) end.
(* ReadHelper.py 46-50 *)
Definition read_int_16le (s : list Z) : option Z * list Z :=
  match firstn 2 s with
  | [b0; b1] => (Some (b8 b0 + Z.shiftl (b8 b1) 8), skipn 2 s)
  | _ => (None, skipn 2 s) end.
(* ReadHelper.py 53-57 *)
Definition read_int_16be (s : list Z) : option Z * list Z :=
  match firstn 2 s with
  | [b0; b1] => (Some (b8 b1 + Z.shiftl (b8 b0) 8), skipn 2 s)
  | _ => (None, skipn 2 s) end.
(* ReadHelper.py 60-64 *)
Definition read_int_24le (s : list Z) : option Z * list Z :=
  match firstn 3 s with
  | [b0; b1; b2] => (Some (b8 b0 + Z.shiftl (b8 b1) 8 + Z.shiftl (b8 b2) 16), skipn 3 s)
  | _ => (None, skipn 3 s) end.
(* ReadHelper.py 67-71 *)
Definition read_int_24be (s : list Z) : option Z * list Z :=
  match firstn 3 s with
  | [b0; b1; b2] => (Some (b8 b2 + Z.shiftl (b8 b1) 8 + Z.shiftl (b8 b0) 16), skipn 3 s)
  | _ => (None, skipn 3 s) end.
(* ReadHelper.py 74-83 *)
Definition read_int_32le (s : list Z) : option Z * list Z :=
  match firstn 4 s with
  | [b0; b1; b2; b3] =>
      (Some (b8 b0 + Z.shiftl (b8 b1) 8 + Z.shiftl (b8 b2) 16 + Z.shiftl (b8 b3) 24), skipn 4 s)
  | _ => (None, skipn 4 s) end.
(* ReadHelper.py 86-95 *)
Definition read_int_32be (s : list Z) : option Z * list Z :=
  match firstn 4 s with
  | [b0; b1; b2; b3] =>
      (Some (b8 b3 + Z.shiftl (b8 b2) 8 + Z.shiftl (b8 b1) 16 + Z.shiftl (b8 b0) 24), skipn 4 s)
  | _ => (None, skipn 4 s) end.
