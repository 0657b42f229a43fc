(** Text and its UTF-8 form.  A Python str is the list of its code points.  This models the
    codec used by bytes(string, "utf8") (WriteHelper.py 116-121) and byte.decode("utf8")
    (ReadHelper.py 98-103), as RFC 3629 defines it: both reject surrogates, decoding also
    rejects overlong forms and truncated sequences. *)
From Coq Require Import ZArith List Bool.
From Verif Require Import PyBase.
Import ListNotations.
Open Scope Z_scope.

Definition surrogate (c : Z) : bool := (0xD800 <=? c) && (c <=? 0xDFFF).

(** UnicodeEncodeError is a ValueError. *)
Definition utf8_char (c : Z) : res (list Z) :=
  if c <? 0x80 then Ok [c]
  else if c <? 0x800 then Ok [0xC0 + c / 64; 0x80 + c mod 64]
  else if surrogate c then Err ValueError
  else if c <? 0x10000 then Ok [0xE0 + c / 4096; 0x80 + (c / 64) mod 64; 0x80 + c mod 64]
  else Ok [0xF0 + c / 262144; 0x80 + (c / 4096) mod 64; 0x80 + (c / 64) mod 64; 0x80 + c mod 64].
Fixpoint utf8_encode (t : list Z) : res (list Z) :=
  match t with
  | [] => Ok []
  | c :: r => do a <- utf8_char c; do b <- utf8_encode r; Ok (a ++ b)
  end.

Definition cont (b : Z) : bool := (0x80 <=? b) && (b <=? 0xBF).
Definition ocons (c : Z) (r : option (list Z)) : option (list Z) :=
  match r with Some l => Some (c :: l) | None => None end.
(** None stands for UnicodeDecodeError, which the callers turn into None. *)
Fixpoint utf8_decode (s : list Z) : option (list Z) :=
  match s with
  | [] => Some []
  | b0 :: r0 =>
      if b0 <? 0x80 then ocons b0 (utf8_decode r0)
      else if b0 <? 0xC0 then None
      else match r0 with
      | [] => None
      | b1 :: r1 =>
          if negb (cont b1) then None
          else if b0 <? 0xE0 then
            let c := (b0 - 0xC0) * 64 + (b1 - 0x80) in
            if c <? 0x80 then None else ocons c (utf8_decode r1)
          else match r1 with
          | [] => None
          | b2 :: r2 =>
              if negb (cont b2) then None
              else if b0 <? 0xF0 then
                let c := (b0 - 0xE0) * 4096 + (b1 - 0x80) * 64 + (b2 - 0x80) in
                if (c <? 0x800) || surrogate c then None else ocons c (utf8_decode r2)
              else match r2 with
              | [] => None
              | b3 :: r3 =>
                  if negb (cont b3) || (0xF5 <=? b0) then None
                  else
                    let c := (b0 - 0xF0) * 262144 + (b1 - 0x80) * 4096 + (b2 - 0x80) * 64 + (b3 - 0x80) in
                    if (c <? 0x10000) || (0x10FFFF <? c) then None else ocons c (utf8_decode r3)
              end
          end
      end
  end.
