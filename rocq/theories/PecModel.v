(** pyembroidery/PecWriter.py 114-187 and PecReader.py 98-157: the PEC stitch block. *)
From Coq Require Import ZArith List Bool.
From Verif Require Import PyBase EmbConst StreamModel HelperModel.
Import ListNotations.
Open Scope Z_scope.

(* PecWriter.py 18-21 *)
Definition MASK_07_BIT := 127.
Definition JUMP_CODE := 0x10.
Definition TRIM_CODE := 0x20.
Definition FLAG_LONG := 0x80.

(* PecWriter.py 114-124 *)
Definition write_value (value : Z) (long : bool) (flag : Z) : list Z :=
  if negb long && ((-64 <? value) && (value <? 63)) then [Z.land value MASK_07_BIT]
  else
    let value := Z.land value 4095 in
    let value := Z.lor value 32768 in
    let value := Z.lor value (Z.shiftl flag 8) in
    [Z.land (Z.shiftr value 8) 0xFF; Z.land value 0xFF].

(* PecWriter.py 127-129 *)
Definition write_trimjump (dx dy : Z) : list Z :=
  write_value dx true TRIM_CODE ++ write_value dy true TRIM_CODE.
(* PecWriter.py 132-134 *)
Definition write_jump (dx dy : Z) : list Z :=
  write_value dx true JUMP_CODE ++ write_value dy true JUMP_CODE.
(* PecWriter.py 137-140; GROUP_LONG is False (line 25) *)
Definition write_stitch (dx dy : Z) : list Z :=
  write_value dx false 0 ++ write_value dy false 0.

(** PecWriter.py 158-187: the loop after the quantisation. *)
Fixpoint pec_loop (color_two jumping init : bool) (l : list rel) : list Z :=
  match l with
  | [] => []
  | e :: r =>
      let data := cmd_of (scmd e) in
      let dx := sx e in
      let dy := sy e in
      if data =? STITCH then
        (if jumping && (negb (dx =? 0) && negb (dy =? 0)) then write_stitch 0 0 else [])
        ++ write_stitch dx dy ++ pec_loop color_two false false r
      else if data =? JUMP then
        (if init then write_jump dx dy else write_trimjump dx dy)
        ++ pec_loop color_two true false r
      else if data =? COLOR_CHANGE then
        (if jumping then write_stitch 0 0 else [])
        ++ [0xfe; 0xb0] ++ (if color_two then [0x02] else [0x01])
        ++ pec_loop (negb color_two) false false r
      else if data =? END then [0xff]
      else pec_loop color_two jumping false r
  end.

(** PecWriter.py 143-187. *)
Definition pec_encode {C} (qz : C -> Z -> Z) (l : list (stitch C)) : list Z :=
  pec_loop true true true (quantise qz 0 0 l).

(* PecReader.py 98-103 *)
Definition signed12 (b : Z) : Z :=
  let b := Z.land b 0xFFF in if b >? 0x7FF then -0x1000 + b else b.
(* PecReader.py 106-110 *)
Definition signed7 (b : Z) : Z := if b >? 63 then -128 + b else b.

Definition flagged (v code : Z) : bool := negb (Z.land v code =? 0).

(** PecReader.py 150-156: what is called for one decoded displacement. *)
Definition pec_calls (jump trim : bool) (x y : Z) : list rel :=
  if jump then [mkS x y JUMP]
  else if trim then [mkS 0 0 TRIM; mkS x y JUMP]
  else [mkS x y STITCH].

(** PecReader.py 113-156: the loop. *)
Fixpoint pec_read_loop (s : list Z) : list rel :=
  match s with
  | val1 :: val2 :: r =>
      if (val1 =? 0xFF) && (val2 =? 0x00) then []
      else if (val1 =? 0xFE) && (val2 =? 0xB0) then
        mkS 0 0 COLOR_CHANGE :: match r with _ :: r' => pec_read_loop r' | [] => [] end
      else if flagged val1 FLAG_LONG then
        let trim := flagged val1 TRIM_CODE in
        let jump := flagged val1 JUMP_CODE in
        let x := signed12 (Z.lor (Z.shiftl val1 8) val2) in
        match r with
        | [] => []
        | val2 :: r =>
            if flagged val2 FLAG_LONG then
              match r with
              | [] => []
              | val3 :: r =>
                  pec_calls (jump || flagged val2 JUMP_CODE) (trim || flagged val2 TRIM_CODE)
                    x (signed12 (Z.lor (Z.shiftl val2 8) val3)) ++ pec_read_loop r
              end
            else pec_calls jump trim x (signed7 val2) ++ pec_read_loop r
        end
      else
        let x := signed7 val1 in
        if flagged val2 FLAG_LONG then
          match r with
          | [] => []
          | val3 :: r =>
              pec_calls (flagged val2 JUMP_CODE) (flagged val2 TRIM_CODE)
                x (signed12 (Z.lor (Z.shiftl val2 8) val3)) ++ pec_read_loop r
          end
        else pec_calls false false x (signed7 val2) ++ pec_read_loop r
  | _ => []
  end.

(** PecReader.py 113-157. *)
Definition pec_read (s : list Z) : list (stitch Z) :=
  apply_rel 0 0 (pec_read_loop s ++ [mkS 0 0 END]).
