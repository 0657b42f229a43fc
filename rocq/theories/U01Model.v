(** pyembroidery/U01Writer.py and U01Reader.py: the stitch data (the header is 0x100
    bytes that the reader skips). *)
From Coq Require Import ZArith List Bool.
From Verif Require Import PyBase EmbConst StreamModel FunctionsModel.
Import ListNotations.
Open Scope Z_scope.

(** U01Writer.py 50-56. *)
Definition u01_base (dx dy : Z) : Z :=
  let cmd := 0x80 in
  let cmd := if dy >=? 0 then Z.lor cmd 0x40 else cmd in
  if dx <=? 0 then Z.lor cmd 0x20 else cmd.

(** U01Writer.py 44-90: the loop after the quantisation, with the two trigger flags. *)
Fixpoint u01_loop (fast slow : bool) (l : list rel) : res (list Z) :=
  match l with
  | [] => Ok [0xF8; 0; 0]
  | e :: r =>
      let data := cmd_of (scmd e) in
      let dx := sx e in
      let dy := sy e in
      let out f s cmd :=
        do h <- py_bytearray [cmd; Z.abs dy; Z.abs dx];
        do t <- u01_loop f s r;
        Ok (h ++ t) in
      let cmd := u01_base dx dy in
      if data =? SLOW then u01_loop fast true r
      else if data =? FAST then u01_loop true slow r
      else if data =? STITCH then
        let cmd := if fast then Z.lor cmd 0x02 else cmd in
        let cmd := if slow then Z.lor cmd 0x04 else cmd in
        out false false cmd
      else if data =? JUMP then
        let cmd := if fast then Z.lor cmd 0x02 else cmd in
        let cmd := if slow then Z.lor cmd 0x04 else cmd in
        let cmd := Z.lor cmd 0x01 in
        out false false cmd
      else if data =? STOP then out fast slow (Z.lor cmd 0x08)
      else if data =? TRIM then out fast slow (Z.lor cmd 0x07)
      else if data =? NEEDLE_SET then
        match decode_embroidery_command (scmd e) with
        | (_, _, None, _) => Err TypeError        (* None >= 15 *)
        | (_, _, Some needle, _) =>
            let needle := if needle >=? 15 then needle mod 15 + 1 else needle in
            out fast slow (Z.lor cmd 0x08 + needle)
        end
      else if data =? END then Ok [0xF8; 0; 0]
      else u01_loop fast slow r
  end.

Definition u01_body {C} (qz : C -> Z -> Z) (l : list (stitch C)) : res (list Z) :=
  u01_loop false false (quantise qz 0 0 l).

(** U01Reader.py 7-82: the pattern-method calls made by the loop. *)
Fixpoint u01_read_loop (s : list Z) : list rel :=
  match s with
  | ctrl :: b1 :: b2 :: r =>
      let dy := - b1 in
      let dx := b2 in
      let dx := if negb (Z.land ctrl 0x20 =? 0) then - dx else dx in
      let dy := if negb (Z.land ctrl 0x40 =? 0) then - dy else dy in
      let command := Z.land ctrl 31 in
      let then_ c :=
        if negb (dx =? 0) || negb (dy =? 0) then mkS dx dy c :: u01_read_loop r
        else u01_read_loop r in
      if command =? 0x0 then mkS dx dy STITCH :: u01_read_loop r
      else if command =? 0x01 then mkS dx dy JUMP :: u01_read_loop r
      else if command =? 0x02 then mkS 0 0 FAST :: then_ STITCH
      else if command =? 0x03 then mkS 0 0 FAST :: then_ JUMP
      else if command =? 0x04 then mkS 0 0 SLOW :: then_ STITCH
      else if command =? 0x05 then mkS 0 0 SLOW :: then_ JUMP
      else if command =? 0x06 then mkS 0 0 TRIM :: then_ JUMP
      else if command =? 0x07 then mkS 0 0 TRIM :: then_ JUMP
      else if command =? 0x08 then mkS 0 0 STOP :: then_ JUMP
      else if (0x09 <=? command) && (command <=? 0x17) then
        mkS 0 0 (encode_thread_change NEEDLE_SET None (Some (command - 0x08)) None) :: then_ JUMP
      else []
  | _ => []
  end.

(** U01Reader.py 4-83. *)
Definition u01_read (s : list Z) : list (stitch Z) :=
  apply_rel 0 0 (u01_read_loop s ++ [mkS 0 0 END]).
