(** pyembroidery/ExpWriter.py and ExpReader.py. *)
From Coq Require Import ZArith List Bool.
From Verif Require Import PyBase EmbConst StreamModel HelperModel.
Import ListNotations.
Open Scope Z_scope.

(** ExpWriter.py 22-42: one pass of the loop after the quantisation. *)
Definition exp_emit (e : rel) : list Z :=
  let data := cmd_of (scmd e) in
  let dx := sx e in
  let dy := sy e in
  if data =? STITCH then [Z.land dx 0xFF; Z.land (- dy) 0xFF]
  else if data =? JUMP then [0x80; 0x04; Z.land dx 0xFF; Z.land (- dy) 0xFF]
  else if data =? TRIM then [0x80; 0x80; 0x07; 0x00]
  else if data =? COLOR_CHANGE then [0x80; 0x01; 0x00; 0x00]
  else if data =? STOP then [0x80; 0x01; 0x00; 0x00]
  else [].

(** ExpWriter.py 10-42 (the END branch is "pass": the loop continues). *)
Definition exp_write {C} (qz : C -> Z -> Z) (l : list (stitch C)) : list Z :=
  flat_map exp_emit (quantise qz 0 0 l).

(** ExpReader.py 4-36: the pattern-method calls made by the loop. *)
Fixpoint exp_read_loop (s : list Z) : list rel :=
  match s with
  | b0 :: b1 :: r =>
      if negb (b0 =? 0x80) then mkS (signed8 b0) (- signed8 b1) STITCH :: exp_read_loop r
      else
        match r with
        | c0 :: c1 :: r' =>
            let x := signed8 c0 in
            let y := - signed8 c1 in
            if b1 =? 0x80 then mkS 0 0 TRIM :: exp_read_loop r'
            else if b1 =? 0x02 then mkS x y STITCH :: exp_read_loop r'
            else if b1 =? 0x04 then mkS x y JUMP :: exp_read_loop r'
            else if b1 =? 0x01 then
              mkS 0 0 COLOR_CHANGE ::
                (if negb (x =? 0) || negb (y =? 0) then mkS x y JUMP :: exp_read_loop r'
                 else exp_read_loop r')
            else []
        | _ => []
        end
  | _ => []
  end.

(** ExpReader.py 4-41. *)
Definition exp_read (s : list Z) : list (stitch Z) :=
  apply_rel 0 0 (exp_read_loop s ++ [mkS 0 0 END]).
