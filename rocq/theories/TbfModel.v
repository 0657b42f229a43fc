(** pyembroidery/TbfWriter.py and TbfReader.py: the thread-order table and the stitch data. *)
From Coq Require Import ZArith List Bool.
From Verif Require Import PyBase EmbConst StreamModel FunctionsModel HelperModel.
Import ListNotations.
Open Scope Z_scope.

(** TbfWriter.py 58-63: the needle numbers of the NEEDLE_SET commands, in order. *)
Definition tbf_needles {C} (l : list (stitch C)) : list (option Z) :=
  map (fun s => let '(_, _, needle, _) := decode_embroidery_command (scmd s) in needle)
      (filter (fun s => cmd_of (scmd s) =? NEEDLE_SET) l).

(** TbfWriter.py 56-65: thread_order = [0] * 0x100 with the needles stored from index 0
    (IndexError beyond 256), then one write_int_8 each (TypeError for None). *)
Definition tbf_thread_order {C} (l : list (stitch C)) : res (list Z) :=
  let ns := tbf_needles l in
  if (256 <? Z.of_nat (length ns)) then Err IndexError
  else if existsb (fun n => match n with None => true | Some _ => false end) ns then Err TypeError
  else Ok (map (fun n => match n with Some n => Z.land n 0xFF | None => 0 end) ns
           ++ repeat 0 (256 - length ns)).

(** TbfWriter.py 102-122: the loop after the quantisation, and the terminal byte. *)
Fixpoint tbf_loop (l : list rel) : list Z :=
  match l with
  | [] => [0x1a]
  | e :: r =>
      let data := cmd_of (scmd e) in
      let out cmd := [Z.land (sx e) 0xFF; Z.land (- sy e) 0xFF; cmd] in
      if data =? STITCH then out 0x80 ++ tbf_loop r
      else if data =? JUMP then out 0x90 ++ tbf_loop r
      else if data =? STOP then out 0x40 ++ tbf_loop r
      else if data =? TRIM then out 0x86 ++ tbf_loop r
      else if data =? NEEDLE_SET then out 0x81 ++ tbf_loop r
      else if data =? END then out 0x8F ++ [0x1a]
      else tbf_loop r
  end.

Definition tbf_body {C} (qz : C -> Z -> Z) (l : list (stitch C)) : list Z :=
  tbf_loop (quantise qz 0 0 l).

(** TbfReader.py 22-58. [order] is the not yet used tail of thread_order (indexing
    thread_order[needle] with needle counting up); IndexError when it is used up. *)
Fixpoint tbf_read_loop (order : list Z) (s : list Z) : res (list rel) :=
  match s with
  | x :: y :: ctrl :: r =>
      if ctrl =? 0x80 then
        do t <- tbf_read_loop order r; Ok (mkS (signed8 x) (- signed8 y) STITCH :: t)
      else if ctrl =? 0x81 then
        match order with
        | [] => Err IndexError
        | n :: order =>
            do t <- tbf_read_loop order r;
            if n =? 0 then Ok (mkS 0 0 STOP :: t)
            else Ok (mkS 0 0 (encode_thread_change NEEDLE_SET None (Some n) None) :: t)
        end
      else if ctrl =? 0x90 then
        do t <- tbf_read_loop order r;
        if (x =? 0) && (y =? 0) then Ok (mkS 0 0 TRIM :: t)
        else Ok (mkS (signed8 x) (- signed8 y) JUMP :: t)
      else if ctrl =? 0x40 then do t <- tbf_read_loop order r; Ok (mkS 0 0 STOP :: t)
      else if ctrl =? 0x86 then do t <- tbf_read_loop order r; Ok (mkS 0 0 TRIM :: t)
      else Ok []
  | _ => Ok []
  end.

(** TbfReader.py 22-58 with the final out.end(). *)
Definition tbf_read (order s : list Z) : res (list (stitch Z)) :=
  do l <- tbf_read_loop order s;
  Ok (apply_rel 0 0 (l ++ [mkS 0 0 END])).
