(** pyembroidery/XxxWriter.py 64-105, 125-139 and XxxReader.py: stitch data and colours. *)
From Coq Require Import ZArith List Bool.
From Verif Require Import PyBase EmbConst StreamModel HelperModel.
Import ListNotations.
Open Scope Z_scope.

(** XxxWriter.py 76-105: the loop after the quantisation. *)
Fixpoint xxx_loop (l : list rel) : list Z :=
  match l with
  | [] => []
  | e :: r =>
      let data := cmd_of (scmd e) in
      let dx := sx e in
      let dy := sy e in
      if (data =? COLOR_CHANGE) || (data =? STOP) then
        [0x7F; 0x08] ++ write_int_8 dx ++ write_int_8 (- dy) ++ xxx_loop r
      else if data =? END then []
      else if data =? STITCH then
        if ((-124 <? dx) && (dx <? 124)) && ((-124 <? dy) && (dy <? 124)) then
          write_int_8 dx ++ write_int_8 (- dy) ++ xxx_loop r
        else [0x7D] ++ write_int_16le dx ++ write_int_16le (- dy) ++ xxx_loop r
      else if data =? TRIM then [0x7F; 0x03] ++ write_int_8 dx ++ write_int_8 (- dy) ++ xxx_loop r
      else if data =? JUMP then [0x7F; 0x01] ++ write_int_8 dx ++ write_int_8 (- dy) ++ xxx_loop r
      else xxx_loop r
  end.

(** XxxWriter.py 108-123; a thread is its 24-bit colour (get_red etc. are the bytes). *)
Definition xxx_colors (threads : list Z) : list Z :=
  [0; 0] ++ flat_map (fun c => [0; sh8 c 16; sh8 c 8; sh8 c 0]) threads
  ++ concat (repeat (write_int_32le 0) (21 - length threads))
  ++ write_int_32le 0xFFFFFF00 ++ [0; 1].

(** XxxWriter.py 130-139: everything from offset 0x100 on. *)
Definition xxx_tail {C} (qz : C -> Z -> Z) (l : list (stitch C)) (threads : list Z) : list Z :=
  xxx_loop (quantise qz 0 0 l) ++ [0x7F; 0x7F; 0x02; 0x14] ++ xxx_colors threads.

(** XxxReader.py 13-43: the loop; result: events and the rest of the stream.
    signed8(None) and signed16(None) raise TypeError in Python 3. *)
Fixpoint xxx_read_loop (s : list Z) : res (list rel * list Z) :=
  match s with
  | [] => Err TypeError                       (* b1 = b2 = None: signed8(None) *)
  | b1 :: s1 =>
      if (b1 =? 0x7D) || (b1 =? 0x7E) then
        match s1 with
        | x0 :: x1 :: y0 :: y1 :: r =>
            do '(t, q) <- xxx_read_loop r;
            Ok (mkS (signed16 (b8 x0 + Z.shiftl (b8 x1) 8))
                    (- signed16 (b8 y0 + Z.shiftl (b8 y1) 8)) JUMP :: t, q)
        | _ => Err TypeError                  (* signed16(None) *)
        end
      else
        match s1 with
        | [] => Err TypeError                 (* signed8(None), or reads None and loops to it *)
        | b2 :: r =>
            if negb (b1 =? 0x7F) then
              do '(t, q) <- xxx_read_loop r;
              Ok (mkS (signed8 b1) (- signed8 b2) STITCH :: t, q)
            else
              match r with
              | b3 :: b4 :: r' =>
                  if b2 =? 0x01 then
                    do '(t, q) <- xxx_read_loop r';
                    Ok (mkS (signed8 b3) (- signed8 b4) JUMP :: t, q)
                  else if b2 =? 0x03 then
                    do '(t, q) <- xxx_read_loop r';
                    let x := signed8 b3 in
                    let y := - signed8 b4 in
                    if negb (x =? 0) || negb (y =? 0)
                    then Ok (mkS 0 0 TRIM :: mkS x y JUMP :: t, q)
                    else Ok (mkS 0 0 TRIM :: t, q)
                  else if (b2 =? 0x08) || ((0x0A <=? b2) && (b2 <=? 0x17)) then
                    do '(t, q) <- xxx_read_loop r';
                    Ok (mkS 0 0 COLOR_CHANGE :: t, q)
                  else if b2 =? 0x7F then Ok ([], r')
                  else if b2 =? 0x18 then Ok ([], r')
                  else xxx_read_loop r'
              | _ =>                          (* b4 (and maybe b3) is None *)
                  if (b2 =? 0x7F) || (b2 =? 0x18) then Ok ([], [])
                  else Err TypeError          (* at once, or when the loop reads on *)
              end
        end
  end.

(** XxxReader.py 44-51: f.seek(2, 1), then the colours, at most [n] of them. *)
Fixpoint xxx_read_colors (n : nat) (s : list Z) : list Z :=
  match n with
  | O => []
  | S n => match read_int_32be s with
           | (Some c, r) => c :: xxx_read_colors n r
           | (None, _) => []
           end
  end.

Definition xxx_read (num_of_colors : nat) (s : list Z) : res (list (stitch Z) * list Z) :=
  do '(l, q) <- xxx_read_loop s;
  Ok (apply_rel 0 0 (l ++ [mkS 0 0 END]), xxx_read_colors num_of_colors (skipn 2 q)).
