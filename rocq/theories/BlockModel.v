(** The readers of PCD, PCM, PCQ, PCS, MAX (absolute, scaled coordinates), SHV (colours by counts) and
    HUS (three compressed streams).

    A file is its list of bytes; [stream] as in Vp3Model.  Threads are palette indices (or colours for PCD). *)
From Coq Require Import ZArith QArith List Bool.
From Verif Require Import PyBase EmbConst StreamModel HelperModel FunctionsModel PatternModel ThreadModel TextModel Vp3Model PecFileModel CompressModel RecordModel.
Import ListNotations.
Open Scope Z_scope.

(** ** PCD, PCM, PCQ, PCS, MAX
    The coordinates are scaled integers: [scale v] is v * (5.0 / 3.0), or v * 1.235 for MAX.  The pattern starts
    at (0, 0), written [scale 0]; out.color_change() and out.end() repeat the last position. *)
Section Scaled.
Context {C : Type} (scale : Z -> C).
Definition here (p : C * C) (c : Z) : stitch C := mkS (fst p) (snd p) c.

(** PcdReader.py 29-54 (the same in PcqReader.py, PcsReader.py), PcmReader.py 37-62; [coords] takes the first eight
    bytes of a record apart.  Fewer than nine bytes left: ctrl is None. *)
Fixpoint pc_loop (coords : list Z -> Z * Z) (p : C * C) (bytes : list Z) : list (stitch C) :=
  match bytes with
  | b0 :: b1 :: b2 :: b3 :: b4 :: b5 :: b6 :: b7 :: ctrl :: r =>
      let '(x, y) := coords [b0; b1; b2; b3; b4; b5; b6; b7] in
      let at_ := (scale (signed24 x), scale (- signed24 y)) in
      if ctrl =? 0x00 then here at_ STITCH :: pc_loop coords at_ r
      else if flag ctrl 0x01 then here p COLOR_CHANGE :: pc_loop coords p r
      else if flag ctrl 0x04 then here at_ JUMP :: pc_loop coords at_ r
      else [here p END]
  | _ => [here p END]
  end.
Definition number (v : option Z) : Z := match v with Some v => v | None => 0 end.
(* PcdReader.py 30-33 *)
Definition pcd_coords (b : list Z) : Z * Z :=
  let '(_, b) := read_int_8 b in
  let '(x, b) := read_int_24le b in
  let '(_, b) := read_int_8 b in
  let '(y, _) := read_int_24le b in (number x, number y).
(* PcmReader.py 38-41 *)
Definition pcm_coords (b : list Z) : Z * Z :=
  let '(x, b) := read_int_24be b in
  let '(_, b) := read_int_8 b in
  let '(y, _) := read_int_24be b in (number x, number y).

(* PcdReader.py 21-26: a colour beyond the end of the file is None *)
Fixpoint pcd_threads (n : nat) (f : list Z) : list (option Z) * list Z :=
  match n with
  | O => ([], f)
  | S n => let '(c, f) := read_int_24be f in
           let '(l, f) := pcd_threads n (skipn 1 f) in (c :: l, f)
  end.
(* PcdReader.py 13-54, PcqReader.py 13-54, PcsReader.py 13-54 *)
Definition pcd_read (file : list Z) : res (list (option Z) * list (stitch C)) :=
  let '(_, f) := read_int_8 file in
  let '(_, f) := read_int_8 f in
  let '(colors, f) := read_int_16le f in
  match colors with
  | None => Err TypeError
  | Some colors =>
      let '(threads, f) := pcd_threads (Z.to_nat colors) f in
      let '(_, f) := read_int_16le f in
      Ok (threads, pc_loop pcd_coords (scale 0, scale 0) f)
  end.

(* PcmReader.py 7-24, 31-34 *)
Definition pcm_palette : list Z :=
  [0x000000; 0x000080; 0x0000FF; 0x008080; 0x00FFFF; 0x800080; 0xFF00FF; 0x800000;
   0xFF0000; 0x008000; 0x00FF00; 0x808000; 0xFFFF00; 0x808080; 0xC0C0C0; 0xFFFFFF].
Fixpoint pcm_threads (n : nat) (f : list Z) : res (list Z * list Z) :=
  match n with
  | O => Ok ([], f)
  | S n =>
      let '(index, f) := read_int_16be f in
      match index with
      | None => Err TypeError
      | Some index =>
          match nth_error pcm_palette (Z.to_nat index) with
          | None => Err IndexError
          | Some c => do '(l, f) <- pcm_threads n f; Ok (c :: l, f)
          end
      end
  end.
(* PcmReader.py 26-62 *)
Definition pcm_read (file : list Z) : res (list Z * list (stitch C)) :=
  let '(colors, f) := read_int_16be (skipn 2 file) in
  match colors with
  | None => Ok ([], [])
  | Some colors =>
      do '(threads, f) <- pcm_threads (Z.to_nat colors) f;
      let '(_, f) := read_int_16be f in
      Ok (threads, pc_loop pcm_coords (scale 0, scale 0) f)
  end.

(** MaxReader.py 9-21: signed24(None) raises TypeError before "if c1 is None: break" is reached, unless
    only c1 itself is missing. *)
Fixpoint max_loop (count : Z) (p : C * C) (bytes : list Z) : res (list (stitch C)) :=
  if count <=? 0 then Ok [here p END]
  else
    match bytes with
    | x0 :: x1 :: x2 :: _ :: y0 :: y1 :: y2 :: _ :: r =>
        let at_ := (scale (signed24 (number (fst (read_int_24le [x0; x1; x2])))),
                    scale (signed24 (number (fst (read_int_24le [y0; y1; y2]))))) in
        do l <- max_loop (count - 1) at_ r; Ok (here at_ STITCH :: l)
    | [_; _; _; _; _; _; _] => Ok [here p END]
    | _ => Err TypeError
    end.
(* MaxReader.py 6-22 *)
Definition max_read (file : list Z) : res (list (stitch C)) :=
  let '(count, f) := read_int_32le (skipn 0xD5 file) in
  match count with
  | None => Err TypeError
  | Some count => max_loop count (scale 0, scale 0) f
  end.
End Scaled.

(** PC_SIZE_CONVERSION_RATIO = 5.0 / 3.0 (PcdReader.py 4, PcmReader.py 4) and MAX_SIZE_CONVERSION_RATIO = 1.235
    (MaxReader.py 3), in exact arithmetic: not the rounded products of the machine. *)
Definition pc_unit (v : Z) : Q := (inject_Z v * (5 # 3))%Q.
Definition max_unit (v : Z) : Q := (inject_Z v * (1235 # 1000))%Q.

(** ** SHV *)
(* ShvReader.py 32-40: palette index and number of records of each colour; palette of 43 threads *)
Fixpoint shv_colors (n : nat) (f : stream) : res (list (Z * Z) * stream) :=
  match n with
  | O => Ok ([], f)
  | S n =>
      let '(count, f) := s_int read_int_32be f in
      let '(code, f) := s_int read_int_8 f in
      match code, count with
      | Some code, Some count =>
          do '(l, f) <- shv_colors n (s_seek 9 f);
          Ok ((code mod 43, count) :: l, f)
      | _, _ => Err TypeError
      end
  end.

(** ShvReader.py 43-83.  [others] is stitch_per_color from the next colour on. *)
Fixpoint shv_loop (fuel : nat) (in_jump : bool) (since max : Z) (others : list Z) (bytes : list Z) : res (list rel) :=
  match fuel with
  | O => Err OutOfFuel
  | S fuel =>
      match bytes with
      | b0 :: b1 :: r =>
          let change := max <=? since in
          let calls := if change then [mkS 0 0 COLOR_CHANGE] else [] in
          let since := if change then 0 else since in
          let max := if change then hd 0xFFFFFFFF others else max in
          let others := if change then tl others else others in
          let sewn n := calls_then (calls ++ [mkS (signed8 b0) (signed8 b1) (if in_jump then JUMP else STITCH)])
                          (shv_loop fuel in_jump (since + n) max others r) in
          if b0 =? 0x80 then
            if b1 =? 3 then calls_then calls (shv_loop fuel in_jump (since + 1) max others r)
            else if b1 =? 2 then calls_then calls (shv_loop fuel false (since + 1) max others r)
            else if b1 =? 1 then
              let '(x, r) := read_int_16be r in
              let '(y, r) := read_int_16be r in
              match x, y with
              | Some x, Some y =>
                  calls_then (calls ++ [mkS (signed16 x) (signed16 y) JUMP]) (shv_loop fuel true (since + 3) max others r)
              | _, _ => Err TypeError
              end
            else sewn 2
          else sewn 1
      | _ => Ok []
      end
  end.

(** ShvReader.py 16-84.  Read name, threads and stitches.  f.read(None) reads everything, after which the
    division of None raises TypeError. *)
Definition shv_read (file : list Z) : res (option text * list Z * list (stitch Z)) :=
  let f := seek_to file 0x56 in
  let '(length, f) := s_int read_int_8 f in
  let '(name, f) := read_string_8 length f in
  let '(width, f) := s_int read_int_8 f in
  let '(height, f) := s_int read_int_8 f in
  do height <- some height;
  do width <- some width;
  let f := s_seek (4 + (height + 1) / 2 * width) f in
  let '(colors, f) := s_int read_int_8 f in
  let f := s_seek 18 f in
  do colors <- some colors;
  do '(table, f) <- shv_colors (Z.to_nat colors) f;
  match map snd table with
  | [] => Err KeyError
  | first :: others =>
      let bytes := snd (seek_to file (fst f - 2)) in
      do l <- ended (shv_loop (S (List.length bytes)) false 0 first others bytes);
      Ok (name, map fst table, l)
  end.

(** ** HUS *)
(** f.read(n), n < -1, raises ValueError in a file opened for reading. *)
Definition read_between (file : list Z) (a b : Z) : res (list Z) :=
  if b - a <? -1 then Err ValueError else Ok (fst (s_read (b - a) (seek_to file a))).
(* HusReader.py 26-28: palette of 29 threads *)
Fixpoint hus_threads (n : nat) (f : stream) : res (list Z * stream) :=
  match n with
  | O => Ok ([], f)
  | S n =>
      let '(index, f) := s_int read_int_16le f in
      do index <- some index;
      if index <? 29 then do '(l, f) <- hus_threads n f; Ok (index :: l, f) else Err IndexError
  end.
(* HusReader.py 44-62 *)
Fixpoint hus_calls (commands xs ys : list Z) : list rel :=
  match commands, xs, ys with
  | cmd :: commands, x :: xs, y :: ys =>
      let x := signed8 x in
      let y := - signed8 y in
      if cmd =? 0x80 then mkS x y STITCH :: hus_calls commands xs ys
      else if cmd =? 0x81 then mkS x y JUMP :: hus_calls commands xs ys
      else if cmd =? 0x84 then mkS x y COLOR_CHANGE :: hus_calls commands xs ys
      else if cmd =? 0x88 then
        (if negb (x =? 0) || negb (y =? 0) then [mkS x y JUMP] else []) ++ mkS 0 0 TRIM :: hus_calls commands xs ys
      else []
  | _, _, _ => []
  end.
(** HusReader.py 6-63; [fuel] bounds the rounds of expand.  A missing extent raises TypeError in signed16,
    a missing offset in f.seek or the subtraction.  More colours than bytes fail before the cut number is reached. *)
Definition hus_read (fuel : nat) (file : list Z) : res (list Z * list (stitch Z)) :=
  let f := (0, file) in
  let '(_, f) := s_int read_int_32le f in
  let '(stitches, f) := s_int read_int_32le f in
  let '(colors, f) := s_int read_int_32le f in
  let '(e1, f) := s_int read_int_16le f in
  do _ <- some e1;
  let '(e2, f) := s_int read_int_16le f in
  do _ <- some e2;
  let '(e3, f) := s_int read_int_16le f in
  do _ <- some e3;
  let '(e4, f) := s_int read_int_16le f in
  do _ <- some e4;
  let '(command_offset, f) := s_int read_int_32le f in
  let '(x_offset, f) := s_int read_int_32le f in
  let '(y_offset, f) := s_int read_int_32le f in
  let '(_, f) := read_string_8 (Some 8) f in
  let '(_, f) := s_int read_int_16le f in
  do colors <- some colors;
  do '(threads, f) <- hus_threads (Z.to_nat (Z.min colors (zlen file))) f;
  do command_offset <- some command_offset;
  do x_offset <- some x_offset;
  do commands <- read_between file command_offset x_offset;
  do y_offset <- some y_offset;
  do xs <- read_between file x_offset y_offset;
  let ys := skipn (Z.to_nat y_offset) file in
  do stitches <- some stitches;
  do commands <- expand fuel commands (Some stitches);
  do xs <- expand fuel xs (Some stitches);
  do ys <- expand fuel ys (Some stitches);
  do l <- ended (Ok (hus_calls commands xs ys));
  Ok (threads, l).
