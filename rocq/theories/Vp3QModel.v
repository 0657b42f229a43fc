(** pyembroidery/Vp3Writer.py on exact rational coordinates: every int() of the writer cuts the fraction off, and
    the position the next displacement is counted from is the one written, not the one asked for.  Vp3Model.v is
    the same on integers (Vp3QProofs.v shows they write the same file). *)
From Coq Require Import ZArith QArith List Bool.
From Verif Require Import PyBase EmbConst HelperModel ThreadModel PatternModel DstFileModel Vp3Model.
Import ListNotations.
Open Scope Z_scope.

(* Vp3Writer.py 226-267; [last_x], [last_y] begin at the start of the block, which need not be an integer *)
Fixpoint vp3_stitches_q (last_x last_y : Q) (l : list (stitch Q)) : list Z :=
  match l with
  | [] => []
  | s :: r =>
      let flags := cmd_of (scmd s) in
      let alt := Z.land (scmd s) FLAGS_MASK in
      if flags =? END then [0x80; 0x03]
      else if flags =? COLOR_CHANGE then vp3_stitches_q last_x last_y r
      else if flags =? TRIM then [0x80; 0x03] ++ vp3_stitches_q last_x last_y r
      else if flags =? SEQUIN_MODE then vp3_stitches_q last_x last_y r
      else if flags =? SEQUIN_EJECT then vp3_stitches_q last_x last_y r
      else if flags =? STOP then vp3_stitches_q last_x last_y r
      else if flags =? JUMP then vp3_stitches_q last_x last_y r
      else
        let dx := q_cut (sx s - last_x) in
        let dy := q_cut (sy s - last_y) in
        (if flags =? STITCH then
           if (-127 <=? dx) && (dx <=? 127) && (-127 <=? dy) && (dy <=? 127) && (alt =? 0)
           then write_int_8 dx ++ write_int_8 dy
           else [0x80; 0x01] ++ write_int_16be dx ++ write_int_16be dy ++ [0x80; 0x02]
         else [])
        ++ vp3_stitches_q (last_x + inject_Z dx) (last_y + inject_Z dy) r
  end.
(* Vp3Writer.py 219-226, 268 *)
Definition vp3_stitches_block_q (l : list (stitch Q)) (fx fy : Q) : list Z :=
  [0; 1; 0] ++ patched ([0x0A; 0xF6; 0] ++ vp3_stitches_q fx fy l).

(* Vp3Writer.py 45-59 *)
Fixpoint vp3_blocks_q {T} (get : Z -> T) (thread_index : Z) (block : list (stitch Q))
    (l : list (stitch Q)) : list (list (stitch Q) * T) :=
  match l with
  | [] => [(block, get thread_index)]
  | s :: r =>
      if cmd_of (scmd s) =? COLOR_CHANGE
      then (block, get thread_index) :: vp3_blocks_q get (thread_index + 1) [s] r
      else vp3_blocks_q get thread_index (block ++ [s]) r
  end.

(* Vp3Writer.py 164-198 *)
Definition vp3_colorblock_q (first : bool) (center_x center_y : Q) (l : list (stitch Q)) (t : thread) : res (list Z) :=
  let fp := match l with
            | [] => (0%Q, 0%Q)
            | s :: _ => if first then (0%Q, 0%Q) else (sx s, sy s)
            end in
  let lp := match rev l with [] => (0%Q, 0%Q) | s :: _ => (sx s, sy s) end in
  do th <- vp3_thread t;
  Ok ([0; 5; 0] ++ patched
       (write_int_32be (q_cut (fst fp - center_x) * 100)
        ++ write_int_32be (q_cut (- (snd fp - center_y)) * 100)
        ++ th
        ++ write_int_32be (q_cut (fst lp - fst fp) * 100)
        ++ write_int_32be (q_cut (- (snd lp - snd fp)) * 100)
        ++ vp3_stitches_block_q l (fst fp) (snd fp)
        ++ [0])).
(* Vp3Writer.py 155-160 *)
Fixpoint vp3_colorblocks_q (first : bool) (center_x center_y : Q) (bs : list (list (stitch Q) * thread)) : res (list Z) :=
  match bs with
  | [] => Ok []
  | (l, t) :: r =>
      do b <- vp3_colorblock_q first center_x center_y l t;
      do rest <- vp3_colorblocks_q false center_x center_y r;
      Ok (b ++ rest)
  end.

(* Vp3Writer.py 111-161 *)
Definition vp3_design_block_q (x0 y0 x1 y1 : Q) (bs : list (list (stitch Q) * thread)) : res (list Z) :=
  let width := (x1 - x0)%Q in
  let height := (y1 - y0)%Q in
  let half_width := (width / 2)%Q in
  let half_height := (height / 2)%Q in
  let center_x := (x1 - half_width)%Q in
  let center_y := (y1 - half_height)%Q in
  do cb <- vp3_colorblocks_q true center_x center_y bs;
  Ok ([0; 3; 0] ++ patched
       (write_int_32be (q_cut center_x * 100)
        ++ write_int_32be (q_cut center_y * -100)
        ++ [0; 0; 0]
        ++ write_int_32be (q_cut half_width * -100) ++ write_int_32be (q_cut half_width * 100)
        ++ write_int_32be (q_cut half_height * -100) ++ write_int_32be (q_cut half_height * 100)
        ++ write_int_32be (q_cut width * 100) ++ write_int_32be (q_cut height * 100)
        ++ vp3_string_16 []
        ++ [0x64; 0x64]
        ++ write_int_32be 4096 ++ write_int_32be 0 ++ write_int_32be 0 ++ write_int_32be 4096
        ++ [120; 120; 80; 80; 1; 0]
        ++ vp3_string_16 produced
        ++ write_int_16be (zlen bs)
        ++ cb)).

(** Vp3Writer.py 71-109; int() of an infinite bound of an empty pattern raises OverflowError. *)
Definition vp3_file_q (l : list (stitch Q)) (bs : list (list (stitch Q) * thread)) : res (list Z) :=
  match bounds l with
  | (Some x0, Some y0, Some x1, Some y1) =>
      do design <- vp3_design_block_q x0 y0 x1 y1 bs;
      Ok ([0; 2; 0] ++ patched
           (vp3_string_16 []
            ++ write_int_32be (q_cut (x1 * 100)) ++ write_int_32be (q_cut (y0 * -100))
            ++ write_int_32be (q_cut (x0 * 100)) ++ write_int_32be (q_cut (y1 * -100))
            ++ write_int_32be (zlen l - count_stitch_commands END l)
            ++ write_int_8 0 ++ write_int_8 (zlen bs) ++ write_int_8 12 ++ write_int_8 0
            ++ write_int_8 1
            ++ design))
  | _ => Err OverflowError
  end.

(* Vp3Writer.py 62-68 *)
Definition vp3_write_q (filler : Z -> thread) (l : list (stitch Q)) (threads : list thread) : res (list Z) :=
  let threads := fix_color_count filler l threads in
  do body <- vp3_file_q l (vp3_blocks_q (get_thread_or_filler filler threads) 0 [] l);
  Ok ([37; 118; 115; 109; 37] ++ write_int_8 0 ++ vp3_string_16 produced ++ body).
