(** pyembroidery/Vp3Writer.py and Vp3Reader.py, whole files.

    Coordinates are integers (tenths of a millimetre), as the encoder produces with
    rounding on.  The writer's half-unit centre is handled exactly: center_x is
    (left + right) / 2 and int() truncates towards zero ([Z.quot]). *)
From Coq Require Import ZArith List Bool.
From Verif Require Import PyBase EmbConst HelperModel ThreadModel Utf8Model PatternModel.
Import ListNotations.
Open Scope Z_scope.

(** ** Writer *)

(* Vp3Writer.py 20-22: the recorded length is that of the text, in characters. *)
Definition vp3_string_8 (t : text) : res (list Z) :=
  do b <- utf8_encode t; Ok (write_int_16be (zlen t) ++ b).
(* Vp3Writer.py 26-28, only used for ASCII constants: UTF-16BE puts a zero byte before each. *)
Definition vp3_string_16 (t : text) : list Z :=
  write_int_16be (2 * zlen t) ++ flat_map (fun c => [0; c]) t.
(* "Produced by     Software Ltd" *)
Definition produced : text :=
  [80;114;111;100;117;99;101;100;32;98;121;32;32;32;32;32;83;111;102;116;119;97;114;101;32;76;116;100].

(** Vp3Writer.py 37-42: a four-byte place-holder later patched with the number of bytes
    that follow it. *)
Definition patched (body : list Z) : list Z := write_int_32be (zlen body) ++ body.

(* Vp3Writer.py 45-59: [block] holds the commands since last_pos. *)
Fixpoint vp3_blocks {T} (get : Z -> T) (thread_index : Z) (block : list (stitch Z))
    (l : list (stitch Z)) : list (list (stitch Z) * T) :=
  match l with
  | [] => [(block, get thread_index)]
  | s :: r =>
      if cmd_of (scmd s) =? COLOR_CHANGE
      then (block, get thread_index) :: vp3_blocks get (thread_index + 1) [s] r
      else vp3_blocks get thread_index (block ++ [s]) r
  end.

(* Vp3Writer.py 226-267: the loop; flags & FLAGS_MASK is the alternative mark of line 233. *)
Fixpoint vp3_stitches (last_x last_y : Z) (l : list (stitch Z)) : list Z :=
  match l with
  | [] => []
  | s :: r =>
      let flags := cmd_of (scmd s) in
      let alt := Z.land (scmd s) FLAGS_MASK in
      if flags =? END then [0x80; 0x03]
      else if flags =? COLOR_CHANGE then vp3_stitches last_x last_y r
      else if flags =? TRIM then [0x80; 0x03] ++ vp3_stitches last_x last_y r
      else if flags =? SEQUIN_MODE then vp3_stitches last_x last_y r
      else if flags =? SEQUIN_EJECT then vp3_stitches last_x last_y r
      else if flags =? STOP then vp3_stitches last_x last_y r
      else if flags =? JUMP then vp3_stitches last_x last_y r
      else
        let dx := sx s - last_x in
        let dy := sy s - last_y in
        (if flags =? STITCH then
           if (-127 <=? dx) && (dx <=? 127) && (-127 <=? dy) && (dy <=? 127) && (alt =? 0)
           then write_int_8 dx ++ write_int_8 dy
           else [0x80; 0x01] ++ write_int_16be dx ++ write_int_16be dy ++ [0x80; 0x02]
         else [])
        ++ vp3_stitches (last_x + dx) (last_y + dy) r
  end.
(* Vp3Writer.py 219-226, 268 *)
Definition vp3_stitches_block (l : list (stitch Z)) (fx fy : Z) : list Z :=
  [0; 1; 0] ++ patched ([0x0A; 0xF6; 0] ++ vp3_stitches fx fy l).

(* Vp3Writer.py 201-216 *)
Definition vp3_thread (t : thread) : res (list Z) :=
  do c <- vp3_string_8 (match t_catalog t with Some s => s | None => [] end);
  do d <- vp3_string_8 (match t_description t with Some s => s | None => hex_color (t_color t) end);
  do b <- vp3_string_8 (match t_brand t with Some s => s | None => [] end);
  Ok ([1; 0] ++ write_int_24be (t_color t) ++ [0; 0; 0; 5; 0x28] ++ c ++ d ++ b).

(** The extents of a pattern of integers: PatternModel.bounds (EmbPattern.py 320-334) on
    integers. *)
Definition extents (l : list (stitch Z)) : option (Z * Z * Z * Z) :=
  match l with
  | [] => None
  | s :: r => Some (fold_left (fun b s => match b with (x0, y0, x1, y1) =>
                (Z.min x0 (sx s), Z.min y0 (sy s), Z.max x1 (sx s), Z.max y1 (sy s)) end)
              r (sx s, sy s, sx s, sy s))
  end.

(** Vp3Writer.py 164-198: [sumx] and [sumy] are twice the centre. *)
Definition vp3_colorblock (first : bool) (sumx sumy : Z) (l : list (stitch Z)) (t : thread)
  : res (list Z) :=
  let fp := match l with
            | [] => (0, 0)
            | s :: _ => if first then (0, 0) else (sx s, sy s)
            end in
  let lp := match rev l with [] => (0, 0) | s :: _ => (sx s, sy s) end in
  do th <- vp3_thread t;
  Ok ([0; 5; 0] ++ patched
       (write_int_32be (Z.quot (2 * fst fp - sumx) 2 * 100)
        ++ write_int_32be (Z.quot (- (2 * snd fp - sumy)) 2 * 100)
        ++ th
        ++ write_int_32be ((fst lp - fst fp) * 100)
        ++ write_int_32be (- (snd lp - snd fp) * 100)
        ++ vp3_stitches_block l (fst fp) (snd fp)
        ++ [0])).

(* Vp3Writer.py 155-160 *)
Fixpoint vp3_colorblocks (first : bool) (sumx sumy : Z) (bs : list (list (stitch Z) * thread))
  : res (list Z) :=
  match bs with
  | [] => Ok []
  | (l, t) :: r =>
      do b <- vp3_colorblock first sumx sumy l t;
      do rest <- vp3_colorblocks false sumx sumy r;
      Ok (b ++ rest)
  end.

(* Vp3Writer.py 111-161 *)
Definition vp3_design_block (e : Z * Z * Z * Z) (bs : list (list (stitch Z) * thread)) : res (list Z) :=
  let '(x0, y0, x1, y1) := e in
  let width := x1 - x0 in
  let height := y1 - y0 in
  do cb <- vp3_colorblocks true (x0 + x1) (y0 + y1) bs;
  Ok ([0; 3; 0] ++ patched
       (write_int_32be (Z.quot (x0 + x1) 2 * 100)
        ++ write_int_32be (Z.quot (y0 + y1) 2 * -100)
        ++ [0; 0; 0]
        ++ write_int_32be (Z.quot width 2 * -100) ++ write_int_32be (Z.quot width 2 * 100)
        ++ write_int_32be (Z.quot height 2 * -100) ++ write_int_32be (Z.quot height 2 * 100)
        ++ write_int_32be (width * 100) ++ write_int_32be (height * 100)
        ++ vp3_string_16 []
        ++ [0x64; 0x64]
        ++ write_int_32be 4096 ++ write_int_32be 0 ++ write_int_32be 0 ++ write_int_32be 4096
        ++ [120; 120; 80; 80; 1; 0]
        ++ vp3_string_16 produced
        ++ write_int_16be (zlen bs)
        ++ cb)).

(* Vp3Writer.py 71-109; int() of the infinite bounds of an empty pattern: OverflowError. *)
Definition vp3_file (l : list (stitch Z)) (bs : list (list (stitch Z) * thread)) : res (list Z) :=
  match extents l with
  | None => Err OverflowError
  | Some (x0, y0, x1, y1) =>
      do design <- vp3_design_block (x0, y0, x1, y1) bs;
      Ok ([0; 2; 0] ++ patched
           (vp3_string_16 []
            ++ write_int_32be (x1 * 100) ++ write_int_32be (y0 * -100)
            ++ write_int_32be (x0 * 100) ++ write_int_32be (y1 * -100)
            ++ write_int_32be (zlen l - count_stitch_commands END l)
            ++ write_int_8 0 ++ write_int_8 (zlen bs) ++ write_int_8 12 ++ write_int_8 0
            ++ write_int_8 1
            ++ design))
  end.

(* Vp3Writer.py 62-68 *)
Definition vp3_write (filler : Z -> thread) (l : list (stitch Z)) (threads : list thread) : res (list Z) :=
  let threads := fix_color_count filler l threads in
  do body <- vp3_file l (vp3_blocks (get_thread_or_filler filler threads) 0 [] l);
  Ok ([37; 118; 115; 109; 37] ++ write_int_8 0 ++ vp3_string_16 produced ++ body).

(** ** Reader *)

(** An open file: its position and the bytes from there on. *)
Definition stream := (Z * list Z)%type.
(** f.read(n): a negative n reads everything. *)
Definition s_read (n : Z) (f : stream) : list Z * stream :=
  let k := if n <? 0 then length (snd f) else Z.to_nat n in
  (firstn k (snd f), (fst f + zlen (firstn k (snd f)), skipn k (snd f))).
(** f.seek(n, 1), n >= 0. *)
Definition s_seek (n : Z) (f : stream) : stream := (fst f + n, skipn (Z.to_nat n) (snd f)).
(** One of the integer readers of ReadHelper.py. *)
Definition s_int (rd : list Z -> option Z * list Z) (f : stream) : option Z * stream :=
  let '(v, rest) := rd (snd f) in (v, (fst f + zlen (snd f) - zlen rest, rest)).

(** None used where an integer is needed raises TypeError. *)
Definition some {A} (v : option A) : res A := match v with Some v => Ok v | None => Err TypeError end.

(* Vp3Reader.py 26-28 *)
Definition skip_vp3_string (f : stream) : res stream :=
  let '(n, f) := s_int read_int_16be f in
  do n <- some n; Ok (s_seek n f).
(** Vp3Reader.py 20-23, ReadHelper.py 98-103; f.read(None) reads everything. *)
Definition read_vp3_string_8 (f : stream) : option text * stream :=
  let '(n, f) := s_int read_int_16be f in
  let '(b, f) := s_read (match n with Some n => n | None => -1 end) f in
  (utf8_decode b, f).

(** What vp3_read_thread sets; a colour missing at the end of the file is None. *)
Record vp3_thread_read := mkVT {
  vt_color : option Z; vt_catalog : option text; vt_description : option text; vt_brand : option text }.

(* Vp3Reader.py 114-117 *)
Fixpoint vp3_read_colors (n : nat) (color : option Z) (f : stream) : option Z * stream :=
  match n with
  | O => (color, f)
  | S n =>
      let '(color, f) := s_int read_int_24be f in
      let '(_, f) := s_int read_int_8 f in
      let '(_, f) := s_int read_int_16be f in
      vp3_read_colors n color f
  end.
(* Vp3Reader.py 110-123 *)
Definition vp3_read_thread (f : stream) : res (vp3_thread_read * stream) :=
  let '(colors, f) := s_int read_int_8 f in
  let '(_, f) := s_int read_int_8 f in
  do colors <- some colors;
  let '(color, f) := vp3_read_colors (Z.to_nat colors) (Some 0) f in
  let '(_, f) := s_int read_int_8 f in
  let '(_, f) := s_int read_int_8 f in
  let '(catalog, f) := read_vp3_string_8 f in
  let '(description, f) := read_vp3_string_8 f in
  let '(brand, f) := read_vp3_string_8 f in
  Ok (mkVT color catalog description brand, f).

(* Vp3Reader.py 39-46 *)
Definition signed16_of (b0 b1 : Z) : Z :=
  let b := Z.lor (Z.shiftl (Z.land b0 0xFF) 8) (Z.land b1 0xFF) in
  if b >? 0x7FFF then -0x10000 + b else b.

(** Vp3Reader.py 87-107: relative events from the signed bytes. *)
Fixpoint vp3_decode (l : list Z) : res (list (stitch Z)) :=
  match l with
  | x :: y :: r =>
      if negb (Z.land x 0xFF =? 0x80) then do t <- vp3_decode r; Ok (mkS x y STITCH :: t)
      else if y =? 0x01 then
        match r with
        | a :: b :: c :: d :: r' =>
            do t <- match r' with _ :: _ :: r'' => vp3_decode r'' | _ => Ok [] end;
            Ok (mkS (signed16_of a b) (signed16_of c d) STITCH :: t)
        | _ => Err IndexError
        end
      else if y =? 0x02 then vp3_decode r
      else if y =? 0x03 then do t <- vp3_decode r; Ok (mkS 0 0 TRIM :: t)
      else vp3_decode r
  | _ => Ok []
  end.

(** The pattern being read, in hundredths of a unit: needle position and stitches
    (EmbPattern.py 500-518).  The float quotients by 100 of lines 56-57 and 75-78 are the
    exact hundredths here. *)
Definition read_state := (Z * Z * list (stitch Z))%type.
Definition out_abs (cmd x y : Z) (o : read_state) : read_state :=
  (x, y, snd o ++ [mkS x y cmd]).
Definition out_rel (o : read_state) (e : stitch Z) : read_state :=
  let '(px, py, l) := o in out_abs (scmd e) (px + 100 * sx e) (py + 100 * sy e) o.

(* Vp3Reader.py 70-107 *)
Definition vp3_read_colorblock (cx cy : Z) (f : stream) (o : read_state)
  : res (vp3_thread_read * stream * read_state) :=
  let '(_, f) := s_read 3 f in
  let '(distance, f) := s_int read_int_32be f in
  do distance <- some distance;
  let block_end := distance + fst f in
  let '(x, f) := s_int read_int_32be f in
  do x <- some x;
  let '(y, f) := s_int read_int_32be f in
  do y <- some y;
  let abs_x := signed32 x + cx in
  let abs_y := - signed32 y + cy in
  let o := if negb (abs_x =? 0) && negb (abs_y =? 0) then out_abs JUMP abs_x abs_y o else o in
  do '(thread, f) <- vp3_read_thread f;
  let f := s_seek 15 f in
  let '(_, f) := s_read 3 f in
  let '(bytes, f) := s_read (block_end - fst f) f in
  do events <- vp3_decode (map signed8 bytes);
  Ok (thread, f, fold_left out_rel events o).

(* Vp3Reader.py 63-66: [n] blocks left. *)
Fixpoint vp3_read_blocks (n : nat) (cx cy : Z) (f : stream) (o : read_state) (threads : list vp3_thread_read)
  : res (read_state * list vp3_thread_read) :=
  match n with
  | O => Ok (o, threads)
  | S n =>
      do '(t, f, o) <- vp3_read_colorblock cx cy f o;
      let o := match n with O => o | _ => out_rel o (mkS 0 0 COLOR_CHANGE) end in
      vp3_read_blocks n cx cy f o (threads ++ [t])
  end.

(* Vp3Reader.py 49-67 *)
Definition vp3_read (file : list Z) : res (list (stitch Z) * list vp3_thread_read) :=
  let '(_, f) := s_read 6 (0, file) in
  do f <- skip_vp3_string f;
  let f := s_seek 7 f in
  do f <- skip_vp3_string f;
  let f := s_seek 32 f in
  let '(cx, f) := s_int read_int_32be f in
  do cx <- some cx;
  let '(cy, f) := s_int read_int_32be f in
  do cy <- some cy;
  let f := s_seek 27 f in
  do f <- skip_vp3_string f;
  let f := s_seek 24 f in
  do f <- skip_vp3_string f;
  let '(count, f) := s_int read_int_16be f in
  do count <- some count;
  do '(o, threads) <- vp3_read_blocks (Z.to_nat count) (signed32 cx) (- signed32 cy) f (0, 0, []) [];
  Ok (snd (out_rel o (mkS 0 0 END)), threads).
