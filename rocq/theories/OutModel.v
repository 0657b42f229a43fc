(** Writing to an open stream: what write, tell and seek do, and the writers that go back to fill in a length or
    ask for the position, operation by operation. *)
From Coq Require Import Ascii String ZArith QArith List Bool.
From Verif Require Import PyBase EmbConst HelperModel StreamModel NumQ ThreadModel Utf8Model TextModel PatternModel QuantModel Vp3Model ColorFileModel
  DstModel DstFileModel PecModel PecFileModel JefModel U01Model XxxModel WholeModel.
Import ListNotations.
Open Scope Z_scope.

(** An open binary stream (a file or io.BytesIO): its bytes and the position in it. *)
Record out := mkOut { o_bytes : list Z; o_at : nat }.
(** A piece of a writer: it changes the stream and returns something or raises. *)
Definition prog (A : Type) := out -> out * res A.
Definition ret {A} (a : A) : prog A := fun o => (o, Ok a).
Definition raise {A} (e : exn) : prog A := fun o => (o, Err e).
Definition bind {A B} (p : prog A) (f : A -> prog B) : prog B :=
  fun o => let '(o', r) := p o in match r with Ok a => f a o' | Err e => (o', Err e) end.
Notation "x <~ p ;; q" := (bind p (fun x => q)) (at level 61, p at next level, right associativity).
Notation "p ;;; q" := (bind p (fun _ : unit => q)) (at level 61, right associativity).
(** f.write(b): over what is there from the position on, behind zeros if the position is past the end. *)
Definition write (b : list Z) : prog unit := fun o =>
  (mkOut (firstn (o_at o) (o_bytes o) ++ repeat 0 (o_at o - List.length (o_bytes o)) ++ b ++ skipn (o_at o + List.length b) (o_bytes o))
         (o_at o + List.length b), Ok tt).
(** f.tell() *)
Definition tell : prog Z := fun o => (o, Ok (Z.of_nat (o_at o))).
(** f.seek(n, 0), n >= 0. *)
Definition seek (n : Z) : prog unit := fun o => (mkOut (o_bytes o) (Z.to_nat n), Ok tt).
(** A value that may fail to be made. *)
Definition made {A} (r : res A) : prog A := fun o => (o, r).
(* WriteHelper.py 46-48 *)
Definition write_text (t : text) : prog unit := b <~ made (utf8_encode t);; write b.

(** ** VP3 *)
(* Vp3Writer.py 37-42, InfWriter.py 6-11 *)
Definition patch_byte_offset (offset : Z) : prog unit :=
  current_pos <~ tell;;
  seek offset;;;
  write (write_int_32be (current_pos - offset - 4));;;
  seek current_pos.
(* Vp3Writer.py 20-22 *)
Definition o_string_8 (t : text) : prog unit := write (write_int_16be (zlen t));;; write_text t.
(* Vp3Writer.py 201-216 *)
Definition o_thread (t : thread) : prog unit :=
  write [1; 0];;;
  write (write_int_24be (t_color t));;;
  write [0; 0; 0; 5; 0x28];;;
  o_string_8 (match t_catalog t with Some s => s | None => [] end);;;
  o_string_8 (match t_description t with Some s => s | None => hex_color (t_color t) end);;;
  o_string_8 (match t_brand t with Some s => s | None => [] end).
(* Vp3Writer.py 228-267 *)
Fixpoint o_stitches (last_x last_y : Z) (l : list (stitch Z)) : prog unit :=
  match l with
  | [] => ret tt
  | s :: r =>
      let flags := cmd_of (scmd s) in
      let alt := Z.land (scmd s) FLAGS_MASK in
      if flags =? END then write [0x80; 0x03]
      else if flags =? COLOR_CHANGE then o_stitches last_x last_y r
      else if flags =? TRIM then write [0x80; 0x03];;; o_stitches last_x last_y r
      else if flags =? SEQUIN_MODE then o_stitches last_x last_y r
      else if flags =? SEQUIN_EJECT then o_stitches last_x last_y r
      else if flags =? STOP then o_stitches last_x last_y r
      else if flags =? JUMP then o_stitches last_x last_y r
      else
        let dx := sx s - last_x in
        let dy := sy s - last_y in
        (if flags =? STITCH then
           if (-127 <=? dx) && (dx <=? 127) && (-127 <=? dy) && (dy <=? 127) && (alt =? 0)
           then write (write_int_8 dx);;; write (write_int_8 dy)
           else write [0x80; 0x01];;; write (write_int_16be dx);;; write (write_int_16be dy);;; write [0x80; 0x02]
         else ret tt);;;
        o_stitches (last_x + dx) (last_y + dy) r
  end.
(* Vp3Writer.py 219-268 *)
Definition o_stitches_block (l : list (stitch Z)) (fx fy : Z) : prog unit :=
  write [0; 1; 0];;;
  placeholder <~ tell;;
  write (write_int_32be 0);;;
  (write [0x0A; 0xF6; 0];;;
   o_stitches fx fy l);;;
  patch_byte_offset placeholder.
(* Vp3Writer.py 164-198; [sumx] and [sumy] are twice the centre *)
Definition o_colorblock (first : bool) (sumx sumy : Z) (l : list (stitch Z)) (t : thread) : prog unit :=
  write [0; 5; 0];;;
  placeholder <~ tell;;
  write (write_int_32be 0);;;
  let fp := match l with
            | [] => (0, 0)
            | s :: _ => if first then (0, 0) else (sx s, sy s)
            end in
  let lp := match rev l with [] => (0, 0) | s :: _ => (sx s, sy s) end in
  (write (write_int_32be (Z.quot (2 * fst fp - sumx) 2 * 100));;;
  write (write_int_32be (Z.quot (- (2 * snd fp - sumy)) 2 * 100));;;
  o_thread t;;;
  write (write_int_32be ((fst lp - fst fp) * 100));;;
  write (write_int_32be (- (snd lp - snd fp) * 100));;;
  o_stitches_block l (fst fp) (snd fp);;;
  write (write_int_8 0));;;
  patch_byte_offset placeholder.
(* Vp3Writer.py 155-160 *)
Fixpoint o_colorblocks (first : bool) (sumx sumy : Z) (bs : list (list (stitch Z) * thread)) : prog unit :=
  match bs with
  | [] => ret tt
  | (l, t) :: r => o_colorblock first sumx sumy l t;;; o_colorblocks false sumx sumy r
  end.
(* Vp3Writer.py 111-161 *)
Definition o_design_block (e : Z * Z * Z * Z) (bs : list (list (stitch Z) * thread)) : prog unit :=
  let '(x0, y0, x1, y1) := e in
  let width := x1 - x0 in
  let height := y1 - y0 in
  write [0; 3; 0];;;
  placeholder <~ tell;;
  write (write_int_32be 0);;;
  (write (write_int_32be (Z.quot (x0 + x1) 2 * 100));;;
  write (write_int_32be (Z.quot (y0 + y1) 2 * -100));;;
  write (write_int_8 0);;; write (write_int_8 0);;; write (write_int_8 0);;;
  write (write_int_32be (Z.quot width 2 * -100));;; write (write_int_32be (Z.quot width 2 * 100));;;
  write (write_int_32be (Z.quot height 2 * -100));;; write (write_int_32be (Z.quot height 2 * 100));;;
  write (write_int_32be (width * 100));;; write (write_int_32be (height * 100));;;
  write (vp3_string_16 []);;;
  write [0x64; 0x64];;;
  write (write_int_32be 4096);;; write (write_int_32be 0);;; write (write_int_32be 0);;; write (write_int_32be 4096);;;
  write [120; 120; 80; 80; 1; 0];;;
  write (vp3_string_16 produced);;;
  write (write_int_16be (zlen bs));;;
  o_colorblocks true (x0 + x1) (y0 + y1) bs);;;
  patch_byte_offset placeholder.
(* Vp3Writer.py 71-109 *)
Definition o_vp3_file (l : list (stitch Z)) (bs : list (list (stitch Z) * thread)) : prog unit :=
  write [0; 2; 0];;;
  placeholder <~ tell;;
  write (write_int_32be 0);;;
  (write (vp3_string_16 []);;;
  match extents l with
  | None => raise OverflowError
  | Some (x0, y0, x1, y1) =>
      write (write_int_32be (x1 * 100));;; write (write_int_32be (y0 * -100));;;
      write (write_int_32be (x0 * 100));;; write (write_int_32be (y1 * -100));;;
      write (write_int_32be (zlen l - count_stitch_commands END l));;;
      write (write_int_8 0);;; write (write_int_8 (zlen bs));;; write (write_int_8 12);;; write (write_int_8 0);;;
      write (write_int_8 1);;;
      o_design_block (x0, y0, x1, y1) bs
  end);;;
  patch_byte_offset placeholder.
(* Vp3Writer.py 62-68 *)
Definition o_vp3 (filler : Z -> thread) (l : list (stitch Z)) (threads : list thread) : prog unit :=
  let threads := fix_color_count filler l threads in
  write [37; 118; 115; 109; 37];;;
  write (write_int_8 0);;;
  write (vp3_string_16 produced);;;
  o_vp3_file l (vp3_blocks (get_thread_or_filler filler threads) 0 [] l).

(** ** INF *)
(* InfWriter.py 20-38 *)
Fixpoint o_inf_records (index : Z) (threads : list thread) : prog unit :=
  match threads with
  | [] => ret tt
  | t :: r =>
      let details := match t_description t with Some d => d | None => unknown end in
      let chart := match t_chart t with Some c => c | None => unknown end in
      write (write_int_16be (11 + zlen details + zlen chart));;;
      write (write_int_16be index);;;
      write (write_int_8 (get_red (t_color t)));;; write (write_int_8 (get_green (t_color t)));;; write (write_int_8 (get_blue (t_color t)));;;
      write (write_int_16be (index + 1));;;
      write_text details;;; write (write_int_8 0);;;
      write_text chart;;; write (write_int_8 0);;;
      o_inf_records (index + 1) r
  end.
(* InfWriter.py 14-39 *)
Definition o_inf (threads : list thread) : prog unit :=
  write (write_int_32be 1);;; write (write_int_32be 8);;;
  placeholder <~ tell;;
  write (write_int_32be 0);;;
  (write (write_int_32be (zlen threads));;;
   o_inf_records 0 threads);;;
  patch_byte_offset placeholder.

(** ** PEC *)
(** PecWriter.py 46-75.  The colour bytes are one write, as is the filling of the loop 73-74. *)
Definition o_pec_header (order : list thread -> list thread) (name : option text) (threads : list thread) : prog unit :=
  let name := match name with Some n => n | None => untitled end in
  write_text (text_of "LA:" ++ pad16 (firstn 8 name) ++ [13]);;;
  write (repeat 32 12 ++ [0xFF; 0x00]);;;
  write (write_int_8 6);;; write (write_int_8 38);;;
  let index_list := build_unique_palette (order threads) pec_threads threads in
  let count := zlen index_list in
  (if negb (count =? 0) then
     write (repeat 32 12);;;
     (if negb (count - 1 <? 255) then raise AssertionError
      else l <~ made (index_bytes index_list);; write ((count - 1) :: l))
   else write [32; 32; 32; 32; 0x64; 32; 0; 32; 0; 32; 32; 32; 0xFF]);;;
  write (repeat 32 (Z.to_nat (463 - count))).
(** PecWriter.py 78-97; what pec_encode writes is one write. *)
Definition o_pec_block (e : option box) (l : list (stitch Q)) : prog unit :=
  start <~ tell;;
  write [0; 0];;;
  write (write_int_24le 0);;;
  write [0x31; 0xff; 0xf0];;;
  match e with
  | None => raise OverflowError
  | Some (x0, y0, x1, y1) =>
      write (write_int_16le (q_round (x1 - x0)));;; write (write_int_16le (q_round (y1 - y0)));;;
      write (write_int_16le 0x1E0);;; write (write_int_16le 0x1B0);;;
      write (pec_encode qz_q l);;;
      stop <~ tell;;
      let length := stop - start in
      current_position <~ tell;;
      seek (start + 2);;;
      write (write_int_24le length);;;
      seek current_position
  end.
(** PecWriter.py 28-43; the pictures are one write. *)
Definition o_pec (filler : Z -> thread) (order : list thread -> list thread) (name : option text)
    (l : list (stitch Q)) (threads : list thread) : prog unit :=
  let '(l, threads) := pec_prepare filler l threads in
  write (text_of "#PEC0001");;;
  let threads := fix_color_count filler l threads in
  o_pec_header order name threads;;;
  o_pec_block (box_of l) l;;;
  write (match box_of l with Some e => write_pec_graphics e l | None => [] end).

(** ** Writers that ask for the position *)
(** DstWriter.py 107-185; the lines of the header are one write, the records are another. *)
Definition o_dst (extended : bool) (trim_at : Z) (p : dst_info) (l : list (stitch Q)) : prog unit :=
  t <~ made (header_text extended p l);;
  write_text t;;;
  write [0x1A];;;
  at_ <~ tell;;
  write (repeat 32 (Z.to_nat (512 - at_)));;;
  b <~ made (dst_body qz_q trim_at l);;
  write b.
(** U01Writer.py 12-87; the records are one write. *)
Definition o_u01 (l : list (stitch Q)) : prog unit :=
  write (repeat 48 128);;;
  match rev l with
  | [] => ret tt
  | last :: _ =>
      let '(min_x, min_y, max_x, max_y) := bounds l in
      x0 <~ made (int_of min_x);; write (write_int_16le x0);;;
      y1 <~ made (int_of max_y);; write (write_int_16le (- y1));;;
      x1 <~ made (int_of max_x);; write (write_int_16le x1);;;
      y0 <~ made (int_of min_y);; write (write_int_16le (- y0));;;
      write (write_int_32le 0);;; write (write_int_32le (zlen l + 1));;;
      write (write_int_16le (q_cut (sx last)));;; write (write_int_16le (- q_cut (sy last)));;;
      at_ <~ tell;;
      write (repeat 0 (Z.to_nat (0x100 - at_)));;;
      b <~ made (u01_body qz_q l);;
      write b
  end.

(** ** Reading from a stream *)
(** Vp3Reader.py 49-67 from the position of the stream on. *)
Definition vp3_read_from (f : stream) : res (list (stitch Z) * list vp3_thread_read) :=
  let '(_, f) := s_read 6 f in
  do f <- skip_vp3_string f;
  let f := s_seek 7 f in
  do f <- skip_vp3_string f;
  let f := s_seek 32 f in
  let '(cx, f) := s_int read_int_32be f in
  do cx <- some cx;
  let '(cy, f) := s_int read_int_32be f in
  do cy <- some cy;
  let f := s_seek 27 f in
  do f <- skip_vp3_string f;
  let f := s_seek 24 f in
  do f <- skip_vp3_string f;
  let '(count, f) := s_int read_int_16be f in
  do count <- some count;
  do '(o, threads) <- vp3_read_blocks (Z.to_nat count) (signed32 cx) (- signed32 cy) f (0, 0, []) [];
  Ok (snd (out_rel o (mkS 0 0 END)), threads).
(** PecReader.py 9-13 from a position of a stream on. *)
Definition pec_read_from (whole : list Z) (at_ : Z) : res (list (stitch Z) * list thread * metadata) :=
  let '(_, f) := read_string_8 (Some 8) (seek_to whole at_) in
  do r <- read_pec whole f [];
  Ok (finish_read r).
(** JefReader.py 55-71 from a position of a stream on: the last seek is from the beginning of the stream. *)
Definition jef_read_from {T} (thread_of : Z -> T) (whole : list Z) (at_ : nat) : res (list (stitch Z) * list (option T)) :=
  let file := skipn at_ whole in
  match read_int_32le file, read_int_32le (skipn 24 file) with
  | (Some offset, _), (Some count, _) =>
      do threads <- jef_read_colors thread_of (Z.to_nat count) (skipn 116 file);
      jef_read_stitches threads (skipn (Z.to_nat offset) whole)
  | (_, _), (None, _) => Err TypeError
  | (None, _), _ => Err TypeError
  end.
