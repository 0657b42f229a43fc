(** pyembroidery/TbfWriter.py, TbfReader.py, U01Writer.py, U01Reader.py, XxxWriter.py and
    XxxReader.py: whole files, the headers around the stitch data of TbfModel.v, U01Model.v and
    XxxModel.v.  Coordinates are exact rationals; a thread is its colour.  The setting "ct0" of
    the TBF writer, which writes a second file, is not modelled. *)
From Coq Require Import Ascii String ZArith QArith List Bool.
From Verif Require Import PyBase EmbConst StreamModel NumQ QuantModel ThreadModel HelperModel Utf8Model TextModel
  PatternModel DstFileModel TbfModel U01Model XxxModel.
Import ListNotations.
Open Scope Z_scope.

(** for i in range(f.tell(), stop): f.write(b"\x20"), where [bytes] are what f holds. *)
Definition pad_to (stop : Z) (bytes : list Z) : list Z := bytes ++ repeat 32 (Z.to_nat (stop - zlen bytes)).

(** ** TBF *)
(** The metadata "name" and "tp" and the colours of the threads. *)
Record tbf_info := mkTbf { tbf_name : option text; tbf_tp : option text; tbf_colors : list Z }.
(* EmbPattern.py 358-359 *)
Definition count_needle_sets {C} (l : list (stitch C)) : Z := zlen (filter (fun s => cmd_of (scmd s) =? NEEDLE_SET) l).

(* TbfWriter.py 23-25 *)
Definition tbf_label (p : tbf_info) : text :=
  header_line "LA" (pad_right 16 (match tbf_name p with Some n => n | None => text_of "Untitled" end)).
(** TbfWriter.py 26-53; "%5d" of an infinite bound raises OverflowError. *)
Definition tbf_lines (p : tbf_info) (l : list (stitch Q)) : res text :=
  let '(min_x, min_y, max_x, max_y) := bounds l in
  do x1 <- cut_abs max_x;
  do x0 <- cut_abs min_x;
  do y1 <- cut_abs max_y;
  do y0 <- cut_abs min_y;
  let '(ax, ay) := match rev l with s :: _ => (q_cut (sx s), - q_cut (sy s)) | [] => (0, 0) end in
  Ok (header_line "ST" (pad_left 7 (str_of_int (zlen l)))
      ++ header_line "CO" (pad_left 3 (str_of_int (count_needle_sets l)))
      ++ header_line "+X" (pad_left 5 (str_of_int x1))
      ++ header_line "-X" (pad_left 5 (str_of_int x0))
      ++ header_line "+Y" (pad_left 5 (str_of_int y1))
      ++ header_line "-Y" (pad_left 5 (str_of_int y0))
      ++ signed_line "AX" ax ++ signed_line "AY" ay
      ++ header_line "TP" (pad_right 32 (match tbf_tp p with Some t => t | None => text_of "EG/" end))
      ++ header_line "JC" (text_of "3")
      ++ text_of "DO:").
(** TbfWriter.py 71-77: one thread; write_int_8 keeps the low byte. *)
Definition tbf_thread (c : Z) : list Z := [0x45; sh8 c 16; sh8 c 8; sh8 c 0; 0x20].
(* TbfWriter.py 13-122 *)
Definition tbf_write (p : tbf_info) (l : list (stitch Q)) : res (list Z) :=
  do la <- utf8_encode (tbf_label p);
  do t <- tbf_lines p l;
  do t <- utf8_encode t;
  do order <- tbf_thread_order l;
  let f := pad_to 0x80 (text_of "3.00") ++ la ++ t ++ order ++ [13] ++ text_of "DA:" ++ flat_map tbf_thread (tbf_colors p) in
  let f := pad_to 0x376 f ++ [0x0D; 0x1A] in
  Ok (pad_to 0x600 f ++ tbf_body qz_q l).

(** TbfReader.py 12-19: the threads; a colour cut off by the end of the file is None. *)
Fixpoint tbf_read_threads (s : list Z) : list (option Z) :=
  match s with
  | [] => []
  | m :: r =>
      if m =? 0x45 then
        match r with
        | a :: b :: c :: r =>
            Some (Z.shiftl (b8 a) 16 + Z.shiftl (b8 b) 8 + b8 c)
            :: match r with _ :: r => tbf_read_threads r | [] => [] end
        | _ => [None]
        end
      else []
  end.
(** TbfReader.py 5-58: the name (None.strip() is an AttributeError), the threads, the stitches. *)
Definition tbf_read_file (file : list Z) : res (text * list (option Z) * list (stitch Z)) :=
  match utf8_decode (firstn 0x10 (skipn 0x83 file)) with
  | None => Err AttributeError
  | Some name =>
      do l <- tbf_read (firstn 0x100 (skipn 0x10A file)) (skipn 0x600 file);
      Ok (strip name, tbf_read_threads (skipn 0x20E file), l)
  end.

(** ** U01 *)
Definition int_of (v : option Q) : res Z := match v with Some v => Ok (q_cut v) | None => Err OverflowError end.
(** U01Writer.py 12-32 and the body: 128 characters "0", a header up to 0x100; an empty pattern
    is the 128 characters only. *)
Definition u01_write (l : list (stitch Q)) : res (list Z) :=
  match rev l with
  | [] => Ok (repeat 48 128)
  | last :: _ =>
      let '(min_x, min_y, max_x, max_y) := bounds l in
      do x0 <- int_of min_x;
      do y1 <- int_of max_y;
      do x1 <- int_of max_x;
      do y0 <- int_of min_y;
      let h := repeat 48 128
        ++ write_int_16le x0 ++ write_int_16le (- y1) ++ write_int_16le x1 ++ write_int_16le (- y0)
        ++ write_int_32le 0 ++ write_int_32le (zlen l + 1)
        ++ write_int_16le (q_cut (sx last)) ++ write_int_16le (- q_cut (sy last)) in
      do b <- u01_body qz_q l;
      Ok (h ++ repeat 0 (Z.to_nat (0x100 - zlen h)) ++ b)
  end.
(* U01Reader.py 86-88 *)
Definition u01_read_file (file : list Z) : list (stitch Z) := u01_read (skipn 0x100 file).

(** ** XXX *)
(** XxxWriter.py 10-37 (header b); on an empty pattern int(-inf) raises OverflowError. *)
Definition xxx_header (threads : list Z) (l : list (stitch Q)) : res (list Z) :=
  match bounds l, rev l with
  | (Some min_x, Some min_y, Some max_x, Some max_y), last :: _ =>
      Ok (repeat 0 0x17 ++ write_int_32le (zlen l - 1) ++ repeat 0 0x0C ++ write_int_32le (zlen threads) ++ write_int_16le 0
          ++ write_int_16le (q_cut (max_x - min_x)) ++ write_int_16le (q_cut (max_y - min_y))
          ++ write_int_16le (q_cut (sx last)) ++ write_int_16le (q_cut (- sy last))
          ++ write_int_16le (q_cut (- min_x)) ++ write_int_16le (q_cut max_y)
          ++ repeat 0 0x42 ++ write_int_16le 0 ++ write_int_16le 0 ++ repeat 0 0x73 ++ write_int_16le 0x20 ++ repeat 0 0x08)
  | _, _ => Err OverflowError
  end.
(** XxxWriter.py 126-140: the end of the stitches is filled in afterwards in front of them. *)
Definition xxx_write (threads : list Z) (l : list (stitch Q)) : res (list Z) :=
  do h <- xxx_header threads l;
  let stitches := xxx_loop (quantise qz_q 0 0 l) in
  Ok (h ++ write_int_32le (zlen h + 4 + zlen stitches) ++ xxx_tail qz_q l threads).
(** XxxReader.py 9-51; a file too short for the number of colours is too short for the stitches,
    which raise TypeError, as range(0, None) would. *)
Definition xxx_read_file (file : list Z) : res (list (stitch Z) * list Z) :=
  match read_int_16le (skipn 0x27 file) with
  | (None, _) => Err TypeError
  | (Some n, _) => xxx_read (Z.to_nat n) (skipn 0x100 file)
  end.
