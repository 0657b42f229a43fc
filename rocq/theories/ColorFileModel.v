(** pyembroidery/EdrWriter.py, EdrReader.py, ColWriter.py, ColReader.py, InfWriter.py,
    InfReader.py: whole files.  A read thread has the attributes that the reader sets; the
    others stay None. *)
From Coq Require Import Ascii String ZArith List Bool.
From Verif Require Import PyBase HelperModel ThreadModel Utf8Model TextModel PatternModel Vp3Model.
Import ListNotations.
Open Scope Z_scope.

(* EmbThread.py 66-67, 179-180 *)
Definition color_rgb (r g b : Z) : Z :=
  Z.lor (Z.lor (Z.shiftl (Z.land r 255) 16) (Z.shiftl (Z.land g 255) 8)) (Z.land b 255).

(* EdrWriter.py 6-12 *)
Definition edr_write (threads : list thread) : list Z :=
  flat_map (fun t => write_int_8 (get_red (t_color t)) ++ write_int_8 (get_green (t_color t))
                     ++ write_int_8 (get_blue (t_color t)) ++ write_int_8 0) threads.
(** EdrReader.py 5-15; the fourth byte may be missing (f.seek goes beyond the end). *)
Fixpoint edr_read (s : list Z) : list thread :=
  match s with
  | red :: green :: blue :: r =>
      plain_thread (color_rgb red green blue) :: match r with _ :: r' => edr_read r' | [] => [] end
  | _ => []
  end.

(* ColWriter.py 9-15 *)
Fixpoint col_lines (index : Z) (threads : list thread) : text :=
  match threads with
  | [] => []
  | t :: r =>
      str_of_int index ++ [44] ++ str_of_int (get_red (t_color t)) ++ [44]
      ++ str_of_int (get_green (t_color t)) ++ [44] ++ str_of_int (get_blue (t_color t)) ++ [13; 10]
      ++ col_lines (index + 1) r
  end.
(* ColWriter.py 6-15 *)
Definition col_write (threads : list thread) : res (list Z) :=
  utf8_encode (str_of_int (zlen threads) ++ [13; 10] ++ col_lines 0 threads).
(* ColReader.py 8-14; [n] lines left *)
Fixpoint col_read_lines (n : nat) (f : text) : res (list thread) :=
  match n with
  | O => Ok []
  | S n =>
      let '(line, f) := readline f in
      match split_on 44 line with
      | c :: r :: g :: b :: _ =>
          do r <- int_of_text r;
          do g <- int_of_text g;
          do b <- int_of_text b;
          do rest <- col_read_lines n f;
          Ok (mkT (color_rgb r g b) None (Some c) None None None None :: rest)
      | _ :: r :: g :: [] => do r <- int_of_text r; do g <- int_of_text g; Err IndexError
      | _ :: r :: [] => do r <- int_of_text r; Err IndexError
      | _ => Err IndexError
      end
  end.
(** ColReader.py 6-14, on a file opened in text mode; UnicodeDecodeError is a ValueError. *)
Definition col_read (file : list Z) : res (list thread) :=
  match utf8_decode file with
  | None => Err ValueError
  | Some t =>
      let '(line, f) := readline (universal_newlines t) in
      do count <- int_of_text line;
      col_read_lines (Z.to_nat count) f
  end.

Definition unknown : text := text_of "Unknown".
(* InfWriter.py 21-40 *)
Fixpoint inf_records (index : Z) (threads : list thread) : res (list Z) :=
  match threads with
  | [] => Ok []
  | t :: r =>
      let details := match t_description t with Some d => d | None => unknown end in
      let chart := match t_chart t with Some c => c | None => unknown end in
      do d <- utf8_encode details;
      do c <- utf8_encode chart;
      do rest <- inf_records (index + 1) r;
      Ok (write_int_16be (11 + zlen details + zlen chart) ++ write_int_16be index
          ++ write_int_8 (get_red (t_color t)) ++ write_int_8 (get_green (t_color t))
          ++ write_int_8 (get_blue (t_color t)) ++ write_int_16be (index + 1)
          ++ d ++ write_int_8 0 ++ c ++ write_int_8 0 ++ rest)
  end.
(** InfWriter.py 14-41; the place-holder is patched with the number of bytes after it. *)
Definition inf_write (threads : list thread) : res (list Z) :=
  do records <- inf_records 0 threads;
  let tail := write_int_32be (zlen threads) ++ records in
  Ok (write_int_32be 1 ++ write_int_32be 8 ++ write_int_32be (zlen tail) ++ tail).

(** InfReader.py 21-31: the bytes before the first zero byte and those after it. *)
Fixpoint cut_nul (s : list Z) : option (list Z * list Z) :=
  match s with
  | [] => None
  | b :: r =>
      if b =? 0 then Some ([], r)
      else match cut_nul r with Some (a, q) => Some (b :: a, q) | None => None end
  end.
(* InfReader.py 10-32; [n] records left *)
Fixpoint inf_read_records (n : nat) (f : stream) : res (list thread) :=
  match n with
  | O => Ok []
  | S n =>
      let '(v, f) := s_int read_int_16be f in
      do v <- some v;
      let length := v - 2 in
      let '(byte_data, f) := s_read length f in
      if negb (zlen byte_data =? length) then Ok []
      else
        do red <- py_index 2 byte_data;
        do green <- py_index 3 byte_data;
        do blue <- py_index 4 byte_data;
        let byte_data := skipn 7 byte_data in
        do '(description, byte_data) <-
          match cut_nul byte_data with
          | None => Ok (None, byte_data)
          | Some (a, q) => match utf8_decode a with Some d => Ok (Some d, q) | None => Err ValueError end
          end;
        do chart <-
          match cut_nul byte_data with
          | None => Ok None
          | Some (a, q) => match utf8_decode a with Some d => Ok (Some d) | None => Err ValueError end
          end;
        do rest <- inf_read_records n f;
        Ok (mkT (color_rgb red green blue) description None None None chart None :: rest)
  end.
(* InfReader.py 5-32 *)
Definition inf_read (file : list Z) : res (list thread) :=
  let '(_, f) := s_int read_int_32be (0, file) in
  let '(_, f) := s_int read_int_32be f in
  let '(_, f) := s_int read_int_32be f in
  let '(count, f) := s_int read_int_32be f in
  do count <- some count;
  inf_read_records (Z.to_nat count) f.
