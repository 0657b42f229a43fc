(** pyembroidery/PesWriter.py and PesReader.py: whole PES files.  Coordinates are exact
    rationals.  [f32 v] are the four bytes struct.pack("<f", v) makes of a number
    (WriteHelper.py 105-106); nothing is assumed about them but their count, and the
    OverflowError of numbers beyond the range of a float is not modelled. *)
From Coq Require Import Ascii String ZArith QArith Qround List Bool.
From Verif Require Import PyBase EmbConst HelperModel NumQ ThreadModel Utf8Model TextModel PatternModel Vp3Model
  PecModel PecFileModel.
Import ListNotations.
Open Scope Z_scope.

(** ** Writer *)
(** The entries of the pattern's metadata that the writer uses, None when missing. *)
Definition meta_source := text -> option text.

(* PesWriter.py 218-225 *)
Definition write_pes_string_8 (t : option text) : res (list Z) :=
  match t with
  | None => Ok (write_int_8 0)
  | Some t =>
      let t := if 255 <? zlen t then firstn 255 t else t in
      do b <- utf8_encode t; Ok (write_int_8 (zlen t) ++ b)
  end.
(* PesWriter.py 228-234, only used for ASCII constants *)
Definition write_pes_string_16 (t : text) : list Z := write_int_16le (zlen t) ++ t.

(* PesWriter.py 237-246 *)
Definition write_pes_thread (t : thread) : res (list Z) :=
  do catalog <- write_pes_string_8 (t_catalog t);
  do description <- write_pes_string_8 (t_description t);
  do brand <- write_pes_string_8 (t_brand t);
  do chart <- write_pes_string_8 (t_chart t);
  Ok (catalog ++ write_int_8 (get_red (t_color t)) ++ write_int_8 (get_green (t_color t))
      ++ write_int_8 (get_blue (t_color t)) ++ write_int_8 0 ++ write_int_32le 0xA ++ description ++ brand ++ chart).
Fixpoint write_pes_threads (l : list thread) : res (list Z) :=
  match l with
  | [] => Ok []
  | t :: r => do a <- write_pes_thread t; do b <- write_pes_threads r; Ok (a ++ b)
  end.

(* PesWriter.py 155-158 *)
Definition write_pes_header_v1 (distinct_block_objects : Z) : list Z :=
  write_int_16le 1 ++ write_int_16le 1 ++ write_int_16le distinct_block_objects.

(** The numbers of PesWriter.py 169-186. *)
Definition header_v6_numbers : list Z :=
  [0; 0; 0x64; 0x64; 0; 0xC8; 0xC8; 0x64; 0x64; 0x64; 7; 0x13; 1; 1; 0; 100; 1; 0].
(* PesWriter.py 161-202 *)
Definition write_pes_header_v6 (f32 : Q -> list Z) (md : meta_source) (chart : list thread)
    (distinct_block_objects : Z) : res (list Z) :=
  do name <- write_pes_string_8 (md (text_of "name"));
  do category <- write_pes_string_8 (md (text_of "category"));
  do author <- write_pes_string_8 (md (text_of "author"));
  do keywords <- write_pes_string_8 (md (text_of "keywords"));
  do comments <- write_pes_string_8 (md (text_of "comments"));
  do threads <- write_pes_threads chart;
  Ok (write_int_16le 1 ++ [48; 50] ++ name ++ category ++ author ++ keywords ++ comments
      ++ flat_map write_int_16le header_v6_numbers
      ++ write_int_8 0
      ++ f32 1%Q ++ f32 0%Q ++ f32 0%Q ++ f32 1%Q ++ f32 0%Q ++ f32 0%Q
      ++ write_int_16le 0 ++ write_int_16le 0 ++ write_int_16le 0
      ++ write_int_16le (zlen chart) ++ threads
      ++ write_int_16le distinct_block_objects).

(* PesWriter.py 205-215 *)
Definition write_pes_addendum (index_list : list Z) (rgb_list : list Z) : list Z :=
  index_list ++ repeat 0x20 (Z.to_nat (128 - zlen index_list))
  ++ flat_map (fun _ => repeat 0 144) rgb_list
  ++ flat_map write_int_24le rgb_list.

(** One segment: its points, colour code and flag. *)
Definition segment := (list (Q * Q) * option nat * Z)%type.
(** PesWriter.py 325-347: [bs] are the command blocks left, none of them empty. *)
Fixpoint segments_blocks (get : Z -> thread) (chart : list (option thread)) (adjust_x adjust_y : Q)
    (color_index : Z) (color_code : option nat) (stitched : Q * Q) (bs : list (list (stitch Q))) : list segment :=
  match bs with
  | [] => []
  | b :: r =>
      match b with
      | [] => segments_blocks get chart adjust_x adjust_y color_index color_code stitched r
      | s :: _ =>
          let command := cmd_of (scmd s) in
          let point := fun s : stitch Q => ((sx s - adjust_x)%Q, (sy s - adjust_y)%Q) in
          let final := last b s in
          if command =? JUMP then
            ([((fst stitched - adjust_x)%Q, (snd stitched - adjust_y)%Q); point final], color_code, 1)
            :: segments_blocks get chart adjust_x adjust_y color_index color_code stitched r
          else if command =? COLOR_CHANGE then
            segments_blocks get chart adjust_x adjust_y (color_index + 1)
              (find_nearest_color_index (t_color (get color_index)) chart) stitched r
          else if command =? STITCH then
            (map point b, color_code, 0)
            :: segments_blocks get chart adjust_x adjust_y color_index color_code (sx final, sy final) r
          else segments_blocks get chart adjust_x adjust_y color_index color_code stitched r
      end
  end.
(* PesWriter.py 318-347 *)
Definition get_as_segments_blocks (get : Z -> thread) (chart : list (option thread)) (adjust_x adjust_y : Q)
    (l : list (stitch Q)) : list segment :=
  segments_blocks get chart adjust_x adjust_y 1 (find_nearest_color_index (t_color (get 0)) chart) (0%Q, 0%Q)
    (get_as_command_blocks l).

(** int(v) *)
Definition q_trunc (v : Q) : Z := Z.quot (Qnum v) (Zpos (Qden v)).
(** PesWriter.py 358-375: [previous] is the last colour code, None before the first.  A missing
    colour code cannot be written: TypeError. *)
Fixpoint write_segments (first : bool) (section : Z) (previous : option nat) (l : list segment)
  : res (list Z * list (Z * Z)) :=
  match l with
  | [] => Ok ([], [])
  | (points, code, flag) :: r =>
      match code with
      | None => Err TypeError
      | Some c =>
          do ' (bytes, log) <- write_segments false (section + 1) code r;
          Ok ((if first then [] else write_int_16le 0x8003)
              ++ write_int_16le flag ++ write_int_16le (Z.of_nat c) ++ write_int_16le (zlen points)
              ++ flat_map (fun p => write_int_16le (q_trunc (fst p)) ++ write_int_16le (q_trunc (snd p))) points
              ++ bytes,
              (if oidx_eqb previous code then [] else [(section, Z.of_nat c)]) ++ log)
      end
  end.
(** PesWriter.py 350-382: the bytes, the number of sections and the colour log. *)
Definition write_pes_embsewseg_segments (get : Z -> thread) (chart : list (option thread)) (adjust_x adjust_y : Q)
    (l : list (stitch Q)) : res (list Z * Z * list (Z * Z)) :=
  let segments := get_as_segments_blocks get chart adjust_x adjust_y l in
  do ' (bytes, log) <- write_segments true 0 None segments;
  Ok (bytes ++ write_int_16le (zlen log)
      ++ flat_map (fun i => write_int_16le (fst i) ++ write_int_16le (snd i)) log, zlen segments, log).

(** PesWriter.py 277-315, with the section count that is patched in afterwards. *)
Definition write_pes_sewsegheader (f32 : Q -> list Z) (width height : Q) (sections : Z) : list Z :=
  repeat 0 16
  ++ f32 1%Q ++ f32 0%Q ++ f32 0%Q ++ f32 1%Q
  ++ f32 (350 + 1300 / 2 + - width / 2)%Q ++ f32 (100 + height + 1800 / 2 + - height / 2)%Q
  ++ write_int_16le 1 ++ write_int_16le 0 ++ write_int_16le 0
  ++ write_int_16le (q_trunc width) ++ write_int_16le (q_trunc height)
  ++ repeat 0 8 ++ write_int_16le sections.

(** PesWriter.py 249-274 and 83-93 (the extents relative to their centre), for a pattern with
    stitches. *)
Definition write_pes_blocks (f32 : Q -> list Z) (get : Z -> thread) (chart : list (option thread)) (e : box)
    (l : list (stitch Q)) : res (list Z * list (Z * Z)) :=
  let '(x0, y0, x1, y1) := e in
  let cx := ((x1 + x0) / 2)%Q in
  let cy := ((y1 + y0) / 2)%Q in
  let lft := (x0 - cx)%Q in
  let top := (y0 - cy)%Q in
  let rgt := (x1 - cx)%Q in
  let bottom := (y1 - cy)%Q in
  do ' (segments, sections, log) <- write_pes_embsewseg_segments get chart (lft + cx) (bottom + cy) l;
  Ok (write_pes_string_16 (text_of "CEmbOne")
      ++ write_pes_sewsegheader f32 (rgt - lft) (bottom - top) sections
      ++ write_int_16le 0xFFFF ++ write_int_16le 0
      ++ write_pes_string_16 (text_of "CSewSeg") ++ segments
      ++ write_int_16le 0 ++ write_int_16le 0, log).

(** The place-holder of the PEC position: the file continues with [middle] and then the PEC
    part, whose absolute position is 12 + len(middle). *)
Definition pes_start (signature : string) (middle : list Z) : list Z :=
  text_of signature ++ write_int_32le (12 + zlen middle) ++ middle.

(* PesWriter.py 79-110 *)
Definition write_version_1 (f32 : Q -> list Z) (filler : Z -> thread) (order : list thread -> list thread)
    (md : meta_source) (l : list (stitch Q)) (threads : list thread) : res (list Z) :=
  do middle <-
    match box_of l with
    | None => Ok (write_pes_header_v1 0 ++ write_int_16le 0 ++ write_int_16le 0)
    | Some e =>
        do ' (blocks, _) <- write_pes_blocks f32 (get_thread_or_filler filler threads) pec_threads e l;
        Ok (write_pes_header_v1 1 ++ write_int_16le 0xFFFF ++ write_int_16le 0 ++ blocks)
    end;
  do ' (pec, _, _) <- write_pec filler order (md (text_of "name")) l threads;
  Ok (pes_start "#PES0001" middle ++ pec).

(** PesWriter.py 134-139: for i in range(0, len(log)) *)
Fixpoint v6_tree (i : Z) (log : list (Z * Z)) : list Z :=
  match log with [] => [] | _ :: r => write_int_32le i ++ write_int_32le 0 ++ v6_tree (i + 1) r end.
(* PesWriter.py 113-152 *)
Definition write_version_6 (f32 : Q -> list Z) (filler : Z -> thread) (order : list thread -> list thread)
    (md : meta_source) (l : list (stitch Q)) (threads : list thread) : res (list Z) :=
  let threads := fix_color_count filler l threads in
  do middle <-
    match box_of l with
    | None =>
        do header <- write_pes_header_v6 f32 md threads 0;
        Ok (header ++ write_int_16le 0 ++ write_int_16le 0)
    | Some e =>
        do header <- write_pes_header_v6 f32 md threads 1;
        do ' (blocks, log) <- write_pes_blocks f32 (get_thread_or_filler filler threads) (map Some threads) e l;
        Ok (header ++ write_int_16le 0xFFFF ++ write_int_16le 0 ++ blocks
            ++ write_int_32le 0 ++ write_int_32le 0 ++ v6_tree 0 log)
    end;
  do ' (pec, index_list, threads) <- write_pec filler order (md (text_of "name")) l threads;
  Ok (pes_start "#PES0060" middle ++ pec
      ++ write_pes_addendum index_list (map t_color threads) ++ write_int_16le 0).

(* PesWriter.py 55-58 *)
Definition write_truncated_version_1 (filler : Z -> thread) (order : list thread -> list thread)
    (md : meta_source) (l : list (stitch Q)) (threads : list thread) : res (list Z) :=
  do ' (pec, _, _) <- write_pec filler order (md (text_of "name")) l threads;
  Ok (text_of "#PES0001" ++ [0x16; 0; 0; 0; 0; 0; 0; 0; 0; 0; 0; 0; 0; 0] ++ pec).
(* PesWriter.py 61-76 *)
Definition write_truncated_version_6 (f32 : Q -> list Z) (filler : Z -> thread) (order : list thread -> list thread)
    (md : meta_source) (l : list (stitch Q)) (threads : list thread) : res (list Z) :=
  do header <- write_pes_header_v6 f32 md threads 0;
  do ' (pec, _, _) <- write_pec filler order (md (text_of "name")) l threads;
  Ok (pes_start "#PES0060" (header ++ repeat 0 5 ++ write_int_16le 0 ++ write_int_16le 0) ++ pec
      ++ write_pes_addendum [0xFF] [] ++ write_int_16le 0).

(** PesWriter.py 29-52.  How the settings choose the version (lines 33-43) is modelled in FilesModel.v:
    [version] is ten times the number they give, [truncated] their flag.  Any other version
    writes nothing. *)
Definition pes_write (f32 : Q -> list Z) (filler : Z -> thread) (order : list thread -> list thread)
    (version : Z) (truncated : bool) (md : meta_source) (l : list (stitch Q)) (threads : list thread)
  : res (list Z) :=
  let '(l, threads) := pec_prepare filler l threads in
  if truncated then
    if version =? 10 then write_truncated_version_1 filler order md l threads
    else if version =? 60 then write_truncated_version_6 f32 filler order md l threads
    else Ok []
  else
    if version =? 10 then write_version_1 f32 filler order md l threads
    else if version =? 60 then write_version_6 f32 filler order md l threads
    else Ok [].

(** ** Reader *)
(* PesReader.py 71-75; a length missing at the end of the file reads everything *)
Definition read_pes_string (f : stream) : option text * stream :=
  let '(length, f) := s_int read_int_8 f in
  match length with
  | Some n => if n =? 0 then (None, f) else read_string_8 (Some n) f
  | None => read_string_8 None f
  end.
(* PesReader.py 79-81 and the lines like it *)
Definition read_pes_entry (key : string) (f : stream) : metadata * stream :=
  let '(v, f) := read_pes_string f in
  (match v with Some (c :: t) => [(text_of key, Meta_text (c :: t))] | _ => [] end, f).
(* PesReader.py 78-93 *)
Definition read_pes_metadata (f : stream) : metadata * stream :=
  let '(m1, f) := read_pes_entry "name" f in
  let '(m2, f) := read_pes_entry "category" f in
  let '(m3, f) := read_pes_entry "author" f in
  let '(m4, f) := read_pes_entry "keywords" f in
  let '(m5, f) := read_pes_entry "comments" f in
  (m1 ++ m2 ++ m3 ++ m4 ++ m5, f).

(* PesReader.py 96-104 *)
Definition read_pes_thread (f : stream) : res (thread * stream) :=
  let '(catalog, f) := read_pes_string f in
  let '(color, f) := s_int read_int_24be f in
  do color <- some color;
  let f := s_seek 5 f in
  let '(description, f) := read_pes_string f in
  let '(brand, f) := read_pes_string f in
  let '(chart, f) := read_pes_string f in
  Ok (mkT (Z.lor 0xFF000000 color) description catalog None brand chart None, f).
(* PesReader.py 135-136; [n] threads left *)
Fixpoint read_pes_threads (n : nat) (f : stream) : res (list thread) :=
  match n with
  | O => Ok []
  | S n => do ' (t, f) <- read_pes_thread f; do r <- read_pes_threads n f; Ok (t :: r)
  end.
(** PesReader.py 123-136 and the same lines of the other versions: complicated items and
    missing counts end the header. *)
Definition read_pes_counts (f : stream) : res (list thread) :=
  let '(fills, f) := s_int read_int_16le f in
  match fills with
  | Some 0 =>
      let '(motifs, f) := s_int read_int_16le f in
      match motifs with
      | Some 0 =>
          let '(feathers, f) := s_int read_int_16le f in
          match feathers with
          | Some 0 =>
              let '(count, f) := s_int read_int_16le f in
              do count <- some count;
              read_pes_threads (Z.to_nat count) f
          | _ => Ok []
          end
      | _ => Ok []
      end
  | _ => Ok []
  end.
(** PesReader.py 117-254: versions 5 to 10 differ in the name of the picture entry, in the
    numbers of bytes skipped, and in a hoop name (versions 9 and 10). *)
Definition read_pes_header (hoop : bool) (skip : Z) (image : string) (skip2 : Z) (f : stream)
  : res (list thread * metadata) :=
  let f := s_seek 4 f in
  let '(m1, f) := read_pes_metadata f in
  let '(m2, f) := if hoop then let f := s_seek 14 f in read_pes_entry "hoop_name" f else ([], f) in
  let f := s_seek skip f in
  let '(m3, f) := read_pes_entry image f in
  let f := s_seek skip2 f in
  do threads <- read_pes_counts f;
  Ok (threads, m1 ++ m2 ++ m3).

Definition is_text (t : option text) (s : string) : bool :=
  match t with Some t => text_eqb t (text_of s) | None => false end.
Definition version_entry (tenths : Z) : metadata := [(text_of "version", Meta_version tenths)].
(** PesReader.py 29-66: the header of the version named by the signature. *)
Definition read_pes_version (signature : option text) (f : stream) : res (list thread * metadata) :=
  let header := fun tenths hoop skip image skip2 =>
    do ' (threads, m) <- read_pes_header hoop skip image skip2 f; Ok (threads, version_entry tenths ++ m) in
  if is_text signature "#PES0100" then header 100 true 38 "image_file"%string 34
  else if is_text signature "#PES0090" then header 90 true 30 "image_file"%string 34
  else if is_text signature "#PES0080" then header 80 false 38 "image_file"%string 26
  else if is_text signature "#PES0070" then header 70 false 36 "image_file"%string 24
  else if is_text signature "#PES0060" then header 60 false 36 "image_file"%string 24
  else if is_text signature "#PES0050" then header 50 false 24 "image"%string 24
  else if is_text signature "#PES0055" then header 55 false 24 "image"%string 24
  else if is_text signature "#PES0056" then header 56 false 24 "image"%string 24
  else if is_text signature "#PES0040" then
    let '(m, _) := read_pes_metadata (s_seek 4 f) in Ok ([], version_entry 40 ++ m)
  else if is_text signature "#PES0030" then Ok ([], version_entry 30)
  else if is_text signature "#PES0022" then Ok ([], version_entry 22)
  else if is_text signature "#PES0020" then Ok ([], version_entry 20)
  else if is_text signature "#PES0001" then Ok ([], version_entry 10)
  else Ok ([], []).

(* PesReader.py 12-68 *)
Definition pes_read (file : list Z) : res (list (stitch Z) * list thread * metadata) :=
  let '(signature, f) := read_string_8 (Some 8) (0, file) in
  if is_text signature "#PEC0001" then do r <- read_pec file f []; Ok (finish_read r)
  else
    let '(position, f) := s_int read_int_32le f in
    do ' (chart, m) <- read_pes_version signature f;
    do position <- some position;
    do ' (stitches, threads, m') <- read_pec file (seek_to file position) chart;
    Ok (finish_read (stitches, threads, m ++ m')).
