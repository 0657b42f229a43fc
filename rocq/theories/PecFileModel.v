(** pyembroidery/EmbThreadPec.py, PecGraphics.py, PecWriter.py 28-111 and PecReader.py 1-95:
    whole PEC files.  Coordinates are exact rationals. *)
From Coq Require Import Ascii String ZArith QArith Qround Qminmax List Bool.
From Verif Require Import PyBase EmbConst StreamModel HelperModel NumQ QuantModel ThreadModel Utf8Model TextModel
  PatternModel Vp3Model ColorFileModel CompressModel PecModel.
Import ListNotations.
Open Scope Z_scope.

(** ** The palette *)
(* EmbThreadPec.py 75-82 *)
Definition pec_thread (red green blue : Z) (description catalog : string) : option thread :=
  Some (mkT (color_rgb red green blue) (Some (text_of description)) (Some (text_of catalog)) None
            (Some (text_of "Brother")) (Some (text_of "Brother")) None).
(* EmbThreadPec.py 4-71 *)
Definition pec_threads : list (option thread) :=
  [None;
   pec_thread 14 31 124 "Prussian Blue" "1";
   pec_thread 10 85 163 "Blue" "2";
   pec_thread 0 135 119 "Teal Green" "3";
   pec_thread 75 107 175 "Cornflower Blue" "4";
   pec_thread 237 23 31 "Red" "5";
   pec_thread 209 92 0 "Reddish Brown" "6";
   pec_thread 145 54 151 "Magenta" "7";
   pec_thread 228 154 203 "Light Lilac" "8";
   pec_thread 145 95 172 "Lilac" "9";
   pec_thread 158 214 125 "Mint Green" "10";
   pec_thread 232 169 0 "Deep Gold" "11";
   pec_thread 254 186 53 "Orange" "12";
   pec_thread 255 255 0 "Yellow" "13";
   pec_thread 112 188 31 "Lime Green" "14";
   pec_thread 186 152 0 "Brass" "15";
   pec_thread 168 168 168 "Silver" "16";
   pec_thread 125 111 0 "Russet Brown" "17";
   pec_thread 255 255 179 "Cream Brown" "18";
   pec_thread 79 85 86 "Pewter" "19";
   pec_thread 0 0 0 "Black" "20";
   pec_thread 11 61 145 "Ultramarine" "21";
   pec_thread 119 1 118 "Royal Purple" "22";
   pec_thread 41 49 51 "Dark Gray" "23";
   pec_thread 42 19 1 "Dark Brown" "24";
   pec_thread 246 74 138 "Deep Rose" "25";
   pec_thread 178 118 36 "Light Brown" "26";
   pec_thread 252 187 197 "Salmon Pink" "27";
   pec_thread 254 55 15 "Vermilion" "28";
   pec_thread 240 240 240 "White" "29";
   pec_thread 106 28 138 "Violet" "30";
   pec_thread 168 221 196 "Seacrest" "31";
   pec_thread 37 132 187 "Sky Blue" "32";
   pec_thread 254 179 67 "Pumpkin" "33";
   pec_thread 255 243 107 "Cream Yellow" "34";
   pec_thread 208 166 96 "Khaki" "35";
   pec_thread 209 84 0 "Clay Brown" "36";
   pec_thread 102 186 73 "Leaf Green" "37";
   pec_thread 19 74 70 "Peacock Blue" "38";
   pec_thread 135 135 135 "Gray" "39";
   pec_thread 216 204 198 "Warm Gray" "40";
   pec_thread 67 86 7 "Dark Olive" "41";
   pec_thread 253 217 222 "Flesh Pink" "42";
   pec_thread 249 147 188 "Pink" "43";
   pec_thread 0 56 34 "Deep Green" "44";
   pec_thread 178 175 212 "Lavender" "45";
   pec_thread 104 106 176 "Wisteria Violet" "46";
   pec_thread 239 227 185 "Beige" "47";
   pec_thread 247 56 102 "Carmine" "48";
   pec_thread 181 75 100 "Amber Red" "49";
   pec_thread 19 43 26 "Olive Green" "50";
   pec_thread 199 1 86 "Dark Fuchsia" "51";
   pec_thread 254 158 50 "Tangerine" "52";
   pec_thread 168 222 235 "Light Blue" "53";
   pec_thread 0 103 62 "Emerald Green" "54";
   pec_thread 78 41 144 "Purple" "55";
   pec_thread 47 126 32 "Moss Green" "56";
   pec_thread 255 204 204 "Flesh Pink" "57";
   pec_thread 255 217 17 "Harvest Gold" "58";
   pec_thread 9 91 166 "Electric Blue" "59";
   pec_thread 240 249 112 "Lemon Yellow" "60";
   pec_thread 227 243 91 "Fresh Green" "61";
   pec_thread 255 153 0 "Orange" "62";
   pec_thread 255 240 141 "Cream Yellow" "63";
   pec_thread 255 200 200 "Applique" "64"].

(** ** Preview pictures *)
(* PecGraphics.py 3-236 *)
Definition blank_graphic : list Z :=
  repeat 0 6 ++ [0xF0; 0xFF; 0xFF; 0xFF; 0xFF; 0x0F] ++ [8; 0; 0; 0; 0; 0x10] ++ [4; 0; 0; 0; 0; 0x20]
  ++ concat (repeat [2; 0; 0; 0; 0; 0x40] 30)
  ++ [4; 0; 0; 0; 0; 0x20] ++ [8; 0; 0; 0; 0; 0x10] ++ [0xF0; 0xFF; 0xFF; 0xFF; 0xFF; 0x0F] ++ repeat 0 6.

(** graphic[i] |= m, a negative i counting from the end; None for IndexError. *)
Definition or_at (i m : Z) (graphic : list Z) : option (list Z) :=
  let i := if i <? 0 then i + zlen graphic else i in
  if i <? 0 then None
  else match nth_error graphic (Z.to_nat i) with
       | Some b => Some (firstn (Z.to_nat i) graphic ++ Z.lor b m :: skipn (Z.to_nat i + 1) graphic)
       | None => None
       end.
(** PecGraphics.py 323-325; int(x / 8) truncates. *)
Definition graphic_mark_bit (graphic : list Z) (x y stride : Z) : option (list Z) :=
  or_at (y * stride + Z.quot x 8) (Z.shiftl 1 (x mod 8)) graphic.

(** Where a point is drawn: PecGraphics.py 269-303, in exact arithmetic. *)
Definition box := (Q * Q * Q * Q)%type.
Definition graphic_scale (e : box) (stride height buffer : Z) : Q :=
  let '(lft, top, rgt, bottom) := e in
  let diagram_width := if Qeq_bool (rgt - lft) 0 then 1%Q else (rgt - lft)%Q in
  let diagram_height := if Qeq_bool (bottom - top) 0 then 1%Q else (bottom - top)%Q in
  Qmin (inject_Z (stride * 8 - buffer) / diagram_width) (inject_Z (height - buffer) / diagram_height).
Definition drawn_x (e : box) (stride height buffer : Z) (x : Q) : Z :=
  let '(lft, top, rgt, bottom) := e in
  let scale := graphic_scale e stride height buffer in
  Qfloor (x * scale + (- ((rgt + lft) / 2) * scale + inject_Z (stride * 8) / 2))%Q.
Definition drawn_y (e : box) (stride height buffer : Z) (y : Q) : Z :=
  let '(lft, top, rgt, bottom) := e in
  let scale := graphic_scale e stride height buffer in
  Qfloor (y * scale + (- ((bottom + top) / 2) * scale + inject_Z height / 2))%Q.
(** PecGraphics.py 255-315, on a list extends; IndexError is ignored (line 314).  The height
    len(graphic) / stride is integral: both graphics are of 38 rows. *)
Definition draw_scaled (e : box) (points : list (stitch Q)) (stride buffer : Z) (graphic : list Z) : list Z :=
  let height := zlen graphic / stride in
  fold_left (fun g p =>
    match graphic_mark_bit g (drawn_x e stride height buffer (sx p)) (drawn_y e stride height buffer (sy p)) stride with
    | Some g' => g'
    | None => g
    end) points graphic.

(** ** Writer *)
(** What bounds() returns for a pattern with stitches; None for the infinities of an empty one. *)
Definition box_of (l : list (stitch Q)) : option box :=
  match bounds l with
  | (Some x0, Some y0, Some x1, Some y1) => Some (x0, y0, x1, y1)
  | _ => None
  end.

(** bytearray(l) of a list of palette indexes: None raises TypeError, above 255 ValueError. *)
Fixpoint index_bytes (l : list (option nat)) : res (list Z) :=
  match l with
  | [] => Ok []
  | None :: _ => Err TypeError
  | Some i :: r => if 255 <? Z.of_nat i then Err ValueError else do t <- index_bytes r; Ok (Z.of_nat i :: t)
  end.

(** "%-16s" % t *)
Definition pad16 (t : text) : text := t ++ repeat 32 (16 - List.length t).
Definition untitled : text := text_of "Untitled".
(** PecWriter.py 46-75.  [order] enumerates the set of the threads (EmbThread.py 4), [name] is
    the pattern's "name" entry.  Returns the bytes and the colour index list of line 75, which
    has the count in front unless it is empty. *)
Definition write_pec_header (order : list thread -> list thread) (name : option text) (threads : list thread)
  : res (list Z * list Z) :=
  let name := match name with Some n => n | None => untitled end in
  do label <- utf8_encode (text_of "LA:" ++ pad16 (firstn 8 name) ++ [13]);
  let start := label ++ repeat 32 12 ++ [0xFF; 0x00] ++ write_int_8 6 ++ write_int_8 38 in
  let index_list := build_unique_palette (order threads) pec_threads threads in
  let count := zlen index_list in
  do ' (colours, index_list) <-
    (if negb (count =? 0) then
       if negb (count - 1 <? 255) then Err AssertionError
       else do l <- index_bytes index_list; Ok (repeat 32 12 ++ (count - 1) :: l, (count - 1) :: l)
     else Ok ([32; 32; 32; 32; 0x64; 32; 0; 32; 0; 32; 32; 32; 0xFF], []));
  Ok (start ++ colours ++ repeat 32 (Z.to_nat (463 - count)), index_list).

(** PecWriter.py 78-97: the place-holder is patched with the length of the whole block.  The
    width of an empty pattern is infinite: OverflowError. *)
Definition write_pec_block (e : option box) (l : list (stitch Q)) : res (list Z) :=
  match e with
  | None => Err OverflowError
  | Some (x0, y0, x1, y1) =>
      let tail := [0x31; 0xff; 0xf0] ++ write_int_16le (q_round (x1 - x0)) ++ write_int_16le (q_round (y1 - y0))
                  ++ write_int_16le 0x1E0 ++ write_int_16le 0x1B0 ++ pec_encode qz_q l in
      Ok ([0; 0] ++ write_int_24le (5 + zlen tail) ++ tail)
  end.

(** PecWriter.py 100-111.  The threads of the blocks are not used. *)
Definition write_pec_graphics (e : box) (l : list (stitch Q)) : list Z :=
  fold_left (fun g b => draw_scaled e (fst b) 6 4 g) (get_as_stitchblock (fun _ => tt) l) blank_graphic
  ++ flat_map (fun b => draw_scaled e (filter (fun s => scmd s =? STITCH) (fst b)) 6 5 blank_graphic)
       (get_as_colorblocks (fun _ => tt) l).

(** PecWriter.py 35-43.  Returns the bytes, the colour index list and the threads (completed). *)
Definition write_pec (filler : Z -> thread) (order : list thread -> list thread) (name : option text)
    (l : list (stitch Q)) (threads : list thread) : res (list Z * list Z * list thread) :=
  let threads := fix_color_count filler l threads in
  do ' (header, index_list) <- write_pec_header order name threads;
  do block <- write_pec_block (box_of l) l;
  let graphics := match box_of l with Some e => write_pec_graphics e l | None => [] end in
  Ok (header ++ block ++ graphics, index_list, threads).

(* PecWriter.py 28-32, PesWriter.py 31-32 *)
Definition pec_prepare (filler : Z -> thread) (l : list (stitch Q)) (threads : list thread) :=
  interpolate_stop_as_duplicate_color COLOR_CHANGE l (fix_color_count filler l threads).
Definition pec_write (filler : Z -> thread) (order : list thread -> list thread) (name : option text)
    (l : list (stitch Q)) (threads : list thread) : res (list Z) :=
  let '(l, threads) := pec_prepare filler l threads in
  do ' (bytes, _, _) <- write_pec filler order name l threads;
  Ok (text_of "#PEC0001" ++ bytes).

(** ** Reader *)
(** What the readers put into the metadata: texts, a version (in tenths), a preview picture
    with its stride and the thread of its colour.  The list keeps the calls in order. *)
Inductive meta := Meta_text (t : text) | Meta_version (tenths : Z)
  | Meta_graphic (bytes : list Z) (stride : Z) (t : option thread).
Definition metadata := list (text * meta).

(** f.seek(n, 0) in the whole file. *)
Definition seek_to (file : list Z) (n : Z) : stream := (n, skipn (Z.to_nat n) file).
(* ReadHelper.py 98-103; f.read(None) reads everything *)
Definition read_string_8 (n : option Z) (f : stream) : option text * stream :=
  let '(b, f) := s_read (match n with Some n => n | None => -1 end) f in (utf8_decode b, f).

(** EmbPattern.py 307-315 for an entry of the palette: None becomes a new black thread. *)
Definition added (t : option thread) : thread := match t with Some t => t | None => plain_thread 0 end.

(* PecReader.py 56-62 *)
Definition process_pec_colors (color_bytes : list Z) : list (option thread) :=
  map (fun b => nth (Z.to_nat (b mod zlen pec_threads)) pec_threads None) color_bytes.
(** PecReader.py 65-81: [known] is thread_map.  The second None test of line 73 takes a stored
    None for a missing one. *)
Fixpoint process_pec_table (color_bytes : list Z) (chart : list thread) (known : list (Z * option thread))
  : list (option thread) :=
  match color_bytes with
  | [] => []
  | b :: r =>
      let color_index := b mod zlen pec_threads in
      match find (fun k => fst k =? color_index) known with
      | Some (_, Some t) => Some t :: process_pec_table r chart known
      | _ =>
          let '(t, chart) := match chart with
                             | c :: chart => (Some c, chart)
                             | [] => (nth (Z.to_nat color_index) pec_threads None, []) end in
          t :: process_pec_table r chart ((color_index, t) :: known)
      end
  end.
(** PecReader.py 84-96; a chart of None is treated like an empty one. *)
Definition map_pec_colors (color_bytes : list Z) (chart : list thread) : list (option thread) :=
  match chart with
  | [] => process_pec_colors color_bytes
  | _ =>
      if zlen color_bytes <=? zlen chart then map Some chart
      else process_pec_table color_bytes chart []
  end.

(* PecReader.py 46-53; [n] pictures left *)
Fixpoint read_pec_graphics (n : nat) (i size stride : Z) (values : list (option thread)) (f : stream) : res metadata :=
  match n with
  | O => Ok []
  | S n =>
      let '(graphic, f) := s_read size f in
      do t <- py_index i values;
      do rest <- read_pec_graphics n (i + 1) size stride values f;
      Ok ((text_of "pec_graphic_" ++ str_of_int i, Meta_graphic graphic stride t) :: rest)
  end.

(* PecReader.py 16-43; [f] is the position in [file] *)
Definition read_pec (file : list Z) (f : stream) (chart : list thread)
  : res (list (stitch Z) * list thread * metadata) :=
  let f := s_seek 3 f in
  let '(label, f) := read_string_8 (Some 16) f in
  let named := match label with Some t => [(text_of "Name", Meta_text (strip t))] | None => [] end in
  let f := s_seek 0xF f in
  let '(stride, f) := s_int read_int_8 f in
  let '(height, f) := s_int read_int_8 f in
  let f := s_seek 0xC f in
  let '(color_changes, f) := s_int read_int_8 f in
  do color_changes <- some color_changes;
  let count_colors := color_changes + 1 in
  let '(color_bytes, f) := s_read count_colors f in
  let threads := map_pec_colors color_bytes chart in
  let f := s_seek (0x1D0 - color_changes) f in
  let '(length, f) := s_int read_int_24le f in
  do length <- some length;
  let stitch_block_end := length - 5 + fst f in
  let f := s_seek 0x0B f in
  let stitches := pec_read (snd f) in
  let f := seek_to file stitch_block_end in
  do stride <- some stride;
  do height <- some height;
  do graphics <- read_pec_graphics (Z.to_nat (count_colors + 1)) 0 (stride * height) stride (None :: threads) f;
  Ok (stitches, map added threads, named ++ graphics).

(* PecReader.py 9-13 *)
Definition finish_read (r : list (stitch Z) * list thread * metadata) : list (stitch Z) * list thread * metadata :=
  let '(stitches, threads, meta) := r in
  let '(stitches, threads) := interpolate_duplicate_color_as_stop thread_eqb stitches threads in
  (stitches, threads, meta).
Definition pec_file_read (file : list Z) : res (list (stitch Z) * list thread * metadata) :=
  let '(_, f) := read_string_8 (Some 8) (0, file) in
  do r <- read_pec file f [];
  Ok (finish_read r).
