(** EmbPattern.py 880-1561 and 1725-1748: files by name -- the table of formats, the choice of reader
    and writer by the extension, reading, writing and converting -- and PesWriter.py 29-52, the choice of
    the PES version by the settings. *)
From Coq Require Import Ascii String ZArith QArith List Bool.
From Verif Require Import PyBase EmbConst StreamModel NumQ QuantModel ThreadModel Utf8Model TextModel PatternModel
  CsvModel DstModel DstFileModel GcodeModel PesModel ValueModel.
Import ListNotations.
Open Scope Z_scope.

(** ** The extension of a file name *)
(** t.rfind(c) *)
Fixpoint rfind (c : Z) (t : text) : Z :=
  match t with
  | [] => -1
  | x :: r => let k := rfind c r in if 0 <=? k then k + 1 else if x =? c then 0 else -1
  end.
(** os.path.splitext of POSIX systems (genericpath.py of the standard library), as called at
    EmbPattern.py 1465: leading dots of the last component do not count. *)
Definition splitext (p : text) : text * text :=
  let sep_index := rfind 47 p in
  let dot_index := rfind 46 p in
  if (sep_index <? dot_index) && existsb (fun c => negb (c =? 46)) (py_slice (sep_index + 1) dot_index p)
  then (firstn (Z.to_nat dot_index) p, skipn (Z.to_nat dot_index) p)
  else (p, []).
(* EmbPattern.py 1462-1465 *)
Definition get_extension_by_filename (filename : text) : text := skipn 1 (snd (splitext filename)).

(** ** The table of formats *)
(** One entry of supported_formats(); of its fields only these are used or promised by the
    extension.  Readers and writers are named by their modules. *)
Record format := mkFormat { f_extension : string; f_extensions : list string; f_reader : option string; f_writer : option string }.
Local Open Scope string_scope.
(** EmbPattern.py 880-1453, in order.  ("spx") at line 1189 is the text "spx", not a tuple. *)
Definition supported_formats : list format :=
  [mkFormat "pec" ["pec"] (Some "PecReader") (Some "PecWriter");
   mkFormat "pes" ["pes"] (Some "PesReader") (Some "PesWriter");
   mkFormat "exp" ["exp"] (Some "ExpReader") (Some "ExpWriter");
   mkFormat "dst" ["dst"] (Some "DstReader") (Some "DstWriter");
   mkFormat "jef" ["jef"] (Some "JefReader") (Some "JefWriter");
   mkFormat "vp3" ["vp3"] (Some "Vp3Reader") (Some "Vp3Writer");
   mkFormat "svg" ["svg"; "svgz"] None (Some "SvgWriter");
   mkFormat "csv" ["csv"] (Some "CsvReader") (Some "CsvWriter");
   mkFormat "xxx" ["xxx"] (Some "XxxReader") (Some "XxxWriter");
   mkFormat "sew" ["sew"] (Some "SewReader") None;
   mkFormat "u01" ["u00"; "u01"; "u02"] (Some "U01Reader") (Some "U01Writer");
   mkFormat "shv" ["shv"] (Some "ShvReader") None;
   mkFormat "10o" ["10o"] (Some "A10oReader") None;
   mkFormat "100" ["100"] (Some "A100Reader") None;
   mkFormat "bro" ["bro"] (Some "BroReader") None;
   mkFormat "dat" ["dat"] (Some "DatReader") None;
   mkFormat "dsb" ["dsb"] (Some "DsbReader") None;
   mkFormat "dsz" ["dsz"] (Some "DszReader") None;
   mkFormat "emd" ["emd"] (Some "EmdReader") None;
   mkFormat "exy" ["e00"; "e01"; "e02"] (Some "ExyReader") None;
   mkFormat "fxy" ["f00"; "f01"; "f02"] (Some "FxyReader") None;
   mkFormat "gt" ["gt"] (Some "GtReader") None;
   mkFormat "inb" ["inb"] (Some "InbReader") None;
   mkFormat "tbf" ["tbf"] (Some "TbfReader") (Some "TbfWriter");
   mkFormat "ksm" ["ksm"] (Some "KsmReader") None;
   mkFormat "tap" ["tap"] (Some "TapReader") None;
   mkFormat "spx" ["spx"] (Some "SpxReader") None;
   mkFormat "stx" ["stx"] (Some "StxReader") None;
   mkFormat "phb" ["phb"] (Some "PhbReader") None;
   mkFormat "phc" ["phc"] (Some "PhcReader") None;
   mkFormat "new" ["new"] (Some "NewReader") None;
   mkFormat "max" ["max"] (Some "MaxReader") None;
   mkFormat "mit" ["mit"] (Some "MitReader") None;
   mkFormat "pcd" ["pcd"] (Some "PcdReader") None;
   mkFormat "pcq" ["pcq"] (Some "PcqReader") None;
   mkFormat "pcm" ["pcm"] (Some "PcmReader") None;
   mkFormat "pcs" ["pcs"] (Some "PcsReader") None;
   mkFormat "jpx" ["jpx"] (Some "JpxReader") None;
   mkFormat "stc" ["stc"] (Some "StcReader") None;
   mkFormat "zhs" ["zhs"] (Some "ZhsReader") None;
   mkFormat "zxy" ["z00"; "z01"; "z02"] (Some "ZxyReader") None;
   mkFormat "pmv" ["pmv"] (Some "PmvReader") (Some "PmvWriter");
   mkFormat "png" ["png"] None (Some "PngWriter");
   mkFormat "txt" ["txt"] None (Some "TxtWriter");
   mkFormat "gcode" ["gcode"; "g-code"; "ngc"; "nc"; ".g"] (Some "GcodeReader") (Some "GcodeWriter");
   mkFormat "hus" ["hus"] (Some "HusReader") None;
   mkFormat "edr" ["edr"] (Some "EdrReader") (Some "EdrWriter");
   mkFormat "col" ["col"] (Some "ColReader") (Some "ColWriter");
   mkFormat "inf" ["inf"] (Some "InfReader") (Some "InfWriter");
   mkFormat "json" ["json"] (Some "JsonReader") (Some "JsonWriter")].
Local Close Scope string_scope.

(** ** Files *)
Section Files.
(** Patterns and settings dictionaries. *)
Context {P S : Type}.
(** EmbPattern() *)
Variable empty : P.
(** [reader m]: what the function read of module m makes of the settings, the content of the file and the
    pattern given; it may have added to the pattern before it raises. *)
Variable reader : string -> S -> list Z -> P -> P * option exn.
(** [writer m]: what the function write of module m does to the pattern, the bytes it has written when it
    returns or raises. *)
Variable writer : string -> S -> P -> P * list Z * option exn.
(** EmbPattern.py 1565-1632: whether the pattern is encoded first (SettingsModel.v), the settings completed
    for the writer, get_normalized_pattern. *)
Variable encodes : string -> S -> bool.
Variable complete : string -> S -> S.
Variable normalize : S -> P -> res P.
(** Whether open(name, "w") succeeds: directory, permissions. *)
Variable openable : text -> bool.

(** The files there are, by name.  Simplified: two names are two files; a file is read and written at once,
    nobody else changes it meanwhile; a text is the bytes that encode it, text mode is the reader's and
    writer's concern (CsvModel.v, ColorFileModel.v). *)
Definition files := text -> option (list Z).
Definition with_file (name : text) (b : list Z) (fs : files) : files :=
  fun n => if text_eqb n name then Some b else fs n.
(** IOError is also FileNotFoundError and whatever else open() raises. *)
Inductive error := Raised (e : exn) | IOError.
(** What a read call returns: None; the pattern; or it raises, the pattern given left in some state. *)
Inductive read_result := NoPattern | Loaded (p : P) | Failed (p : P) (e : error).

(** EmbPattern.py 1467-1488, with a name. *)
Definition read_embroidery (fs : files) (m : option string) (name : text) (set : S) (pattern : option P) : read_result :=
  match m with
  | None => NoPattern
  | Some m =>
      let p := match pattern with Some p => p | None => empty end in
      match fs name with
      | None => Failed p IOError
      | Some b => match reader m set b p with (p, None) => Loaded p | (p, Some e) => Failed p (Raised e) end
      end
  end.
(** EmbPattern.py 1555-1561: the first entry whose extension it is. *)
Fixpoint find_format (extension : text) (l : list format) : option format :=
  match l with
  | [] => None
  | f :: r => if text_eqb (text_of (f_extension f)) extension then Some f else find_format extension r
  end.
(* EmbPattern.py 1551-1561 *)
Definition static_read (fs : files) (name : text) (set : S) (pattern : option P) : read_result :=
  match find_format (lower (get_extension_by_filename name)) supported_formats with
  | Some f => read_embroidery fs (f_reader f) name set pattern
  | None => NoPattern
  end.
(** EmbPattern.py 1563-1647, with a name and a pattern: the files, the caller's pattern and the exception
    afterwards. *)
Definition write_embroidery (fs : files) (m : string) (pattern : P) (name : text) (set : S) : files * P * option error :=
  match (if encodes m set then match normalize (complete m set) pattern with
                               | Ok q => Ok (q, complete m set)
                               | Err e => Err e
                               end
         else Ok (pattern, set)) with
  | Err e => (fs, pattern, Some (Raised e))
  | Ok (q, settings) =>
      if negb (openable name) then (fs, pattern, Some IOError)
      else
        let '(q, b, e) := writer m settings q in
        (with_file name b fs, if encodes m set then pattern else q,
         match e with Some e => Some (Raised e) | None => None end)
  end.
(** The dictionary of EmbPattern.py 1735: a later entry with the same extension replaces an earlier one. *)
Fixpoint last_format (extension : text) (l : list format) : option format :=
  match l with
  | [] => None
  | f :: r =>
      match last_format extension r with
      | Some f => Some f
      | None => if text_eqb (text_of (f_extension f)) extension then Some f else None
      end
  end.
(* EmbPattern.py 1724-1741 *)
Definition static_write (fs : files) (pattern : P) (name : text) (set : S) : files * P * option error :=
  match last_format (lower (get_extension_by_filename name)) supported_formats with
  | None => (fs, pattern, Some IOError)
  | Some f =>
      match f_writer f with
      | Some m => write_embroidery fs m pattern name set
      | None => (fs, pattern, Some IOError)
      end
  end.
(* EmbPattern.py 1455-1460 *)
Definition convert (fs : files) (filename_from filename_to : text) (set : S) : files * option error :=
  match static_read fs filename_from set None with
  | NoPattern => (fs, None)
  | Failed _ e => (fs, Some e)
  | Loaded p => let '(fs, _, e) := static_write fs p filename_to set in (fs, e)
  end.
(** EmbPattern.py 90-103, 223-224: EmbPattern(name, settings), and pattern.read(name); the pattern afterwards. *)
Definition read_into (fs : files) (p : P) (name : text) (set : S) : P * option error :=
  match static_read fs name set (Some p) with
  | NoPattern => (p, None)
  | Loaded p => (p, None)
  | Failed p e => (p, Some e)
  end.
Definition open_pattern (fs : files) (name : text) (set : S) : P * option error := read_into fs empty name set.
End Files.

(** ** What DstWriter has written when it raises *)
(** f.write of each piece in turn: the bytes written, the exception. *)
Fixpoint run_pieces (l : list (res (list Z))) : list Z * option exn :=
  match l with
  | [] => ([], None)
  | Err e :: _ => ([], Some e)
  | Ok b :: r => let '(t, e) := run_pieces r in (b ++ t, e)
  end.
(** DstWriter.py 119-158: the texts given to write_string_utf8, in order. *)
Definition header_strings (extended : bool) (p : dst_info) (l : list (stitch Q)) : list (res text) :=
  let '(min_x, min_y, max_x, max_y) := bounds l in
  let side key v := do n <- cut_abs v; Ok (header_line key (pad_left 5 (str_of_int n))) in
  let '(ax, ay) := match rev l with s :: _ => (q_cut (sx s), - q_cut (sy s)) | [] => (0, 0) end in
  [Ok (header_line "LA" (pad_right 16 (match i_name p with Some n => n | None => text_of "Untitled" end)));
   Ok (header_line "ST" (pad_left 7 (str_of_int (zlen l))));
   Ok (header_line "CO" (pad_left 3 (str_of_int (count_color_changes l))));
   side "+X"%string max_x; side "-X"%string min_x; side "+Y"%string max_y; side "-Y"%string min_y;
   Ok (signed_line "AX" ax); Ok (signed_line "AY" ay); Ok (signed_line "MX" 0); Ok (signed_line "MY" 0);
   Ok (header_line "PD" (text_of "******"))]
  ++ (if extended then
        match i_author p with Some a => [Ok (header_line "AU" a)] | None => [] end
        ++ match i_copyright p with Some c => [Ok (header_line "CP" c)] | None => [] end
        ++ map (fun t => Ok (thread_line t)) (i_threads p)
      else []).
(* WriteHelper.py 115-120 *)
Definition encode_piece (t : res text) : res (list Z) := do t <- t; utf8_encode t.
(** DstWriter.py 107-185.  A trim is several records, none of which can raise: one piece here. *)
Definition dst_stream (extended : bool) (trim_at : Z) (p : dst_info) (l : list (stitch Q)) : list Z * option exn :=
  match run_pieces (map encode_piece (header_strings extended p l)) with
  | (h, Some e) => (h, Some e)
  | (h, None) =>
      let h := h ++ [0x1A] in
      let '(b, e) := run_pieces (map (dst_emit trim_at) (quantise qz_q 0 0 l)) in
      (h ++ repeat 32 (512 - List.length h) ++ b, e)
  end.

(** ** The version of a PES file *)
(** A value under the keys "pes version" and "version": a number, a text, or something float() refuses. *)
Inductive version_value := VersionNumber (q : Q) | VersionText (t : text) | VersionOther.
(** float(t): simplified, texts with an exponent, underscores, "inf" and "nan" are refused here. *)
Definition float_text (t : text) : res Q := float_of (strip t).
(** PesWriter.py 32-43: the values under "pes version" and "version", the truth of the one under "truncated". *)
Definition pes_choice (pes_version version : option version_value) (truncated : option bool) : res (Q * bool) :=
  let v := match version with
           | Some v => v
           | None => match pes_version with Some v => v | None => VersionNumber 1 end
           end in
  let truncated := match truncated with Some b => b | None => false end in
  match v with
  | VersionNumber q => Ok (q, truncated)
  | VersionText t =>
      if match rev t with c :: _ => c =? 116 | [] => false end
      then do q <- float_text (removelast t); Ok (q, true)
      else do q <- float_text t; Ok (q, truncated)
  | VersionOther => Err TypeError
  end.
(** ten times the version, as far as the writer knows it. *)
Definition tenths (v : Q) : Z := if Qeq_bool v 1 then 10 else if Qeq_bool v 6 then 60 else 0.
(* PesWriter.py 29-52 *)
Definition pes_write_settings (f32 : Q -> list Z) (filler : Z -> thread) (order : list thread -> list thread)
    (pes_version version : option version_value) (truncated : option bool) (md : meta_source)
    (l : list (stitch Q)) (threads : list thread) : res (list Z) :=
  do ' (v, t) <- pes_choice pes_version version truncated;
  pes_write f32 filler order (tenths v) t md l threads.
