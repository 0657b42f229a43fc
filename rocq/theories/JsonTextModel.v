(** The text of JSON files: pyembroidery/JsonWriter.py 58 (json.dump with indent=4) and JsonReader.py 24 (json.load), with
    the parts of Python's json library these use.  JsonWriter.py has WRITE_FILE_IN_TEXT_MODE = True; JsonReader.py has no
    such flag, so the file is opened as bytes, which json.load decodes; everything json.dump writes is ASCII. *)
From Coq Require Import Ascii String ZArith List Bool.
From Verif Require Import PyBase EmbConst ThreadModel TextModel NameModel CsvModel JsonModel.
Import ListNotations.
Open Scope Z_scope.

(** A JSON value.  The finite floats are left abstract, as the type [F]. *)
Inductive json (F : Type) :=
| JNull | JBool (b : bool) | JInt (i : Z) | JFloat (f : F) | JStr (t : text)
| JArr (l : list (json F)) | JObj (l : list (text * json F)).
Arguments JNull {F}. Arguments JBool {F}. Arguments JInt {F}. Arguments JFloat {F}. Arguments JStr {F}. Arguments JArr {F}. Arguments JObj {F}.

(** ** json.dump *)
(* json/encoder.py ESCAPE_DCT, py_encode_basestring_ascii: '\\u{0:04x}' *)
Definition hex_low (d : Z) : Z := if d <? 10 then 48 + d else 87 + d.
Definition u4 (n : Z) : text := [92; 117; hex_low (n / 4096 mod 16); hex_low (n / 256 mod 16); hex_low (n / 16 mod 16); hex_low (n mod 16)].
Definition esc (c : Z) : text :=
  if c =? 92 then [92; 92] else if c =? 34 then [92; 34] else if c =? 8 then [92; 98] else if c =? 12 then [92; 102]
  else if c =? 10 then [92; 110] else if c =? 13 then [92; 114] else if c =? 9 then [92; 116]
  else if (32 <=? c) && (c <=? 126) then [c]
  else if c <? 0x10000 then u4 c
  else let v := c - 0x10000 in u4 (0xd800 + v / 1024 mod 1024) ++ u4 (0xdc00 + v mod 1024).
Definition dump_str (t : text) : text := [34] ++ flat_map esc t ++ [34].
Definition newline (level : nat) : text := 10 :: repeat 32 (4 * level).
Fixpoint joined (sep : text) (l : list text) : text :=
  match l with [] => [] | [a] => a | a :: r => a ++ sep ++ joined sep r end.

Section text.
Context {F : Type}.
(** repr of a finite float, and float of a text *)
Variable show : F -> text.
Variable read : text -> F.

(* json/encoder.py _make_iterencode with indent=4 *)
Fixpoint dump (level : nat) (v : json F) : text :=
  match v with
  | JNull => text_of "null"
  | JBool b => if b then text_of "true" else text_of "false"
  | JInt i => str_of_int i
  | JFloat f => show f
  | JStr t => dump_str t
  | JArr [] => text_of "[]"
  | JArr l => [91] ++ newline (S level) ++ joined (44 :: newline (S level)) (map (dump (S level)) l) ++ newline level ++ [93]
  | JObj [] => text_of "{}"
  | JObj l => [123] ++ newline (S level)
      ++ joined (44 :: newline (S level)) (map (fun e => dump_str (fst e) ++ [58; 32] ++ dump (S level) (snd e)) l) ++ newline level ++ [125]
  end.

(** ** json.load; JSONDecodeError is a ValueError *)
Definition hex_value (c : Z) : option Z :=
  if (48 <=? c) && (c <=? 57) then Some (c - 48)
  else if (97 <=? c) && (c <=? 102) then Some (c - 87)
  else if (65 <=? c) && (c <=? 70) then Some (c - 55) else None.
Definition four (a b c d : Z) : option Z :=
  match hex_value a, hex_value b, hex_value c, hex_value d with
  | Some a, Some b, Some c, Some d => Some (a * 4096 + b * 256 + c * 16 + d)
  | _, _, _, _ => None
  end.
(* json/decoder.py BACKSLASH *)
Definition unescaped (c : Z) : option Z :=
  if c =? 34 then Some 34 else if c =? 92 then Some 92 else if c =? 47 then Some 47 else if c =? 98 then Some 8
  else if c =? 102 then Some 12 else if c =? 110 then Some 10 else if c =? 114 then Some 13 else if c =? 116 then Some 9 else None.
Definition cons_text (c : Z) (r : res (text * text)) : res (text * text) := do '(t, q) <- r; Ok (c :: t, q).
(** json/decoder.py py_scanstring with strict=True, behind the opening quote: the text and what follows the closing quote. *)
Fixpoint scan_str (s : text) : res (text * text) :=
  match s with
  | [] => Err ValueError
  | c :: r =>
      if c =? 34 then Ok ([], r)
      else if c =? 92 then
        match r with
        | [] => Err ValueError
        | e :: r =>
            if e =? 117 then
              match r with
              | a :: b :: c :: d :: r =>
                  match four a b c d with
                  | None => Err ValueError
                  | Some n =>
                      if (0xd800 <=? n) && (n <=? 0xdbff) then
                        match r with
                        | bs :: u :: a :: b :: c :: d :: r' =>
                            if (bs =? 92) && (u =? 117) then
                              match four a b c d with
                              | None => Err ValueError
                              | Some m =>
                                  if (0xdc00 <=? m) && (m <=? 0xdfff)
                                  then cons_text (0x10000 + (n - 0xd800) * 1024 + (m - 0xdc00)) (scan_str r')
                                  else cons_text n (scan_str r)
                              end
                            else cons_text n (scan_str r)
                        | _ => cons_text n (scan_str r)
                        end
                      else cons_text n (scan_str r)
                  end
              | _ => Err ValueError
              end
            else match unescaped e with Some c => cons_text c (scan_str r) | None => Err ValueError end
        end
      else if c <? 32 then Err ValueError
      else cons_text c (scan_str r)
  end.

Definition is_space (c : Z) : bool := (c =? 32) || (c =? 9) || (c =? 10) || (c =? 13).
Fixpoint skip (s : text) : text := match s with c :: r => if is_space c then skip r else s | [] => [] end.
Definition is_digit (c : Z) : bool := (48 <=? c) && (c <=? 57).
Fixpoint span (s : text) : text * text :=
  match s with c :: r => if is_digit c then let '(a, b) := span r in (c :: a, b) else ([], s) | [] => ([], []) end.
(** json/scanner.py NUMBER_RE: (-?(?:0|[1-9]\d* ))(\.\d+)?([eE][-+]?\d+)? — the three groups and the rest. *)
Definition sign_part (s : text) : text * text := match s with c :: r => if c =? 45 then ([c], r) else ([], s) | [] => ([], []) end.
Definition int_part (s : text) : option (text * text) :=
  let '(m, s) := sign_part s in
  match s with
  | c :: r => if c =? 48 then Some (m ++ [c], r)
              else if is_digit c then let '(a, b) := span s in Some (m ++ a, b) else None
  | [] => None
  end.
Definition frac_part (s : text) : text * text :=
  match s with
  | c :: r => if c =? 46 then match span r with ([], _) => ([], s) | (a, b) => (c :: a, b) end else ([], s)
  | [] => ([], [])
  end.
Definition exp_part (s : text) : text * text :=
  match s with
  | c :: r =>
      if (c =? 101) || (c =? 69) then
        let '(g, r) := match r with d :: r' => if (d =? 45) || (d =? 43) then ([d], r') else ([], r) | [] => ([], r) end in
        match span r with ([], _) => ([], s) | (a, b) => (c :: g ++ a, b) end
      else ([], s)
  | [] => ([], [])
  end.
(* json/scanner.py py_make_scanner: int(integer), or float(integer + frac + exp); int's limit of 4300 digits is not modelled *)
Definition scan_number (s : text) : res (json F * text) :=
  match int_part s with
  | None => Err ValueError
  | Some (i, r) =>
      let '(f, r) := frac_part r in
      let '(e, r) := exp_part r in
      match f ++ e with
      | [] => do v <- int_of_text i; Ok (JInt v, r)
      | _ => Ok (JFloat (read (i ++ f ++ e)), r)
      end
  end.
Fixpoint literal (w s : text) : option text :=
  match w, s with
  | [], _ => Some s
  | a :: w, b :: s => if a =? b then literal w s else None
  | _ :: _, [] => None
  end.

(** json/scanner.py py_make_scanner, json/decoder.py JSONObject, JSONArray.  NaN and the infinities, which json.load accepts, are not
    modelled: they are refused. *)
Fixpoint scan_value (n : nat) (s : text) : res (json F * text) :=
  match n with
  | O => Err OutOfFuel
  | S n =>
      match s with
      | [] => Err ValueError
      | c :: r =>
          if c =? 34 then do '(t, q) <- scan_str r; Ok (JStr t, q)
          else if c =? 123 then
            match skip r with
            | d :: q => if d =? 125 then Ok (JObj [], q) else do '(l, q) <- scan_members n (d :: q); Ok (JObj l, q)
            | [] => Err ValueError
            end
          else if c =? 91 then
            match skip r with
            | d :: q => if d =? 93 then Ok (JArr [], q) else do '(l, q) <- scan_items n (d :: q); Ok (JArr l, q)
            | [] => Err ValueError
            end
          else if c =? 110 then match literal (text_of "null") s with Some q => Ok (JNull, q) | None => Err ValueError end
          else if c =? 116 then match literal (text_of "true") s with Some q => Ok (JBool true, q) | None => Err ValueError end
          else if c =? 102 then match literal (text_of "false") s with Some q => Ok (JBool false, q) | None => Err ValueError end
          else scan_number s
      end
  end
with scan_items (n : nat) (s : text) : res (list (json F) * text) :=
  match n with
  | O => Err OutOfFuel
  | S n =>
      do '(v, r) <- scan_value n s;
      match skip r with
      | c :: r => if c =? 44 then do '(l, q) <- scan_items n (skip r); Ok (v :: l, q)
                  else if c =? 93 then Ok ([v], r) else Err ValueError
      | [] => Err ValueError
      end
  end
with scan_members (n : nat) (s : text) : res (list (text * json F) * text) :=
  match n with
  | O => Err OutOfFuel
  | S n =>
      match s with
      | c :: r =>
          if c =? 34 then
            do '(k, r) <- scan_str r;
            match skip r with
            | c :: r =>
                if c =? 58 then
                  do '(v, r) <- scan_value n (skip r);
                  match skip r with
                  | c :: r => if c =? 44 then do '(l, q) <- scan_members n (skip r); Ok ((k, v) :: l, q)
                              else if c =? 125 then Ok ([(k, v)], r) else Err ValueError
                  | [] => Err ValueError
                  end
                else Err ValueError
            | [] => Err ValueError
            end
          else Err ValueError
      | [] => Err ValueError
      end
  end.
(* json/decoder.py JSONDecoder.decode: blanks around the value, and nothing else *)
Definition json_loads (s : text) : res (json F) :=
  do '(v, r) <- scan_value (2 * List.length s + 1) (skip s);
  match skip r with [] => Ok v | _ => Err ValueError end.

(** ** The object and the document *)
(** A coordinate is an int or a float. *)
Inductive coord := CInt (i : Z) | CFloat (f : F).
Definition of_coord (c : coord) : json F := match c with CInt i => JInt i | CFloat f => JFloat f end.
Definition of_text (t : option text) : json F := match t with Some t => JStr t | None => JNull end.
Definition of_value (v : value F) : json F := match v with VStr t => JStr t | VInt i => JInt i | VBool b => JBool b | VFloat f => JFloat f | VOther => JNull end.
(* JsonWriter.py 39-57 *)
Definition of_thread (t : jthread) : json F :=
  JObj [(text_of "color", JStr (j_color t)); (text_of "description", of_text (j_description t)); (text_of "catalog_number", of_text (j_catalog t));
        (text_of "details", of_text (j_details t)); (text_of "brand", of_text (j_brand t)); (text_of "chart", of_text (j_chart t));
        (text_of "weight", of_text (j_weight t))].
Definition of_document (d : document coord F) : json F :=
  JObj [(text_of "threadlist", JArr (map of_thread (j_threads d)));
        (text_of "stitches", JArr (map (fun '(x, y, n) => JArr [of_coord x; of_coord y; JStr n]) (j_stitches d)));
        (text_of "extras", JObj (map (fun e => (fst e, of_value (snd e))) (j_extras d)))].

(** A dict made of pairs: the last value of a key, at the place of the first. *)
Definition text_eqb (a b : text) : bool := if list_eq_dec Z.eq_dec a b then true else false.
Fixpoint member (k : text) (l : list (text * json F)) : res (json F) :=
  match l with
  | [] => Err KeyError
  | (k', v) :: r => match member k r with Ok w => Ok w | Err _ => if text_eqb k k' then Ok v else Err KeyError end
  end.
Fixpoint keyed {A} (k : text) (v : A) (l : list (text * A)) : list (text * A) :=
  match l with
  | [] => [(k, v)]
  | (k', v') :: r => if text_eqb k k' then (k, v) :: r else (k', v') :: keyed k v r
  end.
Definition dict_of {A} (l : list (text * A)) : list (text * A) := fold_left (fun d e => keyed (fst e) (snd e) d) l [].

Definition get (v : json F) (k : text) : res (json F) := match v with JObj l => member k l | _ => Err TypeError end.
(** Only texts and null are modelled as values of the attributes of a thread, only texts as its colour, only numbers as coordinates:
    for the rest the model has TypeError where Python may carry on. *)
Definition to_text (v : json F) : res (option text) := match v with JStr t => Ok (Some t) | JNull => Ok None | _ => Err TypeError end.
Definition to_coord (v : json F) : res coord := match v with JInt i => Ok (CInt i) | JFloat f => Ok (CFloat f) | _ => Err TypeError end.
Definition to_value (v : json F) : value F := match v with JStr t => VStr t | JInt i => VInt i | JBool b => VBool b | JFloat f => VFloat f | _ => VOther end.
Definition to_thread (v : json F) : res jthread :=
  do c <- get v (text_of "color");
  do d <- get v (text_of "description"); do d <- to_text d;
  do n <- get v (text_of "catalog_number"); do n <- to_text n;
  do e <- get v (text_of "details"); do e <- to_text e;
  do b <- get v (text_of "brand"); do b <- to_text b;
  do h <- get v (text_of "chart"); do h <- to_text h;
  do w <- get v (text_of "weight"); do w <- to_text w;
  match c with JStr c => Ok (mkJT c d n e b h w) | _ => Err TypeError end.
Definition to_stitch (v : json F) : res (coord * coord * text) :=
  match v with
  | JArr (x :: y :: JStr n :: _) => do x <- to_coord x; do y <- to_coord y; Ok (x, y, n)
  | JArr (_ :: _ :: _ :: _) => Err TypeError
  | JArr _ => Err IndexError
  | _ => Err TypeError
  end.
Fixpoint all {A B} (f : A -> res B) (l : list A) : res (list B) :=
  match l with [] => Ok [] | a :: r => do b <- f a; do r <- all f r; Ok (b :: r) end.
Definition to_list (v : json F) : res (list (json F)) := match v with JArr l => Ok l | _ => Err TypeError end.
(* JsonReader.py 26-42 *)
Definition to_document (v : json F) : res (document coord F) :=
  do stitches <- get v (text_of "stitches");
  do extras <- get v (text_of "extras");
  do threads <- get v (text_of "threadlist");
  do threads <- to_list threads; do threads <- all to_thread threads;
  do stitches <- to_list stitches; do stitches <- all to_stitch stitches;
  match extras with
  | JObj l => Ok (mkDoc threads stitches (map (fun e => (fst e, to_value (snd e))) (dict_of l)))
  | _ => Err TypeError
  end.

(** ** Files *)
(* JsonWriter.py 22-58 *)
Definition json_save (stitches : list (stitch coord)) (threads : list thread) (extras : list (text * value F)) : text :=
  dump 0 (of_document (json_write stitches threads extras)).
(* JsonReader.py 21-42 *)
Definition json_open (other : text -> Z) (file : text) : res (list (stitch coord) * list loaded * list (text * value F)) :=
  do v <- json_loads file;
  do d <- to_document v;
  json_read other d.
End text.
