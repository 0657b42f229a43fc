(** Values whose type is only known at run time: pyembroidery/EmbThread.py 206-424 (EmbThread.set and
    parse_string_color) and pyembroidery/EmbPattern.py 151-195 and 551-581 (__iadd__ and add_block).
    Adding a pattern to a pattern is modelled in HeapModel.v and not repeated here. *)
From Coq Require Import Ascii String ZArith QArith List Bool.
From Verif Require Import PyBase EmbConst ThreadModel TextModel.
Import ListNotations.
Open Scope Z_scope.

(** The values that are told apart.  Lists and tuples are both [VSeq]; True and False are ints;
    floats are exact rationals; dicts have text keys; [VRandom] is an int of 0..0xFFFFFF that
    random.randint chose; [VOther] is an object of any type not mentioned. *)
Inductive val :=
| VNone
| VInt (n : Z)
| VFloat (q : Q)
| VComplex (re im : Q)
| VStr (t : text)
| VSeq (l : list val)
| VDict (d : list (text * val))
| VThread (t : dthread)
| VRandom
| VOther
(** EmbThread.py 97-113: a thread whose attributes hold any values. *)
with dthread := mkD (color description catalog_number details brand chart weight : val).

Definition d_color (t : dthread) : val := let (c, _, _, _, _, _, _) := t in c.
Definition d_description (t : dthread) : val := let (_, d, _, _, _, _, _) := t in d.
Definition d_catalog (t : dthread) : val := let (_, _, n, _, _, _, _) := t in n.
Definition d_details (t : dthread) : val := let (_, _, _, e, _, _, _) := t in e.
Definition d_brand (t : dthread) : val := let (_, _, _, _, b, _, _) := t in b.
Definition d_chart (t : dthread) : val := let (_, _, _, _, _, h, _) := t in h.
Definition d_weight (t : dthread) : val := let (_, _, _, _, _, _, w) := t in w.
(** Assignments to an attribute. *)
Definition set_color (v : val) (t : dthread) : dthread := let (_, d, n, e, b, h, w) := t in mkD v d n e b h w.
Definition set_description (v : val) (t : dthread) : dthread := let (c, _, n, e, b, h, w) := t in mkD c v n e b h w.
Definition set_catalog (v : val) (t : dthread) : dthread := let (c, d, _, e, b, h, w) := t in mkD c d v e b h w.
Definition set_brand (v : val) (t : dthread) : dthread := let (c, d, n, e, _, h, w) := t in mkD c d n e v h w.
(* EmbThread.py 97-115 without arguments *)
Definition new_thread : dthread := mkD (VInt 0) VNone VNone VNone VNone VNone VNone.

(** ** Colours *)
(* EmbThread.py 66-67 *)
Definition color_rgb (r g b : Z) : Z :=
  Z.lor (Z.lor (Z.shiftl (Z.land r 255) 16) (Z.shiftl (Z.land g 255) 8)) (Z.land b 255).

(** The digits of int(s, 16): hexadecimal, single underscores between them.  [prev] says that a
    digit precedes. *)
Fixpoint hex_digits (prev : bool) (acc : Z) (h : text) : res Z :=
  match h with
  | [] => if prev then Ok acc else Err ValueError
  | ch :: r =>
      if ch =? 95 then (if prev then match r with [] => Err ValueError | _ => hex_digits false acc r end else Err ValueError)
      else match digit_value ch with
           | Some d => hex_digits true (acc * 16 + d) r
           | None => Err ValueError
           end
  end.
(** After the sign: "0x" or "0X" and one underscore may come first. *)
Definition hex_number (h : text) : res Z :=
  match h with
  | z :: x :: r =>
      if (z =? 48) && ((x =? 120) || (x =? 88)) then
        match r with
        | [] => Err ValueError
        | u :: r' => if u =? 95 then hex_digits false 0 r' else hex_digits false 0 r
        end
      else hex_digits false 0 h
  | _ => hex_digits false 0 h
  end.
(** int(s, 16), Python's built-in, on texts of ASCII characters.  Simplified: Python also takes digits
    and blanks beyond ASCII, which are ValueErrors here. *)
Definition py_int16 (s : text) : res Z :=
  match strip s with
  | c :: r =>
      if c =? 45 then do v <- hex_number r; Ok (- v)
      else if c =? 43 then hex_number r
      else hex_number (c :: r)
  | [] => Err ValueError
  end.

(** EmbThread.py 70-76.  None for the other lengths. *)
Definition color_hex_any (s : text) : res val :=
  let h := lstrip 35 s in
  let size := List.length h in
  if (Nat.eqb size 6) || (Nat.eqb size 8) then do v <- py_int16 (firstn 6 h); Ok (VInt v)
  else if (Nat.eqb size 4) || (Nat.eqb size 3) then
    match h with
    | a :: b :: c :: _ => do v <- py_int16 [a; a; b; b; c; c]; Ok (VInt v)
    | _ => Err IndexError
    end
  else Ok VNone.

(** EmbThread.py 275-423 *)
Definition color_dict : list (text * Z) :=
  [(text_of "aliceblue", color_rgb 240 248 255); (text_of "antiquewhite", color_rgb 250 235 215);
   (text_of "aqua", color_rgb 0 255 255); (text_of "aquamarine", color_rgb 127 255 212);
   (text_of "azure", color_rgb 240 255 255); (text_of "beige", color_rgb 245 245 220);
   (text_of "bisque", color_rgb 255 228 196); (text_of "black", color_rgb 0 0 0);
   (text_of "blanchedalmond", color_rgb 255 235 205); (text_of "blue", color_rgb 0 0 255);
   (text_of "blueviolet", color_rgb 138 43 226); (text_of "brown", color_rgb 165 42 42);
   (text_of "burlywood", color_rgb 222 184 135); (text_of "cadetblue", color_rgb 95 158 160);
   (text_of "chartreuse", color_rgb 127 255 0); (text_of "chocolate", color_rgb 210 105 30);
   (text_of "coral", color_rgb 255 127 80); (text_of "cornflowerblue", color_rgb 100 149 237);
   (text_of "cornsilk", color_rgb 255 248 220); (text_of "crimson", color_rgb 220 20 60);
   (text_of "cyan", color_rgb 0 255 255); (text_of "darkblue", color_rgb 0 0 139);
   (text_of "darkcyan", color_rgb 0 139 139); (text_of "darkgoldenrod", color_rgb 184 134 11);
   (text_of "darkgray", color_rgb 169 169 169); (text_of "darkgreen", color_rgb 0 100 0);
   (text_of "darkgrey", color_rgb 169 169 169); (text_of "darkkhaki", color_rgb 189 183 107);
   (text_of "darkmagenta", color_rgb 139 0 139); (text_of "darkolivegreen", color_rgb 85 107 47);
   (text_of "darkorange", color_rgb 255 140 0); (text_of "darkorchid", color_rgb 153 50 204);
   (text_of "darkred", color_rgb 139 0 0); (text_of "darksalmon", color_rgb 233 150 122);
   (text_of "darkseagreen", color_rgb 143 188 143); (text_of "darkslateblue", color_rgb 72 61 139);
   (text_of "darkslategray", color_rgb 47 79 79); (text_of "darkslategrey", color_rgb 47 79 79);
   (text_of "darkturquoise", color_rgb 0 206 209); (text_of "darkviolet", color_rgb 148 0 211);
   (text_of "deeppink", color_rgb 255 20 147); (text_of "deepskyblue", color_rgb 0 191 255);
   (text_of "dimgray", color_rgb 105 105 105); (text_of "dimgrey", color_rgb 105 105 105);
   (text_of "dodgerblue", color_rgb 30 144 255); (text_of "firebrick", color_rgb 178 34 34);
   (text_of "floralwhite", color_rgb 255 250 240); (text_of "forestgreen", color_rgb 34 139 34);
   (text_of "fuchsia", color_rgb 255 0 255); (text_of "gainsboro", color_rgb 220 220 220);
   (text_of "ghostwhite", color_rgb 248 248 255); (text_of "gold", color_rgb 255 215 0);
   (text_of "goldenrod", color_rgb 218 165 32); (text_of "gray", color_rgb 128 128 128);
   (text_of "grey", color_rgb 128 128 128); (text_of "green", color_rgb 0 128 0);
   (text_of "greenyellow", color_rgb 173 255 47); (text_of "honeydew", color_rgb 240 255 240);
   (text_of "hotpink", color_rgb 255 105 180); (text_of "indianred", color_rgb 205 92 92);
   (text_of "indigo", color_rgb 75 0 130); (text_of "ivory", color_rgb 255 255 240);
   (text_of "khaki", color_rgb 240 230 140); (text_of "lavender", color_rgb 230 230 250);
   (text_of "lavenderblush", color_rgb 255 240 245); (text_of "lawngreen", color_rgb 124 252 0);
   (text_of "lemonchiffon", color_rgb 255 250 205); (text_of "lightblue", color_rgb 173 216 230);
   (text_of "lightcoral", color_rgb 240 128 128); (text_of "lightcyan", color_rgb 224 255 255);
   (text_of "lightgoldenrodyellow", color_rgb 250 250 210); (text_of "lightgray", color_rgb 211 211 211);
   (text_of "lightgreen", color_rgb 144 238 144); (text_of "lightgrey", color_rgb 211 211 211);
   (text_of "lightpink", color_rgb 255 182 193); (text_of "lightsalmon", color_rgb 255 160 122);
   (text_of "lightseagreen", color_rgb 32 178 170); (text_of "lightskyblue", color_rgb 135 206 250);
   (text_of "lightslategray", color_rgb 119 136 153); (text_of "lightslategrey", color_rgb 119 136 153);
   (text_of "lightsteelblue", color_rgb 176 196 222); (text_of "lightyellow", color_rgb 255 255 224);
   (text_of "lime", color_rgb 0 255 0); (text_of "limegreen", color_rgb 50 205 50);
   (text_of "linen", color_rgb 250 240 230); (text_of "magenta", color_rgb 255 0 255);
   (text_of "maroon", color_rgb 128 0 0); (text_of "mediumaquamarine", color_rgb 102 205 170);
   (text_of "mediumblue", color_rgb 0 0 205); (text_of "mediumorchid", color_rgb 186 85 211);
   (text_of "mediumpurple", color_rgb 147 112 219); (text_of "mediumseagreen", color_rgb 60 179 113);
   (text_of "mediumslateblue", color_rgb 123 104 238); (text_of "mediumspringgreen", color_rgb 0 250 154);
   (text_of "mediumturquoise", color_rgb 72 209 204); (text_of "mediumvioletred", color_rgb 199 21 133);
   (text_of "midnightblue", color_rgb 25 25 112); (text_of "mintcream", color_rgb 245 255 250);
   (text_of "mistyrose", color_rgb 255 228 225); (text_of "moccasin", color_rgb 255 228 181);
   (text_of "navajowhite", color_rgb 255 222 173); (text_of "navy", color_rgb 0 0 128);
   (text_of "oldlace", color_rgb 253 245 230); (text_of "olive", color_rgb 128 128 0);
   (text_of "olivedrab", color_rgb 107 142 35); (text_of "orange", color_rgb 255 165 0);
   (text_of "orangered", color_rgb 255 69 0); (text_of "orchid", color_rgb 218 112 214);
   (text_of "palegoldenrod", color_rgb 238 232 170); (text_of "palegreen", color_rgb 152 251 152);
   (text_of "paleturquoise", color_rgb 175 238 238); (text_of "palevioletred", color_rgb 219 112 147);
   (text_of "papayawhip", color_rgb 255 239 213); (text_of "peachpuff", color_rgb 255 218 185);
   (text_of "peru", color_rgb 205 133 63); (text_of "pink", color_rgb 255 192 203);
   (text_of "plum", color_rgb 221 160 221); (text_of "powderblue", color_rgb 176 224 230);
   (text_of "purple", color_rgb 128 0 128); (text_of "red", color_rgb 255 0 0);
   (text_of "rosybrown", color_rgb 188 143 143); (text_of "royalblue", color_rgb 65 105 225);
   (text_of "saddlebrown", color_rgb 139 69 19); (text_of "salmon", color_rgb 250 128 114);
   (text_of "sandybrown", color_rgb 244 164 96); (text_of "seagreen", color_rgb 46 139 87);
   (text_of "seashell", color_rgb 255 245 238); (text_of "sienna", color_rgb 160 82 45);
   (text_of "silver", color_rgb 192 192 192); (text_of "skyblue", color_rgb 135 206 235);
   (text_of "slateblue", color_rgb 106 90 205); (text_of "slategray", color_rgb 112 128 144);
   (text_of "slategrey", color_rgb 112 128 144); (text_of "snow", color_rgb 255 250 250);
   (text_of "springgreen", color_rgb 0 255 127); (text_of "steelblue", color_rgb 70 130 180);
   (text_of "tan", color_rgb 210 180 140); (text_of "teal", color_rgb 0 128 128);
   (text_of "thistle", color_rgb 216 191 216); (text_of "tomato", color_rgb 255 99 71);
   (text_of "turquoise", color_rgb 64 224 208); (text_of "violet", color_rgb 238 130 238);
   (text_of "wheat", color_rgb 245 222 179); (text_of "white", color_rgb 255 255 255);
   (text_of "whitesmoke", color_rgb 245 245 245); (text_of "yellow", color_rgb 255 255 0);
   (text_of "yellowgreen", color_rgb 154 205 50)].
Fixpoint lookup {A} (k : text) (d : list (text * A)) : option A :=
  match d with
  | [] => None
  | (k', v) :: d => if text_eqb k k' then Some v else lookup k d
  end.
(** str.lower() as far as a key of color_dict can come of it: besides the capital letters of ASCII only
    the Kelvin sign U+212A becomes an ASCII letter; the others are left alone here. *)
Definition lower (t : text) : text :=
  map (fun c => if (65 <=? c) && (c <=? 90) then c + 32 else if c =? 0x212A then 107 else c) t.
(* EmbThread.py 267-424 *)
Definition parse_string_color (color : text) : res val :=
  if text_eqb color (text_of "random") then Ok VRandom
  else if match color with c :: _ => c =? 35 | [] => false end then color_hex_any (tl color)
  else Ok (VInt match lookup (lower color) color_dict with Some c => c | None => 0 end).

(** ** EmbThread.set *)
(** v & 0xFF; TypeError unless v is an int. *)
Definition low_byte (v : val) : res Z := match v with VInt n => Ok (Z.land n 0xFF) | _ => Err TypeError end.
Definition item (l : list val) (i : nat) : res val := match nth_error l i with Some v => Ok v | None => Err IndexError end.
(* EmbThread.py 227-247; what is not an int, a sequence or a text is ignored *)
Definition color_of (color : val) (t : dthread) : res dthread :=
  match color with
  | VInt _ | VRandom => Ok (set_color color t)
  | VSeq l =>
      do v <- item l 0; do r <- low_byte v;
      do v <- item l 1; do g <- low_byte v;
      do v <- item l 2; do b <- low_byte v;
      Ok (set_color (VInt (Z.lor (Z.lor (Z.shiftl r 16) (Z.shiftl g 8)) b)) t)
  | VStr s => do c <- parse_string_color s; Ok (set_color c t)
  | _ => Ok t
  end.
(** if key in thread: attribute = thread[key] *)
Definition from_key (key : string) (assign : val -> dthread -> dthread) (d : list (text * val)) (t : dthread) : dthread :=
  match lookup (text_of key) d with Some v => assign v t | None => t end.
(** EmbThread.py 206-265.  The thread as it is afterwards, and the exception if one was raised. *)
Definition set_thread (t : dthread) (v : val) : dthread * option exn :=
  match v with
  | VThread o => (o, None)
  | VInt _ | VRandom => (set_color v t, None)
  | VDict d =>
      let t := from_key "name" set_description d t in
      let t := from_key "description" set_description d t in
      let t := from_key "desc" set_description d t in
      let t := from_key "brand" set_brand d t in
      let t := from_key "manufacturer" set_brand d t in
      let colored := match lookup (text_of "color") d with
                     | Some c => color_of c t
                     | None => match lookup (text_of "rgb") d with Some c => color_of c t | None => Ok t end
                     end in
      match colored with
      | Err e => (t, Some e)
      | Ok t =>
          let hexed := match lookup (text_of "hex") d with
                       | Some (VStr s) => do c <- color_hex_any s; Ok (set_color c t)
                       | Some _ => Err AttributeError
                       | None => Ok t
                       end in
          match hexed with
          | Err e => (t, Some e)
          | Ok t => (from_key "catalog" set_catalog d (from_key "id" set_catalog d t), None)
          end
      end
  | VStr s => match parse_string_color s with Ok c => (set_color c t, None) | Err e => (t, Some e) end
  | _ => (t, None)
  end.

(** EmbThread.py 135-168: a thread of ints and texts compared with any value that is not a thread.  None if
    a random number decides; None & 0xFFFFFF is a TypeError. *)
Definition eq_value (t : thread) (other : val) : res (option bool) :=
  match other with
  | VInt n => Ok (Some (Z.land (t_color t) 0xFFFFFF =? Z.land n 0xFFFFFF))
  | VStr s =>
      do c <- parse_string_color s;
      match c with
      | VInt n => Ok (Some (Z.land (t_color t) 0xFFFFFF =? Z.land n 0xFFFFFF))
      | VRandom => Ok None
      | _ => Err TypeError
      end
  | VRandom => Ok None
  | _ => Ok (Some false)
  end.
(* EmbThread.py 170-171 *)
Definition thread_hash (t : thread) : Z := Z.land (t_color t) 0xFFFFFF.

(** ** Patterns *)
(** EmbPattern.py 68-75.  A stitch is the list [x, y, command], of any values. *)
Record dpat := mkDP {
  dp_stitches : list (val * val * val);
  dp_threads : list dthread;
  dp_extras : list (text * val);
  dp_x : val;
  dp_y : val }.
(** What a call comes to: a pattern to go on with, None, or an exception. *)
Inductive outcome := Returned | ReturnedNone | Raised (e : exn).

(* EmbPattern.py 508-512 *)
Definition append_absolute (cmd x y : val) (p : dpat) : dpat :=
  mkDP (dp_stitches p ++ [(x, y, cmd)]) (dp_threads p) (dp_extras p) x y.
(* EmbPattern.py 546-549 *)
Definition append_command (cmd x y : val) (p : dpat) : dpat :=
  mkDP (dp_stitches p ++ [(x, y, cmd)]) (dp_threads p) (dp_extras p) (dp_x p) (dp_y p).
(** v + 0, which is v for a number. *)
Definition plus_zero (v : val) : res val :=
  match v with VInt _ | VFloat _ | VComplex _ _ | VRandom => Ok v | _ => Err TypeError end.
(* EmbPattern.py 271-276 and 514-518 without arguments *)
Definition append_color_change (p : dpat) : res dpat :=
  do x <- plus_zero (dp_x p); do y <- plus_zero (dp_y p); Ok (append_absolute (VInt COLOR_CHANGE) x y p).
(* EmbPattern.py 307-315 *)
Definition append_thread (v : val) (p : dpat) : dpat * option exn :=
  match v with
  | VThread t => (mkDP (dp_stitches p) (dp_threads p ++ [t]) (dp_extras p) (dp_x p) (dp_y p), None)
  | _ => match set_thread new_thread v with
         | (t, None) => (mkDP (dp_stitches p) (dp_threads p ++ [t]) (dp_extras p) (dp_x p) (dp_y p), None)
         | (_, Some e) => (p, Some e)
         end
  end.

(** v[i] *)
Definition index (v : val) (i : nat) : res val :=
  match v with
  | VSeq l => item l i
  | VStr t => match nth_error t i with Some c => Ok (VStr [c]) | None => Err IndexError end
  | VDict _ => Err KeyError
  | _ => Err TypeError
  end.
(** v.real and v.imag, which ints and floats have too. *)
Definition parts (v : val) : res (val * val) :=
  match v with
  | VComplex re im => Ok (VFloat re, VFloat im)
  | VInt n => Ok (VInt n, VInt 0)
  | VRandom => Ok (VRandom, VInt 0)
  | VFloat q => Ok (VFloat q, VFloat 0%Q)
  | _ => Err AttributeError
  end.

(* EmbPattern.py 170-178 and 561-568 *)
Definition triple (v : val) : res (val * val * val) :=
  do x <- index v 0; do y <- index v 1;
  match index v 2 with
  | Ok c => Ok (x, y, c)
  | Err IndexError => Ok (x, y, VInt STITCH)
  | Err e => Err e
  end.
Fixpoint add_points (l : list val) (p : dpat) : dpat * option exn :=
  match l with
  | [] => (p, None)
  | v :: l => match triple v with
              | Ok (x, y, c) => add_points l (append_absolute c x y p)
              | Err e => (p, Some e)
              end
  end.
(* EmbPattern.py 179-183 and 569-573 *)
Fixpoint add_complex (l : list val) (p : dpat) : dpat * option exn :=
  match l with
  | [] => (p, None)
  | v :: l => match parts v with
              | Ok (x, y) => add_complex l (append_absolute (VInt STITCH) x y p)
              | Err e => (p, Some e)
              end
  end.
(** EmbPattern.py 184-191 and 574-579: two at a time. *)
Fixpoint add_numbers (l : list val) (p : dpat) : dpat * option exn :=
  match l with
  | [] => (p, None)
  | [_] => (p, Some IndexError)
  | x :: y :: l => add_numbers l (append_absolute (VInt STITCH) x y p)
  end.
(** What is done with a non-empty sequence depends on its first value only. *)
Definition add_sequence (l : list val) (p : dpat) : dpat * option exn :=
  match l with
  | VSeq _ :: _ => add_points l p
  | VComplex _ _ :: _ => add_complex l p
  | (VInt _ | VFloat _ | VRandom) :: _ => add_numbers l p
  | _ => (p, None)
  end.

Fixpoint set_extra (k : text) (v : val) (d : list (text * val)) : list (text * val) :=
  match d with
  | [] => [(k, v)]
  | (k', w) :: d => if text_eqb k k' then (k', v) :: d else (k', w) :: set_extra k v d
  end.
(** stitches[i][2] & COMMAND_MASK of each stitch until one is sewn; TypeError unless an int. *)
Fixpoint any_sewn (l : list (val * val * val)) : res bool :=
  match l with
  | [] => Ok false
  | (_, _, VInt c) :: l =>
      if (cmd_of c =? STITCH) || (cmd_of c =? SEW_TO) || (cmd_of c =? NEEDLE_AT) then Ok true else any_sewn l
  | _ => Err TypeError
  end.
Definition outcome_of (e : option exn) : outcome := match e with Some e => Raised e | None => Returned end.
(** EmbPattern.py 151-195.  The pattern as it is afterwards and what the method returned: after p += v
    the variable p holds that. *)
Definition iadd (p : dpat) (other : val) : dpat * outcome :=
  match other with
  | VThread _ | VStr _ =>
      match append_thread other p with
      | (p, Some e) => (p, Raised e)
      | (p, None) =>
          match any_sewn (dp_stitches p) with
          | Err e => (p, Raised e)
          | Ok false => (p, Returned)
          | Ok true => match append_color_change p with Ok p' => (p', Returned) | Err e => (p, Raised e) end
          end
      end
  | VInt _ | VRandom => (append_command other (VInt 0) (VInt 0) p, Returned)
  | VSeq [] => (p, ReturnedNone)
  | VSeq (VStr k :: r) =>
      match r with
      | v :: _ => (mkDP (dp_stitches p) (dp_threads p) (set_extra k v (dp_extras p)) (dp_x p) (dp_y p), Returned)
      | [] => (p, Raised IndexError)
      end
  | VSeq l => let (p, e) := add_sequence l p in (p, outcome_of e)
  | _ => (p, Raised ValueError)
  end.

(** EmbPattern.py 551-581; the thread None is no thread. *)
Definition add_block (p : dpat) (block thread : val) : dpat * outcome :=
  let (p, e) := match thread with VNone => (p, None) | _ => append_thread thread p end in
  match e with
  | Some e => (p, Raised e)
  | None =>
      match block with
      | VNone | VSeq [] => (p, ReturnedNone)
      | _ =>
          let (p, e) := match block with VSeq l => add_sequence l p | _ => (p, None) end in
          match e with
          | Some e => (p, Raised e)
          | None => (append_command (VInt COLOR_BREAK) (VInt 0) (VInt 0) p, ReturnedNone)
          end
      end
  end.
