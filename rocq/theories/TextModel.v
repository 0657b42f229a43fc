(** The parts of Python's str and int that the text formats use.  A text is the list of its
    code points (ThreadModel.v).  These are Python built-ins, not code of /repo; the callers
    are cited at each definition. *)
From Coq Require Import Ascii String Decimal ZArith List Bool.
From Verif Require Import PyBase ThreadModel.
Import ListNotations.
Open Scope Z_scope.

(** A string constant of the source. *)
Fixpoint text_of (s : string) : text :=
  match s with
  | EmptyString => []
  | String c r => Z.of_N (N_of_ascii c) :: text_of r
  end.

(** str(v) and "%d" % v of an int (CsvWriter.py 43-206, ColWriter.py 7-14). *)
Fixpoint text_of_digits (d : uint) : text :=
  match d with
  | Nil => []
  | D0 d => 48 :: text_of_digits d
  | D1 d => 49 :: text_of_digits d
  | D2 d => 50 :: text_of_digits d
  | D3 d => 51 :: text_of_digits d
  | D4 d => 52 :: text_of_digits d
  | D5 d => 53 :: text_of_digits d
  | D6 d => 54 :: text_of_digits d
  | D7 d => 55 :: text_of_digits d
  | D8 d => 56 :: text_of_digits d
  | D9 d => 57 :: text_of_digits d
  end.
Definition str_of_int (v : Z) : text :=
  match Z.to_int v with
  | Pos d => text_of_digits d
  | Neg d => 45 :: text_of_digits d
  end.

(** int(t) (ColReader.py 7-13, CsvReader.py 19-25, JsonReader.py 10-16): blanks around, an
    optional sign, digits; ValueError otherwise.  Simplified: only ASCII digits, and no
    underscore between digits.  The blanks are those of str.isspace. *)
Definition blank (c : Z) : bool :=
  ((9 <=? c) && (c <=? 13)) || ((28 <=? c) && (c <=? 32)) || (c =? 0x85) || (c =? 0xA0) || (c =? 0x1680)
  || ((0x2000 <=? c) && (c <=? 0x200A)) || (c =? 0x2028) || (c =? 0x2029) || (c =? 0x202F) || (c =? 0x205F) || (c =? 0x3000).
Fixpoint drop_blanks (t : text) : text :=
  match t with
  | [] => []
  | c :: r => if blank c then drop_blanks r else t
  end.
Definition strip (t : text) : text := rev (drop_blanks (rev (drop_blanks t))).
Fixpoint digits_of (t : text) : option uint :=
  match t with
  | [] => Some Nil
  | c :: r =>
      match digits_of r with
      | None => None
      | Some d =>
          if c =? 48 then Some (D0 d) else if c =? 49 then Some (D1 d)
          else if c =? 50 then Some (D2 d) else if c =? 51 then Some (D3 d)
          else if c =? 52 then Some (D4 d) else if c =? 53 then Some (D5 d)
          else if c =? 54 then Some (D6 d) else if c =? 55 then Some (D7 d)
          else if c =? 56 then Some (D8 d) else if c =? 57 then Some (D9 d)
          else None
      end
  end.
Definition number (t : text) : res Z :=
  match t with
  | [] => Err ValueError
  | _ => match digits_of t with Some d => Ok (Z.of_uint d) | None => Err ValueError end
  end.
Definition int_of_text (t : text) : res Z :=
  match strip t with
  | c :: r =>
      if c =? 45 then do v <- number r; Ok (- v)
      else if c =? 43 then number r
      else number (c :: r)
  | [] => Err ValueError
  end.

(** t.split(sep) for a one-character separator (ColReader.py 10, CsvReader.py 15,
    JsonReader.py 6). *)
Fixpoint split_on (sep : Z) (t : text) : list text :=
  match t with
  | [] => [[]]
  | c :: r =>
      if c =? sep then [] :: split_on sep r
      else match split_on sep r with
           | h :: q => (c :: h) :: q
           | [] => [[c]]
           end
  end.

(** Files opened with open(name, "r") (EmbPattern.py 1455-1457): "\r\n" and "\r" arrive as
    "\n".  The bytes are decoded as UTF-8 (the default of most systems; Utf8Model.v). *)
Fixpoint universal_newlines (t : text) : text :=
  match t with
  | [] => []
  | c :: r =>
      if c =? 13 then
        match r with
        | [] => [10]
        | d :: r' => if d =? 10 then 10 :: universal_newlines r' else 10 :: universal_newlines r
        end
      else c :: universal_newlines r
  end.
(** f.readline(): up to and including the next "\n"; the rest. *)
Fixpoint readline (t : text) : text * text :=
  match t with
  | [] => ([], [])
  | c :: r =>
      if c =? 10 then ([c], r)
      else let '(a, b) := readline r in (c :: a, b)
  end.
