(** pyembroidery/JsonWriter.py, JsonReader.py between the pattern and the JSON object.  The
    text form of the object is in JsonTextModel.v; EmbPattern.py 1564-1647 opens the file. *)
From Coq Require Import Ascii String ZArith List Bool.
From Verif Require Import PyBase EmbConst ThreadModel TextModel NameModel CsvModel.
Import ListNotations.
Open Scope Z_scope.

(** A metadata value: JsonWriter.py 30-36 keeps strings, ints (a bool is an int) and floats. *)
Inductive value (F : Type) := VStr (t : text) | VInt (i : Z) | VBool (b : bool) | VFloat (f : F) | VOther.
Arguments VStr {F}. Arguments VInt {F}. Arguments VBool {F}. Arguments VFloat {F}. Arguments VOther {F}.
Definition kept {F} (e : text * value F) : bool := match snd e with VOther => false | _ => true end.

(** The members "color", "description", "catalog_number", "details", "brand", "chart",
    "weight" of a thread. *)
Record jthread := mkJT {
  j_color : text;
  j_description : option text;
  j_catalog : option text;
  j_details : option text;
  j_brand : option text;
  j_chart : option text;
  j_weight : option text }.
(** The object json_normal. *)
Record document (C F : Type) := mkDoc {
  j_threads : list jthread;
  j_stitches : list (C * C * text);
  j_extras : list (text * value F) }.
Arguments mkDoc {C F}. Arguments j_threads {C F}. Arguments j_stitches {C F}. Arguments j_extras {C F}.

Section json.
  Context {C F : Type}.
  Variable other : text -> Z.

  (* JsonWriter.py 22-57 *)
  Definition json_thread (t : thread) : jthread :=
    mkJT (hex_color (t_color t)) (t_description t) (t_catalog t) (t_details t) (t_brand t) (t_chart t) (t_weight t).
  Definition json_write (stitches : list (stitch C)) (threads : list thread) (extras : list (text * value F))
    : document C F :=
    mkDoc (map json_thread threads)
      (map (fun s => (sx s, sy s, decoded_name (scmd s))) stitches)
      (filter kept extras).

  (* JsonReader.py 29-39, EmbThread.py 254-259 *)
  Definition load_thread (t : jthread) : res loaded :=
    do color <- parse_string_color other (j_color t);
    Ok (mkL color (j_description t) (j_catalog t) (j_details t) (j_brand t) (j_chart t) (j_weight t)).
  Fixpoint load_threads (l : list jthread) : res (list loaded) :=
    match l with [] => Ok [] | t :: r => do t <- load_thread t; do r <- load_threads r; Ok (t :: r) end.
  (* JsonReader.py 40-41 *)
  Fixpoint load_stitches (l : list (C * C * text)) : res (list (stitch C)) :=
    match l with
    | [] => Ok []
    | (x, y, n) :: r => do c <- decoded_command n; do r <- load_stitches r; Ok (mkS x y c :: r)
    end.
  (** JsonReader.py 21-42 into an empty pattern: out.extras.update copies the entries. *)
  Definition json_read (d : document C F) : res (list (stitch C) * list loaded * list (text * value F)) :=
    do threads <- load_threads (j_threads d);
    do stitches <- load_stitches (j_stitches d);
    Ok (stitches, threads, j_extras d).
End json.
