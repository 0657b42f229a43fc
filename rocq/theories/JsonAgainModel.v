(** Loading a JSON file and saving what was loaded as JSON: pyembroidery/JsonReader.py 21-42 and
    JsonWriter.py 22-58 one after the other.  JSON files are written without encoding
    (JsonWriter.py 3, EmbPattern.py 1571-1576), so what is written is what was read. *)
From Coq Require Import ZArith List Bool.
From Verif Require Import PyBase EmbConst ThreadModel CsvModel CsvAgainModel JsonModel JsonTextModel.
Import ListNotations.
Open Scope Z_scope.

Section again.
  Context {F : Type}.
  Variables (show : F -> text) (read : text -> F) (other : text -> Z).
  Definition json_again (file : text) : res text :=
    do '(stitches, loaded, extras) <- json_open read other file;
    do threads <- writable_threads loaded;
    Ok (json_save show stitches threads extras).
End again.
