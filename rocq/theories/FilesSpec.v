(** What a file name promises: its extension, the format meant by it.  Written without the definitions
    of FilesModel.v except the table of formats. *)
From Coq Require Import Ascii String ZArith List Bool.
From Verif Require Import PyBase ThreadModel TextModel FilesModel.
Import ListNotations.
Open Scope Z_scope.

(** [name] is a directory, possibly empty, and a file name that ends in a dot and [e]; something other
    than dots stands in front of that dot. *)
Definition has_extension (name e : text) : Prop :=
  exists directory base, name = directory ++ base ++ [46] ++ e /\
    (directory = [] \/ exists d, directory = d ++ [47]) /\
    ~ In 47 base /\ ~ In 47 e /\ ~ In 46 e /\ (exists c, In c base /\ c <> 46).
(** [x] is the letter [y] of a lower case extension: the same, its capital, or the Kelvin sign for k. *)
Definition same_letter (x y : Z) : Prop := x = y \/ (65 <= x <= 90 /\ y = x + 32) \/ (x = 0x212A /\ y = 107).
(** [e] is the extension [s] in capital or small letters. *)
Definition spells (e : text) (s : string) : Prop := Forall2 same_letter e (text_of s).
(** The name means the format. *)
Definition names_format (name : text) (f : format) : Prop :=
  exists e, has_extension name e /\ spells e (f_extension f).
(** The extension is one of those that the entry of the format lists. *)
Definition lists_extension (name : text) (f : format) : Prop :=
  exists e s, has_extension name e /\ In s (f_extensions f) /\ spells e s.

(** The module for a format is called after it: its extension with a capital in front, or with A in front of a
    digit, and what the module does. *)
Definition module_name (e does : string) : string :=
  match e with
  | EmptyString => does
  | String c r => let n := N_of_ascii c in
    (if (n <? 97)%N then String "A"%char e else String (ascii_of_N (n - 32)) r) ++ does
  end%string.
