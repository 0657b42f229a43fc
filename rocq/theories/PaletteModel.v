(** The palettes of HUS and SHV files: pyembroidery/EmbThreadHus.py and EmbThreadShv.py, and the threads the
    readers make of the indices in a file (HusReader.py 25-28, ShvReader.py 28-34). *)
From Coq Require Import Ascii String ZArith Bool List.
From Verif Require Import PyBase ThreadModel TextModel ValueModel BlockModel.
Import ListNotations.
Open Scope Z_scope.

(** EmbThreadHus.py 38-45: the colour is set from its text. *)
Definition hus_thread (color description catalog : string) : option thread :=
  match color_hex_any (text_of color) with
  | Ok (VInt c) => Some (mkT c (Some (text_of description)) (Some (text_of catalog)) None (Some (text_of "Hus")) (Some (text_of "Hus")) None)
  | _ => None
  end.
(* EmbThreadHus.py 4-35 *)
Definition hus_palette : list (option thread) :=
  [hus_thread "#000000" "Black" "026";
   hus_thread "#0000e7" "Blue" "005";
   hus_thread "#00c600" "Green" "002";
   hus_thread "#ff0000" "Red" "014";
   hus_thread "#840084" "Purple" "008";
   hus_thread "#ffff00" "Yellow" "020";
   hus_thread "#848484" "Grey" "024";
   hus_thread "#8484e7" "Light Blue" "006";
   hus_thread "#00ff84" "Light Green" "003";
   hus_thread "#ff7b31" "Orange" "017";
   hus_thread "#ff8ca5" "Pink" "011";
   hus_thread "#845200" "Brown" "028";
   hus_thread "#ffffff" "White" "022";
   hus_thread "#000084" "Dark Blue" "004";
   hus_thread "#008400" "Dark Green" "001";
   hus_thread "#7b0000" "Dark Red" "013";
   hus_thread "#ff6384" "Light Red" "015";
   hus_thread "#522952" "Dark Purple" "007";
   hus_thread "#ff00ff" "Light Purple" "009";
   hus_thread "#ffde00" "Dark Yellow" "019";
   hus_thread "#ffff9c" "Light Yellow" "021";
   hus_thread "#525252" "Dark Grey" "025";
   hus_thread "#d6d6d6" "Light Grey" "023";
   hus_thread "#ff5208" "Dark Orange" "016";
   hus_thread "#ff9c5a" "Light Orange" "018";
   hus_thread "#ff52b5" "Dark Pink" "010";
   hus_thread "#ffc6de" "Light Pink" "012";
   hus_thread "#523100" "Dark Brown" "027";
   hus_thread "#b5a584" "Light Brown" "029"].
(* EmbThreadShv.py 52-59 *)
Definition shv_thread (r g b : Z) (description catalog : string) : thread :=
  mkT (ValueModel.color_rgb r g b) (Some (text_of description)) (Some (text_of catalog)) None (Some (text_of "Shv")) (Some (text_of "Shv")) None.
(* EmbThreadShv.py 4-49 *)
Definition shv_palette : list thread :=
  [shv_thread 0 0 0 "Black" "0";
   shv_thread 0 0 255 "Blue" "1";
   shv_thread 51 204 102 "Green" "2";
   shv_thread 255 0 0 "Red" "3";
   shv_thread 255 0 255 "Purple" "4";
   shv_thread 255 255 0 "Yellow" "5";
   shv_thread 127 127 127 "Gray" "6";
   shv_thread 51 154 255 "Light Blue" "7";
   shv_thread 0 255 0 "Light Green" "8";
   shv_thread 255 127 0 "Orange" "9";
   shv_thread 255 160 180 "Pink" "10";
   shv_thread 153 75 0 "Brown" "11";
   shv_thread 255 255 255 "White" "12";
   shv_thread 0 0 0 "Black" "13";
   shv_thread 0 0 0 "Black" "14";
   shv_thread 0 0 0 "Black" "15";
   shv_thread 0 0 0 "Black" "16";
   shv_thread 0 0 0 "Black" "17";
   shv_thread 0 0 0 "Black" "18";
   shv_thread 255 127 127 "Light Red" "19";
   shv_thread 255 127 255 "Light Purple" "20";
   shv_thread 255 255 153 "Light Yellow" "21";
   shv_thread 192 192 192 "Light Gray" "22";
   shv_thread 0 0 0 "Black" "23";
   shv_thread 0 0 0 "Black" "24";
   shv_thread 255 165 65 "Light Orange" "25";
   shv_thread 255 204 204 "Light Pink" "26";
   shv_thread 175 90 10 "Light Brown" "27";
   shv_thread 0 0 0 "Black" "28";
   shv_thread 0 0 0 "Black" "29";
   shv_thread 0 0 0 "Black" "30";
   shv_thread 0 0 0 "Black" "31";
   shv_thread 0 0 0 "Black" "32";
   shv_thread 0 0 127 "Dark Blue" "33";
   shv_thread 0 127 0 "Dark Green" "34";
   shv_thread 127 0 0 "Dark Red" "35";
   shv_thread 127 0 127 "Dark Purple" "36";
   shv_thread 200 200 0 "Dark Yellow" "37";
   shv_thread 60 60 60 "Dark Gray" "38";
   shv_thread 0 0 0 "Black" "39";
   shv_thread 0 0 0 "Black" "40";
   shv_thread 232 63 0 "Dark Orange" "41";
   shv_thread 255 102 122 "Dark Pink" "42"].

(** palette[index] for each index of a file. *)
Fixpoint from_palette {A} (palette : list A) (l : list Z) : res (list A) :=
  match l with
  | [] => Ok []
  | i :: r =>
      match nth_error palette (Z.to_nat i) with
      | Some t => do ts <- from_palette palette r; Ok (t :: ts)
      | None => Err IndexError
      end
  end.
Definition hus_load (fuel : nat) (file : list Z) : res (list (option thread) * list (stitch Z)) :=
  do '(indices, l) <- hus_read fuel file; do ts <- from_palette hus_palette indices; Ok (ts, l).
Definition shv_load (file : list Z) : res (option text * list thread * list (stitch Z)) :=
  do '(name, indices, l) <- shv_read file; do ts <- from_palette shv_palette indices; Ok (name, ts, l).
