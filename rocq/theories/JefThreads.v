(** The thread table of JEF and the palette numbers JefWriter and JefReader use. *)
From Coq Require Import Ascii String ZArith List Bool.
From Verif Require Import PyBase ThreadModel TextModel.
Import ListNotations.
Open Scope Z_scope.

(* EmbThreadJef.py 88-95 *)
Definition jef_thread (color : Z) (description catalog : string) : option thread :=
  Some (mkT color (Some (text_of description)) (Some (text_of catalog)) None (Some (text_of "Jef")) (Some (text_of "Jef")) None).
(* EmbThreadJef.py 5-85 *)
Definition jef_threads : list (option thread) :=
  [None;
   jef_thread 0x000000 "Black" "002";
   jef_thread 0xFFFFFF "White" "001";
   jef_thread 0xFFFF17 "Yellow" "204";
   jef_thread 0xFF6600 "Orange" "203";
   jef_thread 0x2F5933 "Olive Green" "219";
   jef_thread 0x237336 "Green" "226";
   jef_thread 0x65C2C8 "Sky" "217";
   jef_thread 0xAB5A96 "Purple" "208";
   jef_thread 0xF669A0 "Pink" "201";
   jef_thread 0xFF0000 "Red" "225";
   jef_thread 0xB1704E "Brown" "214";
   jef_thread 0x0B2F84 "Blue" "207";
   jef_thread 0xE4C35D "Gold" "003";
   jef_thread 0x481A05 "Dark Brown" "205";
   jef_thread 0xAC9CC7 "Pale Violet" "209";
   jef_thread 0xFCF294 "Pale Yellow" "210";
   jef_thread 0xF999B7 "Pale Pink" "211";
   jef_thread 0xFAB381 "Peach" "212";
   jef_thread 0xC9A480 "Beige" "213";
   jef_thread 0x970533 "Wine Red" "215";
   jef_thread 0xA0B8CC "Pale Sky" "216";
   jef_thread 0x7FC21C "Yellow Green" "218";
   jef_thread 0xE5E5E5 "Silver Gray" "220";
   jef_thread 0x889B9B "Gray" "221";
   jef_thread 0x98D6BD "Pale Aqua" "227";
   jef_thread 0xB2E1E3 "Baby Blue" "228";
   jef_thread 0x368BA0 "Powder Blue" "229";
   jef_thread 0x4F83AB "Bright Blue" "230";
   jef_thread 0x386A91 "Slate Blue" "231";
   jef_thread 0x071650 "Navy Blue" "232";
   jef_thread 0xF999A2 "Salmon Pink" "233";
   jef_thread 0xF9676B "Coral" "234";
   jef_thread 0xE3311F "Burnt Orange" "235";
   jef_thread 0xE2A188 "Cinnamon" "236";
   jef_thread 0xB59474 "Umber" "237";
   jef_thread 0xE4CF99 "Blond" "238";
   jef_thread 0xFFCB00 "Sunflower" "239";
   jef_thread 0xE1ADD4 "Orchid Pink" "240";
   jef_thread 0xC3007E "Peony Purple" "241";
   jef_thread 0x80004B "Burgundy" "242";
   jef_thread 0x540571 "Royal Purple" "243";
   jef_thread 0xB10525 "Cardinal Red" "244";
   jef_thread 0xCAE0C0 "Opal Green" "245";
   jef_thread 0x899856 "Moss Green" "246";
   jef_thread 0x5C941A "Meadow Green" "247";
   jef_thread 0x003114 "Dark Green" "248";
   jef_thread 0x5DAE94 "Aquamarine" "249";
   jef_thread 0x4CBF8F "Emerald Green" "250";
   jef_thread 0x007772 "Peacock Green" "251";
   jef_thread 0x595B61 "Dark Gray" "252";
   jef_thread 0xFFFFF2 "Ivory White" "253";
   jef_thread 0xB15818 "Hazel" "254";
   jef_thread 0xCB8A07 "Toast" "255";
   jef_thread 0x986C80 "Salmon" "256";
   jef_thread 0x98692D "Cocoa Brown" "257";
   jef_thread 0x4D3419 "Sienna" "258";
   jef_thread 0x4C330B "Sepia" "259";
   jef_thread 0x33200A "Dark Sepia" "260";
   jef_thread 0x523A97 "Violet Blue" "261";
   jef_thread 0x0D217E "Blue Ink" "262";
   jef_thread 0x1E77AC "Sola Blue" "263";
   jef_thread 0xB2DD53 "Green Dust" "264";
   jef_thread 0xF33689 "Crimson" "265";
   jef_thread 0xDE649E "Floral Pink" "266";
   jef_thread 0x984161 "Wine" "267";
   jef_thread 0x4C5612 "Olive Drab" "268";
   jef_thread 0x4C881F "Meadow" "269";
   jef_thread 0xE4DE79 "Mustard" "270";
   jef_thread 0xCB8A1A "Yellow Ocher" "271";
   jef_thread 0xCBA21C "Old Gold" "272";
   jef_thread 0xFF9805 "Honey Dew" "273";
   jef_thread 0xFCB257 "Tangerine" "274";
   jef_thread 0xFFE505 "Canary Yellow" "275";
   jef_thread 0xF0331F "Vermilion" "202";
   jef_thread 0x1A842D "Bright Green" "206";
   jef_thread 0x386CAE "Ocean Blue" "222";
   jef_thread 0xE3C4B4 "Beige Gray" "223";
   jef_thread 0xE3AC81 "Bamboo" "224"].

(** JefWriter.py 50: thread.find_nearest_color_index(jef_threads).  None is not reached: the table has threads. *)
Definition jef_near (t : thread) : Z :=
  match find_nearest_color_index (t_color t) jef_threads with Some i => Z.of_nat i | None => 0 end.
(** JefWriter.py 54-58: the same with entry [i] taken out. *)
Definition jef_near2 (t : thread) (i : Z) : Z :=
  match find_nearest_color_index (t_color t) (set_nth (Z.to_nat i) None jef_threads) with Some i => Z.of_nat i | None => 0 end.
(** JefReader.py 68: jef_threads[index % len(jef_threads)]; the entry at 0 is None, here without a thread of its own: [missing]. *)
Definition jef_thread_of (missing : thread) (i : Z) : thread :=
  match nth (Z.to_nat (i mod Z.of_nat (List.length jef_threads))) jef_threads None with Some t => t | None => missing end.
