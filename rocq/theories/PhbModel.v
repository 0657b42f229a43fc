(** pyembroidery/PhbReader.py and PhcReader.py: PEC stitches found through chains of offsets. *)
From Coq Require Import ZArith List Bool.
From Verif Require Import PyBase EmbConst HelperModel PatternModel ThreadModel Vp3Model PecModel PecFileModel.
Import ListNotations.
Open Scope Z_scope.

(* EmbThreadPec.py; out.add_thread of the palette entry *)
Definition pec_entry (index : Z) : thread := added (nth (Z.to_nat (index mod zlen pec_threads)) pec_threads None).

(* PhbReader.py 11-12: None % len(threadset) raises TypeError *)
Fixpoint phb_threads (n : nat) (f : stream) : res (list thread) :=
  match n with
  | O => Ok []
  | S n =>
      let '(index, f) := s_int read_int_8 f in
      do index <- some index;
      do l <- phb_threads n f;
      Ok (pec_entry index :: l)
  end.
(* PhbReader.py 6-32 *)
Definition phb_read (file : list Z) : res (list (stitch Z) * list thread * metadata) :=
  let '(color_count, f) := s_int read_int_16le (seek_to file 0x71) in
  do color_count <- some color_count;
  do threads <- phb_threads (Z.to_nat color_count) f;
  do a <- some (fst (s_int read_int_32le (seek_to file 0x54)));
  let file_offset := 0x52 + a in
  do b <- some (fst (s_int read_int_32le (seek_to file file_offset)));
  let file_offset := file_offset + b + 2 in
  do c <- some (fst (s_int read_int_32le (seek_to file file_offset)));
  let file_offset := file_offset + c in
  let '(color_count2, f) := s_int read_int_8 (seek_to file (file_offset + 14)) in
  do color_count2 <- some color_count2;
  let f := s_seek (color_count2 + 0x15) f in
  Ok (finish_read (pec_read (snd f), threads, [])).

(** PhcReader.py 13-17: the threads, and whether the file ended before them. *)
Fixpoint phc_threads (n : nat) (f : stream) : list thread * bool * stream :=
  match n with
  | O => ([], false, f)
  | S n =>
      let '(index, f) := s_int read_int_8 f in
      match index with
      | None => ([], true, f)
      | Some index => let '(l, cut, f) := phc_threads n f in (pec_entry index :: l, cut, f)
      end
  end.
(* PhcReader.py 6-35; a file that ends in its colours is returned with the threads so far and no stitches *)
Definition phc_read (file : list Z) : res (list (stitch Z) * list thread * metadata) :=
  let '(height, f) := s_int read_int_8 (seek_to file 0x4A) in
  let f := s_seek 1 f in
  let '(stride, f) := s_int read_int_8 f in
  let '(color_count, f) := s_int read_int_16le f in
  do color_count <- some color_count;
  let '(threads, cut, f) := phc_threads (Z.to_nat color_count) f in
  if cut then Ok ([], threads, [])
  else
    do stride <- some stride;
    do height <- some height;
    do graphics <- read_pec_graphics (Z.to_nat color_count) 0 (stride * height) stride (None :: map Some threads) f;
    let '(pec_add, f) := s_int read_int_8 (seek_to file 0x2B) in
    let f := s_seek 4 f in
    let '(pec_offset, f) := s_int read_int_16le f in
    do pec_add <- some pec_add;
    do pec_offset <- some pec_offset;
    let '(bytes_in_section, f) := s_int read_int_16le (seek_to file (pec_offset + pec_add)) in
    do bytes_in_section <- some bytes_in_section;
    let f := s_seek bytes_in_section f in
    let '(bytes_in_section2, f) := s_int read_int_32le f in
    do bytes_in_section2 <- some bytes_in_section2;
    let f := s_seek (bytes_in_section2 + 10) f in
    let '(color_count2, f) := s_int read_int_8 f in
    do color_count2 <- some color_count2;
    let f := s_seek (color_count2 + 0x1D) f in
    Ok (finish_read (pec_read (snd f), threads, graphics)).
