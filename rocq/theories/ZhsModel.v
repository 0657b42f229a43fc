(** pyembroidery/ZhsReader.py, the header and the whole file; the stitches are in RecordModel.v. *)
From Coq Require Import ZArith List Bool.
From Verif Require Import PyBase EmbConst HelperModel PatternModel ThreadModel Utf8Model Vp3Model PecFileModel RecordModel.
Import ListNotations.
Open Scope Z_scope.

(** str.split of Python for a separator of two different characters. *)
Fixpoint split_two (p q : Z) (t : text) : list text :=
  match t with
  | [] => [[]]
  | c :: r =>
      let keep := match split_two p q r with w :: ws => (c :: w) :: ws | [] => [[c]] end in
      match r with
      | d :: r' => if (c =? p) && (d =? q) then [] :: split_two p q r' else keep
      | [] => keep
      end
  end.

(* ZhsReader.py 78-79; add_thread(None) at the end of the file leaves the thread black *)
Fixpoint zhs_colors (n : nat) (f : stream) : list thread * stream :=
  match n with
  | O => ([], f)
  | S n =>
      let '(c, f) := s_int read_int_24be f in
      let '(l, f) := zhs_colors n f in
      (plain_thread (match c with Some c => c | None => 0 end) :: l, f)
  end.
(* ZhsReader.py 87-95: "&#" between the texts of one thread; a missing text ends the try block *)
Definition zhs_note (t : thread) (data : text) : thread :=
  let parts := split_two 38 35 data in
  match parts with
  | [] => t
  | chart :: parts =>
      let t := match chart with [] => t
               | _ => mkT (t_color t) (t_description t) (t_catalog t) (t_details t) (t_brand t) (Some chart) (t_weight t) end in
      match parts with
      | [] => t
      | description :: parts =>
          let t := match description with [] => t
                   | _ => mkT (t_color t) (Some description) (t_catalog t) (t_details t) (t_brand t) (t_chart t) (t_weight t) end in
          match parts with
          | [] => t
          | number :: _ =>
              if 3 <? zlen number then
                mkT (t_color t) (t_description t) (Some (firstn (List.length number - 2) number)) (t_details t) (t_brand t)
                  (t_chart t) (t_weight t)
              else t
          end
      end
  end.
(* ZhsReader.py 84-97: threadlist[i] beyond the threads raises IndexError, which ends the loop *)
Fixpoint zhs_notes (threads : list thread) (notes : list text) : list thread :=
  match threads, notes with
  | t :: ts, d :: ds => zhs_note t d :: zhs_notes ts ds
  | ts, _ => ts
  end.
(* ZhsReader.py 76-97: range(None) raises TypeError; f.read(None) reads the rest; UnicodeDecodeError is a ValueError *)
Definition zhs_header (f : stream) : res (list thread) :=
  let '(count, f) := s_int read_int_8 f in
  do count <- some count;
  let '(threads, f) := zhs_colors (Z.to_nat count) f in
  let '(length, f) := s_int read_int_16le f in
  let '(b, f) := s_read (match length with Some n => n | None => -1 end) f in
  match utf8_decode b with
  | None => Err ValueError
  | Some t => Ok (zhs_notes threads (tl (split_two 38 36 t)))
  end.
(* ZhsReader.py 100-107 *)
Definition zhs_read (file : list Z) : res (list (stitch Z) * list thread) :=
  let '(stitches, f) := s_int read_int_32le (seek_to file 0x0F) in
  let '(header, f) := s_int read_int_32le f in
  do header <- some header;
  do threads <- zhs_header (seek_to file header);
  do stitches <- some stitches;
  do l <- zhs_stitches (snd (seek_to file stitches));
  Ok (l, threads).
