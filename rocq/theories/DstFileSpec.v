(** What survives in a whole DST file. *)
From Coq Require Import Ascii String ZArith QArith Qabs List Bool.
From Verif Require Import PyBase EmbConst StreamSpec ThreadModel Utf8Proofs TextModel DstSpec DstFileModel.
Import ListNotations.
Open Scope Z_scope.

(** Patterns whose trims and jumps survive: a trim directly follows sewing; fewer than [n] jumps
    follow sewing without a trim; no jump leads back to where its run of jumps started.
    [trimmed]: no sewing since the last trim or colour change; [run]: the length and the start of
    the current run of jumps. *)
Fixpoint tidy (n : Z) (trimmed : bool) (run : option (Z * Z * Z)) (px py : Z) (l : list (stitch Z)) : Prop :=
  match l with
  | [] => True
  | s :: r =>
      let c := cmd_of (scmd s) in
      if (c =? STITCH) || (c =? SEQUIN_EJECT) then tidy n false None (sx s) (sy s) r
      else if (c =? COLOR_CHANGE) || (c =? STOP) then tidy n true None (sx s) (sy s) r
      else if c =? TRIM then
        trimmed = false /\ run = None /\ sx s = px /\ sy s = py /\ tidy n true None (sx s) (sy s) r
      else if c =? JUMP then
        let '(k, x0, y0) := match run with Some v => v | None => (0, px, py) end in
        (trimmed = true \/ k + 1 < n) /\ ~ (sx s = x0 /\ sy s = y0) /\
        tidy n trimmed (Some (k + 1, x0, y0)) (sx s) (sy s) r
      else c = SEQUIN_MODE /\ sx s = px /\ sy s = py /\ tidy n trimmed run (sx s) (sy s) r
  end.


(** ** The header *)
(** The bytes a text takes in UTF-8. *)
Fixpoint text_size (t : text) : Z :=
  match t with
  | [] => 0
  | c :: r => (if c <? 0x80 then 1 else if c <? 0x800 then 2 else if c <? 0x10000 then 3 else 4) + text_size r
  end.
Definition none_text (t : option text) : text := match t with Some t => t | None => text_of "None" end.
Definition entry_size (t : option text) : Z := match t with Some t => 4 + text_size t | None => 0 end.
Definition threads_size (l : list thread) : Z :=
  fold_right (fun t n => 13 + text_size (none_text (t_description t)) + text_size (none_text (t_catalog t)) + n) 0 l.
Definition title (p : dst_info) : text := match i_name p with Some n => n | None => text_of "Untitled" end.
(** The texts leave room for the rest of the header. *)
Definition header_room (extended : bool) (p : dst_info) : Prop :=
  text_size (title p)
  + (if extended then entry_size (i_author p) + entry_size (i_copyright p) + threads_size (i_threads p) else 0) <= 347.

(** A text that stays on its line. *)
Definition one_line (t : text) : Prop := Forall scalar t /\ ~ In 13 t /\ ~ In 10 t.
Definition field (t : text) : Prop := one_line t /\ ~ In 44 t.
Definition opt (P : text -> Prop) (t : option text) : Prop := match t with Some t => P t | None => True end.
Definition info_ok (extended : bool) (p : dst_info) : Prop :=
  one_line (title p) /\
  (extended = true -> opt one_line (i_author p) /\ opt one_line (i_copyright p) /\
     Forall (fun t => opt field (t_description t) /\ opt field (t_catalog t)) (i_threads p)).

(** An entry that is nothing but blanks is not read. *)
Definition entry (key : string) (value : text) : list (text * text) :=
  match strip value with [] => [] | v => [(text_of key, v)] end.
Definition opt_entry (key : string) (value : option text) : list (text * text) :=
  match value with Some v => entry key v | None => [] end.

(** The extents: [lo] and [hi] are the least and the greatest of the values [v] of the stitches. *)
Definition extent (v : stitch Q -> Q) (l : list (stitch Q)) (lo hi : Q) : Prop :=
  (exists s, In s l /\ (v s == lo)%Q) /\ (exists s, In s l /\ (v s == hi)%Q) /\
  Forall (fun s => (lo <= v s <= hi)%Q) l.
(** The whole part of a number, towards zero. *)
Definition whole (v : Q) (n : Z) : Prop :=
  (0 <= v -> inject_Z n <= v < inject_Z n + 1)%Q /\ (v <= 0 -> inject_Z n - 1 < v <= inject_Z n)%Q.

(** "+   12", "-    3": a sign and the magnitude, right-aligned in five places. *)
Definition signed_text (v : Z) : text :=
  let d := str_of_int (Z.abs v) in (if 0 <=? v then [43] else [45]) ++ repeat 32 (5 - List.length d) ++ d.
(** What the header tells: [x0], [x1], [y0], [y1] are the whole parts of the magnitudes of the
    extents, (ax, ay) that of the last position with y upwards. *)
Definition header_meta (extended : bool) (p : dst_info) (count changes x0 x1 y0 y1 ax ay : Z) : list (text * text) :=
  entry "name" (title p) ++
  [(text_of "ST", str_of_int count); (text_of "CO", str_of_int changes);
   (text_of "+X", str_of_int x1); (text_of "-X", str_of_int x0);
   (text_of "+Y", str_of_int y1); (text_of "-Y", str_of_int y0);
   (text_of "AX", signed_text ax); (text_of "AY", signed_text ay);
   (text_of "MX", text_of "+    0"); (text_of "MY", text_of "+    0"); (text_of "PD", text_of "******")] ++
  (if extended then opt_entry "author" (i_author p) ++ opt_entry "copyright" (i_copyright p) else []).
(** The threads of an extended header: colour, description, catalogue number. *)
Definition header_threads (extended : bool) (p : dst_info) : list (option Z * text * text) :=
  if extended then
    map (fun t => (Some (Z.land (t_color t) 0xFFFFFF), strip (none_text (t_description t)), strip (none_text (t_catalog t))))
        (i_threads p)
  else [].
