(** pyembroidery/DstWriter.py and DstReader.py: records and the stitch loop. *)
From Coq Require Import ZArith List Bool.
From Verif Require Import PyBase EmbConst StreamModel.
Import ListNotations.
Open Scope Z_scope.

(* DstWriter.py 14-15 *)
Definition bit (b : Z) : Z := Z.shiftl 1 b.

Definition bw (c : bool) (k : Z) : Z := if c then bit k else 0.

(** DstWriter.py 28-33 (and the nine similar groups up to line 91):
    "if v > t: (set plus bit); v -= d" then "if v < -t: (set minus bit); v += d". *)
Definition tern (t d v : Z) : bool * bool * Z :=
  let p := v >? t in
  let v := if p then v - d else v in
  let m := v <? - t in
  let v := if m then v + d else v in
  (p, m, v).

(** DstWriter.py 18-104.  bytes(bytearray(..)) is [py_bytearray]. *)
Definition encode_record (x y flags : Z) : res (list Z) :=
  let y := - y in
  if (flags =? STITCH) || (flags =? JUMP) || (flags =? SEQUIN_EJECT) then
    let b2 := bw ((flags =? JUMP) || (flags =? SEQUIN_EJECT)) 7 in
    let b2 := b2 + bit 0 in
    let b2 := b2 + bit 1 in
    let '(xp81, xm81, x) := tern 40 81 x in
    let '(xp27, xm27, x) := tern 13 27 x in
    let '(xp9, xm9, x) := tern 4 9 x in
    let '(xp3, xm3, x) := tern 1 3 x in
    let '(xp1, xm1, x) := tern 0 1 x in
    let b2 := b2 + bw xp81 2 + bw xm81 3 in
    let b1 := bw xp27 2 + bw xm27 3 in
    let b0 := bw xp9 2 + bw xm9 3 in
    let b1 := b1 + bw xp3 0 + bw xm3 1 in
    let b0 := b0 + bw xp1 0 + bw xm1 1 in
    if negb (x =? 0) then Err ValueError else
    let '(yp81, ym81, y) := tern 40 81 y in
    let '(yp27, ym27, y) := tern 13 27 y in
    let '(yp9, ym9, y) := tern 4 9 y in
    let '(yp3, ym3, y) := tern 1 3 y in
    let '(yp1, ym1, y) := tern 0 1 y in
    let b2 := b2 + bw yp81 5 + bw ym81 4 in
    let b1 := b1 + bw yp27 5 + bw ym27 4 in
    let b0 := b0 + bw yp9 5 + bw ym9 4 in
    let b1 := b1 + bw yp3 7 + bw ym3 6 in
    let b0 := b0 + bw yp1 7 + bw ym1 6 in
    if negb (y =? 0) then Err ValueError else
    py_bytearray [b0; b1; b2]
  else if flags =? COLOR_CHANGE then py_bytearray [0; 0; 195]   (* 0b11000011 *)
  else if flags =? STOP then py_bytearray [0; 0; 195]           (* 0b11000011 *)
  else if flags =? END then py_bytearray [0; 0; 243]            (* 0b11110011 *)
  else if flags =? SEQUIN_MODE then py_bytearray [0; 0; 67]     (* 0b01000011 *)
  else py_bytearray [0; 0; 0].

(** DstWriter.py 180-182: the middle jumps of a trim; returns the bytes and the last delta. *)
Fixpoint trim_jumps (n : nat) (delta : Z) : res (list Z * Z) :=
  match n with
  | O => Ok ([], delta)
  | S n =>
      do h <- encode_record delta delta JUMP;
      do '(t, d) <- trim_jumps n (- delta);
      Ok (h ++ t, d)
  end.

(** DstWriter.py 177-183.  delta/2 is the float 2.0 or -2.0 in Python 3; encode_record
    computes the same bytes for it as for the int, so integers are used. *)
Definition dst_trim (trim_at : Z) : res (list Z) :=
  do a <- encode_record 2 2 JUMP;
  do '(m, delta) <- trim_jumps (Z.to_nat (trim_at - 2)) (-4);
  do z <- encode_record (delta / 2) (delta / 2) JUMP;
  Ok (a ++ m ++ z).

(** DstWriter.py 177-185: one pass of the loop after the quantisation. *)
Definition dst_emit (trim_at : Z) (e : rel) : res (list Z) :=
  let data := cmd_of (scmd e) in
  if data =? TRIM then dst_trim trim_at else encode_record (sx e) (sy e) data.

(** DstWriter.py 165-185. *)
Definition dst_body {C} (qz : C -> Z -> Z) (trim_at : Z) (l : list (stitch C)) : res (list Z) :=
  emit_all (dst_emit trim_at) (quantise qz 0 0 l).

(* DstReader.py 1-2 *)
Definition getbit (b pos : Z) : Z := Z.land (Z.shiftr b pos) 1.

(* DstReader.py 5-17 *)
Definition decode_dx (b0 b1 b2 : Z) : Z :=
  getbit b2 2 * 81 + getbit b2 3 * (-81)
  + getbit b1 2 * 27 + getbit b1 3 * (-27)
  + getbit b0 2 * 9 + getbit b0 3 * (-9)
  + getbit b1 0 * 3 + getbit b1 1 * (-3)
  + getbit b0 0 * 1 + getbit b0 1 * (-1).

(* DstReader.py 20-32 *)
Definition decode_dy (b0 b1 b2 : Z) : Z :=
  - (getbit b2 5 * 81 + getbit b2 4 * (-81)
     + getbit b1 5 * 27 + getbit b1 4 * (-27)
     + getbit b0 5 * 9 + getbit b0 4 * (-9)
     + getbit b1 7 * 3 + getbit b1 6 * (-3)
     + getbit b0 7 * 1 + getbit b0 6 * (-1)).

(** DstReader.py 70-87, the dispatch on the third byte: None = break. *)
Definition dst_kind (sequin_mode : bool) (b2 : Z) : option Z :=
  if Z.land b2 243 =? 243 then None
  else if Z.land b2 195 =? 195 then Some COLOR_CHANGE
  else if Z.land b2 67 =? 67 then Some SEQUIN_MODE
  else if Z.land b2 131 =? 131 then
    (if sequin_mode then Some SEQUIN_EJECT else Some JUMP)
  else Some STITCH.

(** DstReader.py 67-88: the pattern-method calls made by the loop. *)
Fixpoint dst_read_loop (sequin_mode : bool) (s : list Z) : list rel :=
  match s with
  | b0 :: b1 :: b2 :: r =>
      let dx := decode_dx b0 b1 b2 in
      let dy := decode_dy b0 b1 b2 in
      match dst_kind sequin_mode b2 with
      | None => []
      | Some c =>
          mkS dx dy c :: dst_read_loop (if c =? SEQUIN_MODE then negb sequin_mode else sequin_mode) r
      end
  | _ => []
  end.

(** DstReader.py 67-89: loop and out.end(). The trim interpolation of lines 91-100 is
    [interpolate_trims] of the pattern model, applied afterwards. *)
Definition dst_read_raw (s : list Z) : list (stitch Z) :=
  apply_rel 0 0 (dst_read_loop false s ++ [mkS 0 0 END]).
