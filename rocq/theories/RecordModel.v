(** The readers of formats that are only read and that store one record per command: 100, 10O, BRO,
    DAT (Barudan and Sunstar), DSB, DSZ, EMD, EXY, FXY, GT, INB, JPX, KSM, MIT, NEW, SEW, SPX, STC,
    STX, TAP, ZXY and the stitches of ZHS.

    A file is its list of bytes; f.seek(n, 0) is [skipn n] of the file, f.seek(n, 1) of what is left.
    The pattern is empty before the reader runs, so the calls out.stitch(...) etc. are relative
    events applied from (0, 0) ([apply_rel]).  Threads: only how many and which palette entries. *)
From Coq Require Import ZArith QArith List Bool.
From Verif Require Import PyBase EmbConst StreamModel HelperModel FunctionsModel DstModel ExpModel NumQ PatternModel DstFileModel.
Import ListNotations.
Open Scope Z_scope.

(** One pass of a loop: calls of the pattern's methods, then on to the next pass with state [s], or out of the
    loop, or an exception. *)
Inductive pass (S : Type) := Next (calls : list rel) (s : S) | Break (calls : list rel) | Raise (e : exn).
Arguments Next {S}. Arguments Break {S}. Arguments Raise {S}.

(** The calls made, in order, before the result of the rest. *)
Definition calls_then (calls : list rel) (rest : res (list rel)) : res (list rel) :=
  do l <- rest; Ok (calls ++ l).

(** "while True: byte = bytearray(f.read(3)); if len(byte) != 3: break; body". *)
Fixpoint loop3 {S} (body : S -> Z -> Z -> Z -> pass S) (s : S) (bytes : list Z) : res (list rel) :=
  match bytes with
  | b0 :: b1 :: b2 :: r =>
      match body s b0 b1 b2 with
      | Next calls s' => calls_then calls (loop3 body s' r)
      | Break calls => Ok calls
      | Raise e => Err e
      end
  | _ => Ok []
  end.
(** The same with records of two bytes. *)
Fixpoint loop2 {S} (body : S -> Z -> Z -> pass S) (s : S) (bytes : list Z) : res (list rel) :=
  match bytes with
  | b0 :: b1 :: r =>
      match body s b0 b1 with
      | Next calls s' => calls_then calls (loop2 body s' r)
      | Break calls => Ok calls
      | Raise e => Err e
      end
  | _ => Ok []
  end.
(** The same with records of four bytes. *)
Fixpoint loop4 {S} (body : S -> Z -> Z -> Z -> Z -> pass S) (s : S) (bytes : list Z) : res (list rel) :=
  match bytes with
  | b0 :: b1 :: b2 :: b3 :: r =>
      match body s b0 b1 b2 b3 with
      | Next calls s' => calls_then calls (loop4 body s' r)
      | Break calls => Ok calls
      | Raise e => Err e
      end
  | _ => Ok []
  end.

(** out.end() after the loop. *)
Definition ended (calls : res (list rel)) : res (list (stitch Z)) :=
  do l <- calls; Ok (apply_rel 0 0 (l ++ [mkS 0 0 END])).

Definition flag (b mask : Z) : bool := negb (Z.land b mask =? 0).
(** EmbPattern.py 278-284. *)
Definition needle_change (n : Z) : rel := mkS 0 0 (encode_thread_change NEEDLE_SET None (Some n) None).

(* A100Reader.py 5-25 *)
Definition a100_sign (v : Z) : Z := if v >? 0x80 then - (v - 0x80) else v.
Definition a100_body (_ : unit) (b0 b1 b2 b3 : Z) : pass unit :=
  let x := a100_sign b2 in
  let y := a100_sign b3 in
  if b0 =? 0x61 then Next [mkS x (- y) STITCH] tt
  else if flag b0 0x01 then Next [mkS x (- y) JUMP] tt
  else Next [mkS 0 0 COLOR_CHANGE] tt.
(* A100Reader.py 1-30 *)
Definition a100_read (file : list Z) : res (list (stitch Z)) := ended (loop4 a100_body tt file).

(* A10oReader.py 5-36 *)
Definition a10o_body (_ : unit) (ctrl b1 b2 : Z) : pass unit :=
  let y := - b1 in
  let x := b2 in
  let x := if flag ctrl 0x20 then - x else x in
  let y := if flag ctrl 0x40 then - y else y in
  if Z.land ctrl 31 =? 0 then Next [mkS x y STITCH] tt
  else if Z.land ctrl 31 =? 0x10 then Next [mkS x y JUMP] tt
  else if ctrl =? 0x8A then Next [] tt
  else if ctrl =? 0x85 then Next [mkS 0 0 COLOR_CHANGE] tt
  else if ctrl =? 0x82 then Next [mkS 0 0 STOP] tt
  else if ctrl =? 0x81 then Next [mkS 0 0 TRIM] tt
  else Break [].
(* A10oReader.py 1-41 *)
Definition a10o_read (file : list Z) : res (list (stitch Z)) := ended (loop3 a10o_body tt file).

(* DsbReader.py 6-39 *)
Definition dsb_body (_ : unit) (ctrl b1 b2 : Z) : pass unit :=
  let y := - b1 in
  let x := b2 in
  let y := if flag ctrl 0x40 then - y else y in
  let x := if flag ctrl 0x20 then - x else x in
  if Z.land ctrl 31 =? 0 then Next [mkS x y STITCH] tt
  else if Z.land ctrl 31 =? 1 then Next [mkS x y JUMP] tt
  else if ctrl =? 0xF8 then Break []
  else if ctrl =? 0xE7 then Next [mkS 0 0 TRIM] tt
  else if ctrl =? 0xE8 then Next [mkS 0 0 STOP] tt
  else if (0xE9 <=? ctrl) && (ctrl <? 0xF8) then Next [needle_change (ctrl - 0xE8)] tt
  else Break [].
(* DsbReader.py 4-40 *)
Definition dsb_stitches (bytes : list Z) : res (list (stitch Z)) := ended (loop3 dsb_body tt bytes).
(* DsbReader.py 43-45: the header is that of DST *)
Definition dsb_read (file : list Z) : res (list (stitch Z) * dst_loaded) :=
  do h <- dst_read_header file; do l <- dsb_stitches (skipn 512 file); Ok (l, h).

(* DszReader.py 6-37 *)
Definition dsz_body (_ : unit) (b0 b1 ctrl : Z) : pass unit :=
  let y := - b0 in
  let x := b1 in
  let x := if flag ctrl 0x40 then - x else x in
  let y := if flag ctrl 0x20 then - y else y in
  if Z.land ctrl 31 =? 0 then Next [mkS x y STITCH] tt
  else if Z.land ctrl 31 =? 1 then Next [mkS x y JUMP] tt
  else if ctrl =? 0x82 then Next [mkS 0 0 STOP] tt
  else if ctrl =? 0x9B then Next [mkS 0 0 TRIM] tt
  else if (0x83 <=? ctrl) && (ctrl <=? 0x9A) then Next [needle_change (Z.shiftr (ctrl - 0x83) 1)] tt
  else Break [].
(* DszReader.py 4-38 *)
Definition dsz_stitches (bytes : list Z) : res (list (stitch Z)) := ended (loop3 dsz_body tt bytes).
(* DszReader.py 41-43 *)
Definition dsz_read (file : list Z) : res (list (stitch Z) * dst_loaded) :=
  do h <- dst_read_header file; do l <- dsz_stitches (skipn 512 file); Ok (l, h).
(* FxyReader.py 4-6 *)
Definition fxy_read (file : list Z) : res (list (stitch Z)) := dsz_stitches (skipn 0x100 file).
(* GtReader.py 4-6 *)
Definition gt_read (file : list Z) : res (list (stitch Z)) := dsz_stitches (skipn 0x200 file).

(** ExyReader.py 4-6 and TapReader.py 4-5: DstReader.py 67-100 without the header; the settings as in [dst_read]. *)
Definition dst_stitches (count_max : Z) (trim_distance : option Q) (clipping : bool) (fuel : nat) (bytes : list Z)
  : res (list (stitch Q)) :=
  interpolate_trims (Some count_max) (match trim_distance with Some d => Some (d * 10)%Q | None => None end)
    clipping fuel (map of_int (dst_read_raw bytes)).
Definition exy_read (count_max : Z) (trim_distance : option Q) (clipping : bool) (fuel : nat) (file : list Z) :=
  dst_stitches count_max trim_distance clipping fuel (skipn 0x100 file).
Definition tap_read := dst_stitches.

(** DatReader.py 4-85: the loop, with the value returned.  EmbPattern has no method needle_out
    (called on line 77), so that call raises AttributeError. *)
Fixpoint barudan_loop (bytes : list Z) : res (list rel * bool) :=
  match bytes with
  | ctrl :: b1 :: b2 :: r =>
      let dy := - b1 in
      let dx := b2 in
      if negb (flag ctrl 0x80) then Ok ([], false) else
      let dx := if flag ctrl 0x20 then - dx else dx in
      let dy := if flag ctrl 0x40 then - dy else dy in
      let command := Z.land ctrl 31 in
      let next calls := do '(l, ok) <- barudan_loop r; Ok (calls ++ l, ok) in
      let then_ c := if negb (dx =? 0) || negb (dy =? 0) then [mkS dx dy c] else [] in
      if command =? 0x00 then next [mkS dx dy STITCH]
      else if command =? 0x01 then next [mkS dx dy JUMP]
      else if command =? 0x02 then next (mkS 0 0 FAST :: then_ STITCH)
      else if command =? 0x03 then next (mkS 0 0 FAST :: then_ JUMP)
      else if command =? 0x04 then next (mkS 0 0 SLOW :: then_ STITCH)
      else if command =? 0x05 then next (mkS 0 0 SLOW :: then_ JUMP)
      else if command =? 0x06 then next (mkS 0 0 TRIM :: then_ JUMP)
      else if command =? 0x07 then next (mkS 0 0 TRIM :: then_ JUMP)
      else if command =? 0x08 then next (mkS 0 0 STOP :: then_ JUMP)
      else if (0x09 <=? command) && (command <=? 0x17) then Err AttributeError
      else Ok ([mkS 0 0 END], true)
  | _ => Ok ([mkS 0 0 END], true)
  end.
(* DatReader.py 90-124 *)
Definition sunstar_body (_ : unit) (b0 b1 ctrl : Z) : pass unit :=
  let x := Z.land b0 0x7F in
  let y := Z.land b1 0x7F in
  let x := if flag b0 0x80 then - x else x in
  let y := if flag b1 0x80 then - y else y in
  let y := - y in
  let move := if negb (x =? 0) || negb (y =? 0) then [mkS x y JUMP] else [] in
  if ctrl =? 0x07 then Next [mkS x y STITCH] tt
  else if ctrl =? 0x04 then Next [mkS x y JUMP] tt
  else if ctrl =? 0x80 then Next (mkS 0 0 TRIM :: move) tt
  else if ctrl =? 0x87 then Next (mkS 0 0 COLOR_CHANGE :: move) tt
  else if ctrl =? 0x84 then Next [mkS x y STITCH] tt
  else Break [].
(** DatReader.py 137-140: what the Barudan reader added before it returned False stays. *)
Definition dat_read (file : list Z) : res (list (stitch Z)) :=
  do '(calls, ok) <- barudan_loop file;
  if ok then Ok (apply_rel 0 0 calls)
  else
    do more <- loop3 sunstar_body tt (skipn 0x100 file);
    Ok (apply_rel 0 0 (calls ++ more ++ [mkS 0 0 END])).

(* EmdReader.py 6-39: the state says that a move's displacement is due *)
Definition emd_body (move : bool) (b0 b1 : Z) : pass bool :=
  if move then Next [mkS (signed8 b0) (- signed8 b1) JUMP] false
  else if negb (b0 =? 0x80) then Next [mkS (signed8 b0) (- signed8 b1) STITCH] false
  else if b1 =? 0x80 then Next [] true
  else if b1 =? 0x2A then Next [mkS 0 0 COLOR_CHANGE] false
  else if b1 =? 0x7D then Next [] false
  else if b1 =? 0xAD then Next [mkS 0 0 TRIM] false
  else if b1 =? 0x90 then Next [mkS 0 0 TRIM] false
  else Break [].
(* EmdReader.py 4-45 *)
Definition emd_read (file : list Z) : res (list (stitch Z)) := ended (loop2 emd_body false (skipn 0x30 file)).

(* InbReader.py 3-26 *)
Definition inb_body (_ : unit) (b0 b1 ctrl : Z) : pass unit :=
  let x := b0 in
  let y := - b1 in
  let y := if flag ctrl 0x20 then - y else y in
  let x := if flag ctrl 0x40 then - x else x in
  if Z.land ctrl 15 =? 0x00 then Next [mkS x y STITCH] tt
  else if Z.land ctrl 15 =? 0x01 then Next [mkS x y COLOR_CHANGE] tt
  else if Z.land ctrl 15 =? 0x02 then Next [mkS x y JUMP] tt
  else Break [].
(* InbReader.py 1-32 *)
Definition inb_read (file : list Z) : res (list (stitch Z)) := ended (loop3 inb_body tt (skipn (Z.to_nat 0x2000) file)).

(** JpxReader.py 5-28; the state is the control byte whose displacement is due. *)
Definition jpx_body (ctrl : option Z) (b0 b1 : Z) : pass (option Z) :=
  let x := signed8 b0 in
  let y := - signed8 b1 in
  match ctrl with
  | None => if negb (b0 =? 0x80) then Next [mkS x y STITCH] None else Next [] (Some b1)
  | Some ctrl =>
      if ctrl =? 0x02 then Next [mkS x y JUMP] None
      else if ctrl =? 0x01 then
        Next (mkS 0 0 COLOR_CHANGE :: (if negb (x =? 0) && negb (y =? 0) then [mkS x y JUMP] else [])) None
      else Break []
  end.
(* JpxReader.py 38-42: the palette index of each thread *)
Fixpoint jpx_threads (n : nat) (f : list Z) : list Z :=
  match n with
  | O => []
  | S n => let '(c, f) := read_int_32le f in
           match c with None => [] | Some c => c :: jpx_threads n f end
  end.
(** JpxReader.py 33-45.  A count of up to 2^32 - 1 threads is cut to the bytes left: the loop breaks there. *)
Definition jpx_read (file : list Z) : res (list Z * list (stitch Z)) :=
  let '(start, f) := read_int_32le file in
  let f := skipn 0x1C f in
  let '(colors, f) := read_int_32le f in
  let f := skipn 0x18 f in
  match colors, start with
  | Some colors, Some start =>
      let threads := jpx_threads (Z.to_nat (Z.min colors (zlen f))) f in
      do l <- ended (loop2 jpx_body None (skipn (Z.to_nat (Z.min start (zlen file))) file));
      Ok (threads, l)
  | _, _ => Err TypeError
  end.

(* KsmReader.py 6-52 *)
Definition ksm_body (st : bool * bool) (b0 b1 ctrl : Z) : pass (bool * bool) :=
  let '(trimmed, stitched_yet) := st in
  let y := - b0 in
  let x := b1 in
  let x := if flag ctrl 0x40 then - x else x in
  let y := if flag ctrl 0x20 then - y else y in
  let ctrl := Z.land ctrl 31 in
  let go := negb (x =? 0) || negb (y =? 0) in
  let calls := if go then [mkS x y (if trimmed then JUMP else STITCH)] else [] in
  let stitched_yet := if go && negb trimmed then true else stitched_yet in
  if ctrl =? 0x00 then Next calls (trimmed, stitched_yet)
  else if (ctrl =? 0x07) || (ctrl =? 0x13) || (ctrl =? 0x1D) then
    Next (calls ++ (if stitched_yet then [mkS 0 0 TRIM] else [])) (true, stitched_yet)
  else if (0x17 <=? ctrl) && (ctrl <=? 0x19) then Next calls (false, stitched_yet)
  else if (0x0B <=? ctrl) && (ctrl <=? 0x12) then
    Next (calls ++ [needle_change (ctrl - 0x0A)]) (true, stitched_yet)
  else if ctrl =? 0x05 then Next (calls ++ [mkS 0 0 STOP]) (trimmed, stitched_yet)
  else if ctrl =? 0x1B then Next calls (false, stitched_yet)
  else Break calls.
(* KsmReader.py 1-59 *)
Definition ksm_read (file : list Z) : res (list (stitch Z)) := ended (loop3 ksm_body (false, false) (skipn 0x200 file)).

(** MitReader.py 8-38: the coordinates are floats 2.0 * n, exact, so integers are used. *)
Definition mit_body (previous_ctrl : Z) (b0 b1 : Z) : pass Z :=
  let x := Z.land b0 0x1F * 2 in
  let y := - Z.land b1 0x1F * 2 in
  let x := if flag b0 128 then - x else x in
  let y := if flag b1 128 then - y else y in
  let ctrl := Z.lor (Z.shiftr (Z.land b0 0x60) 3) (Z.shiftr (Z.land b1 0x60) 5) in
  if ctrl =? 7 then Next [mkS x y STITCH] ctrl
  else if ctrl =? 12 then Next [mkS x y JUMP] ctrl
  else if ctrl =? 4 then Next [mkS x y STITCH] ctrl
  else if ctrl =? 5 then Next [mkS x y STITCH] ctrl
  else if ctrl =? 8 then Next (if previous_ctrl =? 7 then [mkS 0 0 COLOR_CHANGE] else []) ctrl
  else if ctrl =? 0 then Next [mkS 0 0 END] ctrl
  else Next [mkS x y STITCH] ctrl.
(* MitReader.py 4-39 *)
Definition mit_read (file : list Z) : res (list (stitch Z)) := ended (loop2 mit_body (-1) file).

(* NewReader.py 3-28: & ~0b11100000 of a byte is & 0b00011111 *)
Definition new_body (_ : unit) (b0 b1 ctrl : Z) : pass unit :=
  let x := b0 in
  let y := - b1 in
  let x := if flag ctrl 64 then - x else x in
  let y := if flag ctrl 32 then - y else y in
  let ctrl := Z.land ctrl (Z.lnot 224) in
  if ctrl =? 0 then Next [mkS x y STITCH] tt
  else if ctrl =? 17 then Break []
  else if flag ctrl 2 then Next [mkS 0 0 COLOR_CHANGE] tt
  else if flag ctrl 1 then Next [mkS x y JUMP] tt
  else Next [] tt.
(* NewReader.py 1-34 *)
Definition new_read (file : list Z) : res (list (stitch Z)) := ended (loop3 new_body tt (skipn 2 file)).

(** SewReader.py 5-24; the state is the control byte whose displacement is due. *)
Definition sew_body (control : option Z) (b0 b1 : Z) : pass (option Z) :=
  let x := signed8 b0 in
  let y := - signed8 b1 in
  match control with
  | None => if negb (b0 =? 0x80) then Next [mkS x y STITCH] None else Next [] (Some b1)
  | Some control =>
      if flag control 1 then Next [mkS 0 0 COLOR_CHANGE] None
      else if (control =? 0x04) || (control =? 0x02) then Next [mkS x y JUMP] None
      else if control =? 0x10 then Next [mkS x y STITCH] None
      else Break []
  end.
(** SewReader.py 31-36: the entries of the palette of 80 threads (EmbThreadSew.py); None % 80 raises TypeError. *)
Fixpoint sew_threads (n : nat) (f : list Z) : res (list Z) :=
  match n with
  | O => Ok []
  | S n => let '(index, f) := read_int_16le f in
           match index with
           | None => Err TypeError
           | Some index => do l <- sew_threads n f; Ok (index mod 80 :: l)
           end
  end.
(* SewReader.py 29-39 *)
Definition sew_read (file : list Z) : res (list Z * list (stitch Z)) :=
  let '(colors, f) := read_int_16le file in
  match colors with
  | None => Err TypeError
  | Some colors =>
      do threads <- sew_threads (Z.to_nat colors) f;
      do l <- ended (loop2 sew_body None (skipn (Z.to_nat 0x1D78) file));
      Ok (threads, l)
  end.

(* StcReader.py 5-27 *)
Definition stc_body (_ : unit) (b0 b1 ctrl : Z) : pass unit :=
  let x := signed8 b0 in
  let y := - signed8 b1 in
  if ctrl =? 0x01 then Next [mkS x y STITCH] tt
  else if ctrl =? 0x00 then Next [mkS x y JUMP] tt
  else if ctrl =? 25 then Break []
  else Next [needle_change (ctrl - 2)] tt.
(* StcReader.py 4-31 *)
Definition stc_read (file : list Z) : res (list (stitch Z)) := ended (loop3 stc_body tt (skipn 0x28 file)).

(** StxReader.py 5-12: f.seek(None) raises TypeError. *)
Definition stx_read (file : list Z) : res (list (stitch Z)) :=
  let f := skipn 0x0C file in
  let '(_, f) := read_int_32le f in
  let '(_, f) := read_int_32le f in
  let '(start, f) := read_int_32le f in
  match start with
  | None => Err TypeError
  | Some start => Ok (exp_read (skipn (Z.to_nat (Z.min start (zlen file))) file))
  end.

(* ZxyReader.py 5-31: & ~0x0C *)
Definition zxy_body (_ : unit) (ctrl0 b1 b2 : Z) : pass unit :=
  let x := b1 in
  let y := - b2 in
  let x := if flag ctrl0 0x08 then - x else x in
  let y := if flag ctrl0 0x04 then - y else y in
  let ctrl := Z.land ctrl0 (Z.lnot 0x0C) in
  if ctrl =? 0 then Next [mkS x y STITCH] tt
  else if flag ctrl 0x02 then Next [mkS x y JUMP] tt
  else if flag ctrl 0x20 then
    if b1 =? 0xFF then Break [] else Next [needle_change b2] tt
  else Next [] tt.
(* ZxyReader.py 4-37 *)
Definition zxy_read (file : list Z) : res (list (stitch Z)) :=
  let '(distance, f) := read_int_16be (skipn 1 file) in
  match distance with
  | None => Err TypeError
  | Some distance => ended (loop3 zxy_body tt (skipn (Z.to_nat distance) f))
  end.

(** BroReader.py 6-41.  A missing control byte fails at "0xE0 < control", a missing
    displacement in signed16: TypeError.  [fuel] bounds the passes; each takes at least two bytes. *)
Fixpoint bro_loop (fuel : nat) (bytes : list Z) : res (list rel) :=
  match fuel with
  | O => Err OutOfFuel
  | S fuel =>
      match bytes with
      | b0 :: b1 :: r =>
          if negb (b0 =? 0x80) then calls_then [mkS (signed8 b0) (- signed8 b1) STITCH] (bro_loop fuel r)
          else
            let '(control, r) := read_int_8 r in
            match control with
            | None => Err TypeError
            | Some control =>
                let far calls :=
                  let '(x, r) := read_int_16le r in
                  match x with
                  | None => Err TypeError
                  | Some x =>
                      let '(y, r) := read_int_16le r in
                      match y with
                      | None => Err TypeError
                      | Some y => calls_then (calls ++ [mkS (signed16 x) (- signed16 y) JUMP]) (bro_loop fuel r)
                      end
                  end in
                if control =? 0x00 then bro_loop fuel r
                else if control =? 0x02 then Ok []
                else if control =? 0xE0 then Ok []
                else if control =? 0x7E then far []
                else if control =? 0x03 then far []
                else if (0xE0 <? control) && (control <? 0xF0) then far [needle_change (control - 0xE0)]
                else Ok []
            end
      | _ => Ok []
      end
  end.
(* BroReader.py 44-46 *)
Definition bro_read (file : list Z) : res (list (stitch Z)) :=
  let bytes := skipn 0x100 file in ended (bro_loop (S (List.length bytes)) bytes).

(** SpxReader.py 4-17: no out.end(). *)
Fixpoint spx_loop (fuel : nat) (bytes : list Z) : res (list rel) :=
  match fuel with
  | O => Err OutOfFuel
  | S fuel =>
      match bytes with
      | _ :: _ :: r =>
          let '(dy, r) := read_int_16be r in
          match dy with
          | None => Err TypeError
          | Some dy =>
              let '(dx, r) := read_int_16be r in
              match dx with
              | None => Err TypeError
              | Some dx =>
                  let '(c, r) := read_int_8 r in
                  match c with
                  | None => Err TypeError
                  | Some c =>
                      match r with
                      | _ :: _ :: r => calls_then [mkS (signed16 dx) (- signed16 dy - signed8 c) STITCH] (spx_loop fuel r)
                      | _ => Ok []
                      end
                  end
              end
          end
      | _ => Ok []
      end
  end.
Definition spx_read (file : list Z) : res (list (stitch Z)) :=
  let bytes := skipn 0x11E file in
  do l <- spx_loop (S (List.length bytes)) bytes; Ok (apply_rel 0 0 l).

(** ZhsReader.py 16-45: one coordinate, its bits taken alternately from the two bytes. *)
Definition zhs_value (p q : Z) : Z :=
  let v := Z.land p 1 + Z.land q 2 + Z.land p 4 + Z.land q 8 + Z.land p 16 + Z.land q 32 + Z.land p 64 + Z.land q 128 in
  let v := signed8 v in
  let v := if v >=? 63 then v + 1 else v in
  if v <=? -63 then v - 1 else v.
(* ZhsReader.py 9-72: the state is (xx, yy) *)
Definition zhs_body (st : Z * Z) (ctrl b1 b2 : Z) : pass (Z * Z) :=
  if ctrl =? 0x10 then Next [] st
  else
    let xx := fst st + zhs_value b1 b2 in
    let yy := snd st + zhs_value b2 b1 in
    if ctrl =? 0x41 then Next [] (xx, yy)
    else if ctrl =? 0x02 then Next [mkS xx (- yy) STITCH] (0, 0)
    else if ctrl =? 0x01 then Next [mkS xx (- yy) JUMP] (0, 0)
    else if ctrl =? 0x04 then Next [mkS 0 0 COLOR_CHANGE] (0, 0)
    else if ctrl =? 0x80 then Break []
    else Next [] (xx, yy).
(* ZhsReader.py 4-72 *)
Definition zhs_stitches (bytes : list Z) : res (list (stitch Z)) := ended (loop3 zhs_body (0, 0) bytes).
