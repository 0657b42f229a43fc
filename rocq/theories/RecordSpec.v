(** What files of the read-only record formats contain: for each format, which bytes store which commands.
    These tables are the formats as documented by their readers' constants, written as encodings;
    nothing here refers to how the readers decode. *)
From Coq Require Import ZArith List Bool.
From Verif Require Import PyBase EmbConst StreamModel StreamSpec FunctionsModel.
Import ListNotations.
Open Scope Z_scope.

(** A format is: which record (bytes) stores which commands (with their displacements; often one, sometimes none or
    two) in which state, leading to which state; and which bytes end the design. *)
Section Files.
  Context {S : Type} (record : S -> list rel -> list Z -> S -> Prop) (stops : list Z -> Prop).
  (** [stores s px py l bytes]: from state [s] with the needle at (px, py), the bytes store the commands [l]. *)
  Inductive stores : S -> Z -> Z -> list (stitch Z) -> list Z -> Prop :=
  | stores_end : forall s px py tail, stops tail -> stores s px py [] tail
  | stores_record : forall s s' px py steps b l bytes,
      record s steps b s' ->
      let here := apply_rel px py steps in
      stores s' (fst (needle_after px py here)) (snd (needle_after px py here)) l bytes ->
      stores s px py (here ++ l) (b ++ bytes).
End Files.

Definition short {A} (n : nat) (l : list A) : Prop := (List.length l < n)%nat.
(** A magnitude that fits a byte. *)
Definition mag8 (v : Z) : Prop := -255 <= v <= 255.
(** A value that fits a two's complement byte whose -128 is reserved. *)
Definition signed_byte (v : Z) : Prop := -127 <= v <= 127.
Definition two8 (v : Z) : Z := v mod 256.
Definition two16 (v : Z) : Z := v mod 65536.
Definition neg (v w : Z) : Z := if v <? 0 then w else 0.   (* the weight w of a sign bit set for v < 0 *)
Definition pos (v w : Z) : Z := if 0 <? v then w else 0.   (* the weight w of a sign bit set for v > 0 *)
Definition needle (n : Z) : rel := mkS 0 0 (encode_thread_change NEEDLE_SET None (Some n) None).
Definition command (c : Z) : list rel := [mkS 0 0 c].
Definition moved (dx dy : Z) : Prop := dx <> 0 \/ dy <> 0.
Definition top (b : Z) : Prop := b = 0 \/ b = 0x80.        (* the unused top bit *)

(** 100: four bytes; sign and magnitude with the sign in the top bit. *)
Definition sm7 (v : Z) : Z := neg v 0x80 + Z.abs v.
Inductive rec_100 : unit -> list rel -> list Z -> unit -> Prop :=
| r100_stitch : forall u dx dy, signed_byte dx -> signed_byte dy ->
    rec_100 tt [mkS dx dy STITCH] [0x61; u; sm7 dx; sm7 (- dy)] tt
| r100_jump : forall b u dx dy, Z.odd b = true -> b <> 0x61 -> signed_byte dx -> signed_byte dy ->
    rec_100 tt [mkS dx dy JUMP] [b; u; sm7 dx; sm7 (- dy)] tt
| r100_color : forall b u v w, Z.even b = true -> rec_100 tt (command COLOR_CHANGE) [b; u; v; w] tt.
Definition stops_100 : list Z -> Prop := short 4.

(** 10O: control, |dy|, |dx|. *)
Inductive rec_10o : unit -> list rel -> list Z -> unit -> Prop :=
| r10o_stitch : forall h dx dy, top h -> mag8 dx -> mag8 dy ->
    rec_10o tt [mkS dx dy STITCH] [h + neg dx 0x20 + pos dy 0x40; Z.abs dy; Z.abs dx] tt
| r10o_jump : forall h dx dy, top h -> mag8 dx -> mag8 dy ->
    rec_10o tt [mkS dx dy JUMP] [h + neg dx 0x20 + pos dy 0x40 + 0x10; Z.abs dy; Z.abs dx] tt
| r10o_start : forall u v, rec_10o tt [] [0x8A; u; v] tt
| r10o_color : forall u v, rec_10o tt (command COLOR_CHANGE) [0x85; u; v] tt
| r10o_stop : forall u v, rec_10o tt (command STOP) [0x82; u; v] tt
| r10o_trim : forall u v, rec_10o tt (command TRIM) [0x81; u; v] tt.
Definition stops_10o (l : list Z) : Prop := short 3 l \/ exists r, l = 0x87 :: r.

(** DSB: control, |dy|, |dx|. *)
Inductive rec_dsb : unit -> list rel -> list Z -> unit -> Prop :=
| rdsb_stitch : forall h dx dy, top h -> mag8 dx -> mag8 dy ->
    rec_dsb tt [mkS dx dy STITCH] [h + neg dx 0x20 + pos dy 0x40; Z.abs dy; Z.abs dx] tt
| rdsb_jump : forall h dx dy, top h -> mag8 dx -> mag8 dy ->
    rec_dsb tt [mkS dx dy JUMP] [h + neg dx 0x20 + pos dy 0x40 + 1; Z.abs dy; Z.abs dx] tt
| rdsb_trim : forall u v, rec_dsb tt (command TRIM) [0xE7; u; v] tt
| rdsb_stop : forall u v, rec_dsb tt (command STOP) [0xE8; u; v] tt
| rdsb_needle : forall n u v, 1 <= n <= 15 -> rec_dsb tt [needle n] [0xE8 + n; u; v] tt.
Definition stops_dsb (l : list Z) : Prop := short 3 l \/ exists r, l = 0xF8 :: r.

(** DSZ, FXY, GT: |dy|, |dx|, control. *)
Inductive rec_dsz : unit -> list rel -> list Z -> unit -> Prop :=
| rdsz_stitch : forall h dx dy, top h -> mag8 dx -> mag8 dy ->
    rec_dsz tt [mkS dx dy STITCH] [Z.abs dy; Z.abs dx; h + neg dx 0x40 + pos dy 0x20] tt
| rdsz_jump : forall h dx dy, top h -> mag8 dx -> mag8 dy ->
    rec_dsz tt [mkS dx dy JUMP] [Z.abs dy; Z.abs dx; h + neg dx 0x40 + pos dy 0x20 + 1] tt
| rdsz_stop : forall u v, rec_dsz tt (command STOP) [u; v; 0x82] tt
| rdsz_trim : forall u v, rec_dsz tt (command TRIM) [u; v; 0x9B] tt
| rdsz_needle : forall n e u v, 0 <= n <= 11 -> e = 0 \/ e = 1 -> rec_dsz tt [needle n] [u; v; 0x83 + 2 * n + e] tt.
Definition stops_dsz (l : list Z) : Prop := short 3 l \/ exists u v r, l = u :: v :: 0x9C :: r.

(** Barudan DAT, without needle changes: control with the top bit set, |dy|, |dx|.  Speeds, trims and stops may
    carry a displacement, which follows as a stitch or a jump. *)
Definition also (dx dy c : Z) : list rel := if (dx =? 0) && (dy =? 0) then [] else [mkS dx dy c].
Inductive rec_barudan : unit -> list rel -> list Z -> unit -> Prop :=
| rbar : forall k steps dx dy, mag8 dx -> mag8 dy ->
    In (k, steps) [(0, [mkS dx dy STITCH]); (1, [mkS dx dy JUMP]);
      (2, mkS 0 0 FAST :: also dx dy STITCH); (3, mkS 0 0 FAST :: also dx dy JUMP);
      (4, mkS 0 0 SLOW :: also dx dy STITCH); (5, mkS 0 0 SLOW :: also dx dy JUMP);
      (6, mkS 0 0 TRIM :: also dx dy JUMP); (7, mkS 0 0 TRIM :: also dx dy JUMP);
      (8, mkS 0 0 STOP :: also dx dy JUMP)] ->
    rec_barudan tt steps [0x80 + neg dx 0x20 + pos dy 0x40 + k; Z.abs dy; Z.abs dx] tt.
Definition stops_barudan (l : list Z) : Prop := short 3 l \/ exists r, l = 0xF8 :: r.

(** Sunstar DAT: sign and magnitude bytes dx, -dy, then the control. *)
Inductive rec_sunstar : unit -> list rel -> list Z -> unit -> Prop :=
| rsun : forall k steps dx dy, signed_byte dx -> signed_byte dy ->
    In (k, steps) [(0x07, [mkS dx dy STITCH]); (0x84, [mkS dx dy STITCH]); (0x04, [mkS dx dy JUMP]);
      (0x80, mkS 0 0 TRIM :: also dx dy JUMP); (0x87, mkS 0 0 COLOR_CHANGE :: also dx dy JUMP)] ->
    rec_sunstar tt steps [sm7 dx; sm7 (- dy); k] tt.
Definition stops_sunstar (l : list Z) : Prop := short 3 l \/ exists u v r, l = u :: v :: 0 :: r.

(** EMD: two's complement dx, -dy; 0x80 escapes. *)
Inductive rec_emd : unit -> list rel -> list Z -> unit -> Prop :=
| remd_stitch : forall dx dy, signed_byte dx -> signed_byte dy -> rec_emd tt [mkS dx dy STITCH] [two8 dx; two8 (- dy)] tt
| remd_jump : forall dx dy, signed_byte dx -> signed_byte dy ->
    rec_emd tt [mkS dx dy JUMP] [0x80; 0x80; two8 dx; two8 (- dy)] tt
| remd_color : rec_emd tt (command COLOR_CHANGE) [0x80; 0x2A] tt
| remd_trim : rec_emd tt (command TRIM) [0x80; 0xAD] tt
| remd_last_trim : rec_emd tt (command TRIM) [0x80; 0x90] tt
| remd_start : rec_emd tt [] [0x80; 0x7D] tt.
Definition stops_emd (l : list Z) : Prop := short 2 l \/ exists r, l = 0x80 :: 0xFD :: r.

(** INB: |dx|, |dy|, control. *)
Inductive rec_inb : unit -> list rel -> list Z -> unit -> Prop :=
| rinb : forall k c h dx dy, top h -> mag8 dx -> mag8 dy ->
    In (k, c) [(0, STITCH); (1, COLOR_CHANGE); (2, JUMP)] ->
    rec_inb tt [mkS dx dy c] [Z.abs dx; Z.abs dy; h + neg dx 0x40 + pos dy 0x20 + k] tt.
Definition stops_inb (l : list Z) : Prop := short 3 l \/ exists u v r, l = u :: v :: 4 :: r.

(** JPX: two's complement dx, -dy; 0x80 escapes and a displacement follows. *)
Inductive rec_jpx : unit -> list rel -> list Z -> unit -> Prop :=
| rjpx_stitch : forall dx dy, signed_byte dx -> signed_byte dy -> rec_jpx tt [mkS dx dy STITCH] [two8 dx; two8 (- dy)] tt
| rjpx_jump : forall dx dy, signed_byte dx -> signed_byte dy ->
    rec_jpx tt [mkS dx dy JUMP] [0x80; 2; two8 dx; two8 (- dy)] tt
| rjpx_color : rec_jpx tt (command COLOR_CHANGE) [0x80; 1; 0; 0] tt
| rjpx_color_jump : forall dx dy, signed_byte dx -> signed_byte dy -> dx <> 0 -> dy <> 0 ->
    rec_jpx tt [mkS 0 0 COLOR_CHANGE; mkS dx dy JUMP] [0x80; 1; two8 dx; two8 (- dy)] tt.
Definition stops_jpx (l : list Z) : Prop := short 2 l \/ exists r, l = 0x80 :: 0x10 :: r.

(** KSM: |dy|, |dx|, control; the state is (trimmed, something is sewn).  A displacement sews unless trimmed. *)
Definition ksm_move (trimmed : bool) (dx dy : Z) : list rel := also dx dy (if trimmed then JUMP else STITCH).
Definition ksm_sewn (trimmed sewn : bool) (dx dy : Z) : bool :=
  sewn || negb trimmed && negb ((dx =? 0) && (dy =? 0)).
Inductive ksm_code : bool -> bool -> Z -> list rel -> bool -> Prop :=     (* trimmed, sewn, code, commands, trimmed after *)
| ksm_plain : forall t s, ksm_code t s 0 [] t
| ksm_trim : forall t k, In k [0x07; 0x13; 0x1D] -> ksm_code t true k (command TRIM) true
| ksm_no_trim : forall t k, In k [0x07; 0x13; 0x1D] -> ksm_code t false k [] true
| ksm_sew : forall t s k, In k [0x17; 0x18; 0x19; 0x1B] -> ksm_code t s k [] false
| ksm_needle : forall t s n, 1 <= n <= 8 -> ksm_code t s (0x0A + n) [needle n] true
| ksm_stop : forall t s, ksm_code t s 5 (command STOP) t.
Inductive rec_ksm : bool * bool -> list rel -> list Z -> bool * bool -> Prop :=
| rksm : forall t s dx dy h k steps t', top h -> mag8 dx -> mag8 dy ->
    ksm_code t (ksm_sewn t s dx dy) k steps t' ->
    rec_ksm (t, s) (ksm_move t dx dy ++ steps) [Z.abs dy; Z.abs dx; h + neg dx 0x40 + pos dy 0x20 + k] (t', ksm_sewn t s dx dy).
Definition stops_ksm (l : list Z) : Prop := short 3 l \/ exists r, l = 0 :: 0 :: 0x88 :: r.

(** MIT: five bits of magnitude in units of 0.2 mm, sign in the top bit; two bits of control in either byte.
    The state is the last control. *)
Definition five (v : Z) : Prop := -31 <= v <= 31.
Inductive mit_code : Z -> Z -> Z -> Z -> list rel -> Prop :=               (* last control, control, dx, dy, commands *)
| mit_stitch : forall p k dx dy, 0 <= k < 16 -> ~ In k [0; 8; 12] -> mit_code p k dx dy [mkS dx dy STITCH]
| mit_jump : forall p dx dy, mit_code p 12 dx dy [mkS dx dy JUMP]
| mit_color : forall dx dy, mit_code 7 8 dx dy (command COLOR_CHANGE)
| mit_no_color : forall p dx dy, p <> 7 -> mit_code p 8 dx dy []
| mit_end : forall p dx dy, mit_code p 0 dx dy (command END).
Inductive rec_mit : Z -> list rel -> list Z -> Z -> Prop :=
| rmit : forall p k m n steps, five m -> five n -> mit_code p k (2 * m) (2 * n) steps ->
    rec_mit p steps [neg m 0x80 + (k / 4) * 32 + Z.abs m; pos n 0x80 + (k mod 4) * 32 + Z.abs n] k.
Definition stops_mit : list Z -> Prop := short 2.

(** NEW: |dx|, |dy|, control. *)
Inductive rec_new : unit -> list rel -> list Z -> unit -> Prop :=
| rnew_stitch : forall h dx dy, top h -> mag8 dx -> mag8 dy ->
    rec_new tt [mkS dx dy STITCH] [Z.abs dx; Z.abs dy; h + neg dx 64 + pos dy 32] tt
| rnew_jump : forall h dx dy, top h -> mag8 dx -> mag8 dy ->
    rec_new tt [mkS dx dy JUMP] [Z.abs dx; Z.abs dy; h + neg dx 64 + pos dy 32 + 1] tt
| rnew_color : forall h u v, top h -> rec_new tt (command COLOR_CHANGE) [u; v; h + 2] tt.
Definition stops_new (l : list Z) : Prop := short 3 l \/ exists u v h r, top h /\ l = u :: v :: (h + 17) :: r.

(** SEW: two's complement dx, -dy; 0x80 escapes and a displacement follows. *)
Inductive rec_sew : unit -> list rel -> list Z -> unit -> Prop :=
| rsew_stitch : forall dx dy, signed_byte dx -> signed_byte dy -> rec_sew tt [mkS dx dy STITCH] [two8 dx; two8 (- dy)] tt
| rsew_far : forall dx dy, signed_byte dx -> signed_byte dy ->
    rec_sew tt [mkS dx dy STITCH] [0x80; 0x10; two8 dx; two8 (- dy)] tt
| rsew_jump : forall k dx dy, signed_byte dx -> signed_byte dy -> k = 2 \/ k = 4 ->
    rec_sew tt [mkS dx dy JUMP] [0x80; k; two8 dx; two8 (- dy)] tt
| rsew_color : forall k u v, Z.odd k = true -> rec_sew tt (command COLOR_CHANGE) [0x80; k; u; v] tt.
Definition stops_sew (l : list Z) : Prop := short 2 l \/ exists u v r, l = 0x80 :: 0 :: u :: v :: r.

(** STC: two's complement dx, -dy, then the control. *)
Inductive rec_stc : unit -> list rel -> list Z -> unit -> Prop :=
| rstc_stitch : forall dx dy, signed_byte dx -> signed_byte dy -> rec_stc tt [mkS dx dy STITCH] [two8 dx; two8 (- dy); 1] tt
| rstc_jump : forall dx dy, signed_byte dx -> signed_byte dy -> rec_stc tt [mkS dx dy JUMP] [two8 dx; two8 (- dy); 0] tt
| rstc_needle : forall n u v, 0 <= n <= 253 -> n <> 23 -> rec_stc tt [needle n] [u; v; n + 2] tt.
Definition stops_stc (l : list Z) : Prop := short 3 l \/ exists u v r, l = u :: v :: 25 :: r.

(** ZXY: control, |dx|, |dy|. *)
Inductive rec_zxy : unit -> list rel -> list Z -> unit -> Prop :=
| rzxy_stitch : forall dx dy, mag8 dx -> mag8 dy ->
    rec_zxy tt [mkS dx dy STITCH] [neg dx 8 + pos dy 4; Z.abs dx; Z.abs dy] tt
| rzxy_jump : forall dx dy, mag8 dx -> mag8 dy ->
    rec_zxy tt [mkS dx dy JUMP] [neg dx 8 + pos dy 4 + 2; Z.abs dx; Z.abs dy] tt
| rzxy_needle : forall n u, u <> 0xFF -> rec_zxy tt [needle n] [0x20; u; n] tt.
Definition stops_zxy (l : list Z) : Prop := short 3 l \/ exists u r, l = 0x20 :: 0xFF :: u :: r.

(** BRO: two's complement dx, -dy; 0x80 escapes, a control and sixteen-bit displacements follow. *)
Definition word (v : Z) : Prop := -32767 <= v <= 32767.
Definition le16 (v : Z) : list Z := [two16 v mod 256; two16 v / 256].
Definition le32 (v : Z) : list Z := [v mod 256; v / 256 mod 256; v / 65536 mod 256; v / 16777216 mod 256].
Definition be16 (v : Z) : list Z := [two16 v / 256; two16 v mod 256].
Inductive rec_bro : unit -> list rel -> list Z -> unit -> Prop :=
| rbro_stitch : forall dx dy, signed_byte dx -> signed_byte dy -> rec_bro tt [mkS dx dy STITCH] [two8 dx; two8 (- dy)] tt
| rbro_jump : forall k u dx dy, word dx -> word dy -> k = 0x7E \/ k = 3 ->
    rec_bro tt [mkS dx dy JUMP] ([0x80; u; k] ++ le16 dx ++ le16 (- dy)) tt
| rbro_needle : forall n u dx dy, word dx -> word dy -> 1 <= n <= 15 ->
    rec_bro tt [needle n; mkS dx dy JUMP] ([0x80; u; 0xE0 + n] ++ le16 dx ++ le16 (- dy)) tt
| rbro_none : forall u, rec_bro tt [] [0x80; u; 0] tt.
Definition stops_bro (l : list Z) : Prop := short 2 l \/ exists u r, l = 0x80 :: u :: 0xE0 :: r.

(** SPX: nine bytes; the vertical displacement is the sum of a word and a byte. *)
Inductive rec_spx : unit -> list rel -> list Z -> unit -> Prop :=
| rspx : forall u v w z dx a c, word dx -> word a -> signed_byte c ->
    rec_spx tt [mkS dx (- a - c) STITCH] ([u; v] ++ be16 a ++ be16 dx ++ [two8 c; w; z]) tt.
Definition stops_spx : list Z -> Prop := short 2.

(** ZHS: the bits of the two's complement bytes of dx and -dy are interleaved; 63 and -63 are skipped. *)
Definition zhs_raw (v : Z) : Z := if 64 <=? v then v - 1 else if v <=? -64 then v + 1 else v.
Definition zhs_fits (v : Z) : Prop := -129 <= v <= 128 /\ v <> 63 /\ v <> -63.
Definition zhs_first (x y : Z) : Z := Z.land (two8 (zhs_raw x)) 0x55 + Z.land (two8 (zhs_raw y)) 0xAA.
Definition zhs_second (x y : Z) : Z := Z.land (two8 (zhs_raw x)) 0xAA + Z.land (two8 (zhs_raw y)) 0x55.
(** The state is the displacement collected so far, y upwards. *)
Inductive rec_zhs : Z * Z -> list rel -> list Z -> Z * Z -> Prop :=
| rzhs_stitch : forall xx yy x y, zhs_fits x -> zhs_fits y ->
    rec_zhs (xx, yy) [mkS (xx + x) (- (yy + y)) STITCH] [2; zhs_first x y; zhs_second x y] (0, 0)
| rzhs_jump : forall xx yy x y, zhs_fits x -> zhs_fits y ->
    rec_zhs (xx, yy) [mkS (xx + x) (- (yy + y)) JUMP] [1; zhs_first x y; zhs_second x y] (0, 0)
| rzhs_part : forall xx yy x y, zhs_fits x -> zhs_fits y ->
    rec_zhs (xx, yy) [] [0x41; zhs_first x y; zhs_second x y] (xx + x, yy + y)
| rzhs_color : forall xx yy u v, rec_zhs (xx, yy) (command COLOR_CHANGE) [4; u; v] (0, 0)
| rzhs_checksum : forall s u v, rec_zhs s [] [0x10; u; v] s.
Definition stops_zhs (l : list Z) : Prop := short 3 l \/ exists u v r, l = 0x80 :: u :: v :: r.

(** Any file is read, and a file cut short gives the first commands of the whole one, closed by END. *)
Definition reads_cut (read : list Z -> res (list (stitch Z))) : Prop :=
  forall file, exists l, read file = Ok (closed l) /\
    forall n, exists l', read (firstn n file) = Ok (closed l') /\ prefix_of l' l.
(** END is the last command and no other. *)
Definition one_end (l : list (stitch Z)) : Prop :=
  exists l', l = closed l' /\ Forall (fun s => cmd_of (scmd s) <> END) l'.
