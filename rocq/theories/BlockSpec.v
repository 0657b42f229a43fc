(** What files of PCD, PCM, PCQ, PCS, MAX, SHV and HUS contain. *)
From Coq Require Import ZArith List Bool.
From Verif Require Import PyBase EmbConst StreamModel StreamSpec FunctionsModel PatternModel RecordSpec.
Import ListNotations.
Open Scope Z_scope.

(** ** PCD, PCM, PCQ, PCS: nine bytes per command, absolute grid positions *)
Definition grid24 (v : Z) : Prop := -8388607 <= v <= 8388607.
Definition two24 (v : Z) : Z := v mod 16777216.
Definition le24 (v : Z) : list Z := [two24 v mod 256; two24 v / 256 mod 256; two24 v / 65536].
Definition be24 (v : Z) : list Z := [two24 v / 65536; two24 v / 256 mod 256; two24 v mod 256].
(** The eight bytes of a position (y downwards); [u] and [v] are not used. *)
Definition pcd_at (x y u v : Z) : list Z := [u] ++ le24 x ++ [v] ++ le24 (- y).
Definition pcm_at (x y u v : Z) : list Z := be24 x ++ [u] ++ be24 (- y) ++ [v].
Inductive pc_stores (at_ : Z -> Z -> Z -> Z -> list Z) : Z -> Z -> list (stitch Z) -> list Z -> Prop :=
| pc_sew : forall px py x y u v l bytes, grid24 x -> grid24 y -> pc_stores at_ x y l bytes ->
    pc_stores at_ px py (mkS x y STITCH :: l) (at_ x y u v ++ 0 :: bytes)
| pc_move : forall px py x y u v k l bytes, grid24 x -> grid24 y -> Z.even k = true -> Z.testbit k 2 = true ->
    pc_stores at_ x y l bytes ->
    pc_stores at_ px py (mkS x y JUMP :: l) (at_ x y u v ++ k :: bytes)
| pc_color : forall px py eight k l bytes, List.length eight = 8%nat -> Z.odd k = true -> pc_stores at_ px py l bytes ->
    pc_stores at_ px py (mkS px py COLOR_CHANGE :: l) (eight ++ k :: bytes)
| pc_short : forall px py bytes, short 9 bytes -> pc_stores at_ px py [] bytes
| pc_stop : forall px py eight k bytes, List.length eight = 8%nat -> k <> 0 -> Z.even k = true -> Z.testbit k 2 = false ->
    pc_stores at_ px py [] (eight ++ k :: bytes).
(** Grid positions in units of the pattern. *)
Definition on_grid {C} (scale : Z -> C) (s : stitch Z) : stitch C := mkS (scale (sx s)) (scale (sy s)) (scmd s).

(** ** MAX: eight bytes per stitch *)
Definition max_record (s : Z * Z * (Z * Z)) : list Z :=
  let '(x, y, (u, v)) := s in le24 x ++ [u] ++ le24 y ++ [v].
Definition max_stitch (s : Z * Z * (Z * Z)) : stitch Z := mkS (fst (fst s)) (snd (fst s)) STITCH.

(** ** SHV *)
(** One record: whether in a jump before, commands, bytes, how many records it counts as, in a jump after. *)
Inductive shv_record : bool -> list rel -> list Z -> Z -> bool -> Prop :=
| shv_step : forall j dx dy, signed_byte dx -> -128 <= dy <= 127 ->
    shv_record j [mkS dx dy (if j then JUMP else STITCH)] [two8 dx; two8 dy] 1 j
| shv_wide : forall j dy, -128 <= dy <= 127 -> ~ In dy [1; 2; 3] ->
    shv_record j [mkS (-128) dy (if j then JUMP else STITCH)] [0x80; two8 dy] 2 j
| shv_far : forall j dx dy, -32768 <= dx <= 32767 -> -32768 <= dy <= 32767 ->
    shv_record j [mkS dx dy JUMP] ([0x80; 1] ++ be16 dx ++ be16 dy) 3 true
| shv_landed : forall j, shv_record j [] [0x80; 2] 1 false
| shv_nothing : forall j, shv_record j [] [0x80; 3] 1 j.
(** The records of one colour. *)
Inductive shv_section : bool -> list rel -> list Z -> Z -> bool -> Prop :=
| shv_last : forall j steps bytes w j', shv_record j steps bytes w j' -> shv_section j steps bytes w j'
| shv_more : forall j steps bytes w j' steps' bytes' w' j'', shv_record j steps bytes w j' -> shv_section j' steps' bytes' w' j'' ->
    shv_section j (steps ++ steps') (bytes ++ bytes') (w + w') j''.
(** All colours; a colour change between them. *)
Inductive shv_design : bool -> list rel -> list Z -> list Z -> Prop :=
| shv_one : forall j steps bytes w j' tail, shv_section j steps bytes w j' -> short 2 tail ->
    shv_design j steps (bytes ++ tail) [w]
| shv_next : forall j steps bytes w j' steps' bytes' counts, shv_section j steps bytes w j' -> shv_design j' steps' bytes' counts ->
    shv_design j (steps ++ mkS 0 0 COLOR_CHANGE :: steps') (bytes ++ bytes') (w :: counts).
Definition be32 (v : Z) : list Z := [v / 16777216 mod 256; v / 65536 mod 256; v / 256 mod 256; v mod 256].
(** One colour in the table before the stitches: number of records, thread code, nine bytes not used. *)
Record shv_color := { shv_count : Z; shv_code : Z; shv_gap : list Z }.
Definition shv_entry (t : shv_color) : list Z := be32 (shv_count t) ++ [shv_code t] ++ shv_gap t.

(** ** HUS: three parallel streams *)
Inductive hus_stores : list rel -> list Z -> list Z -> list Z -> Prop :=
| hus_sew : forall dx dy l c x y, signed_byte dx -> signed_byte dy -> hus_stores l c x y ->
    hus_stores (mkS dx dy STITCH :: l) (0x80 :: c) (two8 dx :: x) (two8 (- dy) :: y)
| hus_jump : forall dx dy l c x y, signed_byte dx -> signed_byte dy -> hus_stores l c x y ->
    hus_stores (mkS dx dy JUMP :: l) (0x81 :: c) (two8 dx :: x) (two8 (- dy) :: y)
| hus_color : forall dx dy l c x y, signed_byte dx -> signed_byte dy -> hus_stores l c x y ->
    hus_stores (mkS dx dy COLOR_CHANGE :: l) (0x84 :: c) (two8 dx :: x) (two8 (- dy) :: y)
| hus_trim : forall dx dy l c x y, signed_byte dx -> signed_byte dy -> hus_stores l c x y ->
    hus_stores (also dx dy JUMP ++ mkS 0 0 TRIM :: l) (0x88 :: c) (two8 dx :: x) (two8 (- dy) :: y)
| hus_end : forall u v c x y, hus_stores [] (0x90 :: c) (u :: x) (v :: y)
| hus_done : hus_stores [] [] [] [].

(** ** Any file *)
(** Commands followed by END at the last position, [p] if there is none. *)
Definition shut {C} (p : C * C) (l : list (stitch C)) : list (stitch C) :=
  l ++ [match rev l with s :: _ => mkS (sx s) (sy s) END | [] => mkS (fst p) (snd p) END end].
