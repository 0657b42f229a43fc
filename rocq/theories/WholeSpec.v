(** What whole TBF, U01 and XXX files are said to hold. *)
From Coq Require Import Ascii String ZArith QArith Qabs List Bool.
From Verif Require Import PyBase EmbConst StreamSpec QuantModel ThreadModel Utf8Proofs TextModel PatternModel FormatSpec WholeModel.
Import ListNotations.
Open Scope Z_scope.

(** [n] bytes from offset [a]. *)
Definition field {A} (a n : nat) (file : list A) : list A := firstn n (skipn a file).
(** A decimal number between blanks. *)
Definition number_at (a n : nat) (file : list Z) (v : Z) : Prop := strip (field a n file) = str_of_int v.
(** A sign and a decimal number. *)
Definition signed_at (a : nat) (file : list Z) (v : Z) : Prop :=
  field a 1 file = text_of (if 0 <=? v then "+" else "-") /\ number_at (S a) 5 file (Z.abs v).
(** A 16-bit and a 32-bit number, low byte first, two's complement. *)
Definition le16_at (a : nat) (file : list Z) (v : Z) : Prop :=
  exists b0 b1, field a 2 file = [b0; b1] /\ b0 + 256 * b1 = v mod 65536.
Definition le32_at (a : nat) (file : list Z) (v : Z) : Prop :=
  exists b0 b1 b2 b3, field a 4 file = [b0; b1; b2; b3] /\ b0 + 256 * (b1 + 256 * (b2 + 256 * b3)) = v mod 2 ^ 32.

(** The coordinates of a pattern stay below [k]. *)
Definition below (k : Z) (l : list (stitch Q)) : Prop :=
  Forall (fun s => (Qabs (sx s) < inject_Z k)%Q /\ (Qabs (sy s) < inject_Z k)%Q) l.
Definition short_ascii (n : nat) (t : option text) : Prop :=
  match t with Some t => Forall ascii t /\ (List.length t <= n)%nat | None => True end.
(** What has room in a TBF header: a name of at most 16 ASCII characters, a TP of at most 32, 201
    threads of 24-bit colours, extents of five digits, seven digits of commands, 256 needle changes. *)
Definition needle_changes {C} (l : list (stitch C)) : Z := zlen (filter (fun s => cmd_of (scmd s) =? NEEDLE_SET) l).
Definition tbf_room (p : tbf_info) (l : list (stitch Q)) : Prop :=
  short_ascii 16 (tbf_name p) /\ short_ascii 32 (tbf_tp p) /\
  zlen (tbf_colors p) <= 201 /\ Forall (fun c => 0 <= c < 2 ^ 24) (tbf_colors p) /\
  below (10 ^ 5) l /\ zlen l < 10 ^ 7 /\ needle_changes l <= 256.
