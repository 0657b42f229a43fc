(** What the pattern operations are meant to do, stated without their index arithmetic. *)
From Coq Require Import ZArith QArith Qabs List Bool.
From Verif Require Import PyBase EmbConst MetricSpec.
Import ListNotations.
Open Scope Z_scope.

Definition is_jump {C} (s : stitch C) : Prop := cmd_of (scmd s) = JUMP.

(** [edited drops x y before after]: with the needle at [(x, y)], [after] is [before] with trims
    inserted where the needle stands and, if [drops], with runs of jumps left out that return
    to where they started.  Every other command is kept, in order, at its position. *)
Inductive edited (drops : bool) : Q -> Q -> list (stitch Q) -> list (stitch Q) -> Prop :=
| edited_nil x y : edited drops x y [] []
| edited_keep x y s l l' :
    edited drops (sx s) (sy s) l l' -> edited drops x y (s :: l) (s :: l')
| edited_trim x y t l l' :
    scmd t = TRIM -> (sx t == x)%Q -> (sy t == y)%Q ->
    edited drops (sx t) (sy t) l l' -> edited drops x y l (t :: l')
| edited_drop x y js l l' :
    drops = true -> Forall is_jump js ->
    (fst (end_pos x y js) == x)%Q -> (snd (end_pos x y js) == y)%Q ->
    edited drops x y l l' -> edited drops x y (js ++ l) l'.

(** The commands that end a run of jumps for the trim interpolation. *)
Definition ends_jumps {C} (s : stitch C) : Prop :=
  In (cmd_of (scmd s)) [STITCH; SEQUIN_EJECT; COLOR_CHANGE; NEEDLE_SET; TRIM].

(** After sewing, fewer than [n] jumps come before the next trim, colour change, needle set or
    sewing. *)
Definition few_jumps {C} (n : nat) (l : list (stitch C)) : Prop :=
  forall a s m b, l = a ++ s :: m ++ b ->
    In (cmd_of (scmd s)) [STITCH; SEQUIN_EJECT] -> Forall (fun u => ~ ends_jumps u) m ->
    (length (filter (fun u => Z.eqb (cmd_of (scmd u)) JUMP) m) < n)%nat.

(** No command other than these stands between two jumps. *)
Definition plain_jumps {C} (l : list (stitch C)) : Prop :=
  forall a j m k b, l = a ++ j :: m ++ k :: b -> is_jump j -> is_jump k ->
    Forall (fun s => ~ is_jump s /\ ~ ends_jumps s) m -> m = [].

(** ** Frame ejects *)
Definition is_stop {C} (s : stitch C) : Prop := cmd_of (scmd s) = STOP.
Definition is_sewing {C} (s : stitch C) : Prop :=
  In (cmd_of (scmd s)) [STITCH; SEW_TO; NEEDLE_AT].
Definition is_change {C} (s : stitch C) : Prop :=
  In (cmd_of (scmd s)) [COLOR_CHANGE; COLOR_BREAK; NEEDLE_SET].

(** A gap (a stretch without sewing and thread changes) asks for a frame eject when it has a
    jump, later a stop, and later another jump; at the end of the pattern the second jump
    is not needed. *)
Definition asks_eject {C} (at_end : bool) (a : list (stitch C)) (j : stitch C)
    (b : list (stitch C)) (st : stitch C) (c : list (stitch C)) : Prop :=
  is_jump j /\ is_stop st /\ (at_end = true \/ Exists is_jump c)
  /\ Forall (fun s => ~ is_jump s) a /\ Forall (fun s => ~ is_stop s) b.
Inductive gap_ejected {C} (at_end : bool) : list (stitch C) -> list (stitch C) -> Prop :=
| gap_eject a j b st c :
    asks_eject at_end a j b st c ->
    gap_ejected at_end (a ++ j :: b ++ st :: c) (a ++ [mkS (sx st) (sy st) FRAME_EJECT])
| gap_same g :
    (forall a j b st c, g = a ++ j :: b ++ st :: c -> ~ asks_eject at_end a j b st c) ->
    gap_ejected at_end g g.
(** Gap by gap; the sewing and the thread changes between the gaps stay. *)
Inductive ejected {C} : list (stitch C) -> list (stitch C) -> Prop :=
| ejected_last g g' :
    Forall (fun s => ~ is_sewing s /\ ~ is_change s) g -> gap_ejected true g g' -> ejected g g'
| ejected_more g g' s r r' :
    Forall (fun s => ~ is_sewing s /\ ~ is_change s) g -> gap_ejected false g g' ->
    is_sewing s \/ is_change s ->
    ejected r r' -> ejected (g ++ s :: r) (g' ++ s :: r').

(** ** Stops and repeated colours *)

(** Every stretch between two thread changes or stops, before the first and after the last,
    contains a sewing command. *)
Inductive sections_sewn {C} : bool -> list (stitch C) -> Prop :=
| sections_end : sections_sewn true []
| sections_sew b s l : is_sewing s -> sections_sewn true l -> sections_sewn b (s :: l)
| sections_edge s l : is_change s \/ is_stop s -> sections_sewn false l -> sections_sewn true (s :: l)
| sections_other b s l :
    ~ is_sewing s -> ~ is_change s -> ~ is_stop s -> sections_sewn b l -> sections_sewn b (s :: l).

(** The number of thread changes. *)
Definition thread_changes {C} (l : list (stitch C)) : nat :=
  length (filter (fun s => existsb (Z.eqb (cmd_of (scmd s))) [COLOR_CHANGE; COLOR_BREAK; NEEDLE_SET]) l).

Definition neighbours_differ {T} (teq : T -> T -> bool) (ts : list T) : Prop :=
  forall a x y b, ts = a ++ x :: y :: b -> teq x y = false.

(** The number of colour sections with sewing in them: [n] counts those ended before, [open] says
    that the current one has sewing. *)
Inductive sewn_sections {C} : list (stitch C) -> bool -> nat -> Prop :=
| sewn_nil : sewn_sections [] false 0
| sewn_first l s n : is_sewing s -> sewn_sections l false n -> sewn_sections (l ++ [s]) true (S n)
| sewn_more l s n : is_sewing s -> sewn_sections l true n -> sewn_sections (l ++ [s]) true n
| sewn_change l s o n : is_change s -> sewn_sections l o n -> sewn_sections (l ++ [s]) false n
| sewn_other l s o n : ~ is_sewing s -> ~ is_change s -> sewn_sections l o n -> sewn_sections (l ++ [s]) o n.

(** ** Blocks *)

(** Maximal runs of one command. *)
Inductive command_cut {C} : list (stitch C) -> list (list (stitch C)) -> Prop :=
| command_nil : command_cut [] [[]]
| command_last c b : b <> [] -> Forall (fun s => cmd_of (scmd s) = c) b -> command_cut b [b]
| command_next c b s l bs :
    b <> [] -> Forall (fun s => cmd_of (scmd s) = c) b -> cmd_of (scmd s) <> c ->
    command_cut (s :: l) bs -> command_cut (b ++ s :: l) (b :: bs).

(** Colour blocks: a colour change closes its block, a needle set opens one, a colour break
    stands between blocks.  [plain_color b]: no such command in [b], save a needle set at its
    head. *)
Definition in_color {C} (s : stitch C) : Prop :=
  ~ In (cmd_of (scmd s)) [COLOR_CHANGE; COLOR_BREAK; NEEDLE_SET].
Definition plain_color {C} (b : list (stitch C)) : Prop :=
  match b with
  | [] => True
  | s :: r => (in_color s \/ cmd_of (scmd s) = NEEDLE_SET) /\ Forall in_color r
  end.
Inductive color_cut {C} : list (stitch C) -> list (list (stitch C)) -> Prop :=
| color_nil : color_cut [] []
| color_last b : b <> [] -> plain_color b -> color_cut b [b]
| color_break_empty s l bs :
    cmd_of (scmd s) = COLOR_BREAK -> color_cut l bs -> color_cut (s :: l) bs
| color_break b s l bs :
    b <> [] -> plain_color b -> cmd_of (scmd s) = COLOR_BREAK -> color_cut l bs ->
    color_cut (b ++ s :: l) (b :: bs)
| color_change b s l bs :
    plain_color b -> cmd_of (scmd s) = COLOR_CHANGE -> color_cut l bs ->
    color_cut (b ++ s :: l) ((b ++ [s]) :: bs)
| color_needle b s l bs :
    b <> [] -> plain_color b -> cmd_of (scmd s) = NEEDLE_SET -> color_cut (s :: l) bs ->
    color_cut (b ++ s :: l) (b :: bs).

(** Runs of stitches, each with the number of colour changes before it. *)
Definition is_stitch {C} (s : stitch C) : Prop := cmd_of (scmd s) = STITCH.
Inductive stitch_cut {C} : Z -> list (stitch C) -> list (list (stitch C) * Z) -> Prop :=
| stitch_nil n : stitch_cut n [] []
| stitch_last n b : b <> [] -> Forall is_stitch b -> stitch_cut n b [(b, n)]
| stitch_run n b s l bs :
    b <> [] -> Forall is_stitch b -> ~ is_stitch s -> stitch_cut n (s :: l) bs ->
    stitch_cut n (b ++ s :: l) ((b, n) :: bs)
| stitch_change n s l bs :
    cmd_of (scmd s) = COLOR_CHANGE -> stitch_cut (n + 1) l bs -> stitch_cut n (s :: l) bs
| stitch_other n s l bs :
    ~ is_stitch s -> cmd_of (scmd s) <> COLOR_CHANGE -> stitch_cut n l bs -> stitch_cut n (s :: l) bs.

(** ** Merged jumps *)

(** [jumps_merged n open x y before after], with the needle at (x, y): after sewing ([open]) every
    run of plain jumps is replaced by its last one, with a trim before it when the run is
    at least [n] long (at the end of the pattern, longer than [n]); everything else stays. *)
Definition opens {C} (open : bool) (s : stitch C) (open' : bool) : Prop :=
  (In (cmd_of (scmd s)) [STITCH; SEQUIN_EJECT] /\ open' = true)
  \/ (In (cmd_of (scmd s)) [COLOR_CHANGE; NEEDLE_SET; TRIM] /\ open' = false)
  \/ (~ ends_jumps s /\ open' = open).
Inductive jumps_merged (n : Z) : bool -> Q -> Q -> list (stitch Q) -> list (stitch Q) -> Prop :=
| merged_nil o x y : jumps_merged n o x y [] []
| merged_keep o x y s o' l l' :
    opens o s o' -> o' = false \/ scmd s <> JUMP ->
    jumps_merged n o' (sx s) (sy s) l l' -> jumps_merged n o x y (s :: l) (s :: l')
| merged_run x y js k l l' :
    Forall (fun s => scmd s = JUMP) (js ++ [k]) ->
    (match l with [] => Z.of_nat (length js) < n | s :: _ => scmd s <> JUMP /\ Z.of_nat (length js) + 1 < n end) ->
    jumps_merged n true (sx k) (sy k) l l' ->
    jumps_merged n true x y (js ++ k :: l) (k :: l')
| merged_trim x y js k t l l' :
    Forall (fun s => scmd s = JUMP) (js ++ [k]) ->
    (match l with [] => n <= Z.of_nat (length js) | s :: _ => scmd s <> JUMP /\ n <= Z.of_nat (length js) + 1 end) ->
    scmd t = TRIM -> (sx t == x)%Q -> (sy t == y)%Q ->
    jumps_merged n true (sx k) (sy k) l l' ->
    jumps_merged n true x y (js ++ k :: l) (t :: k :: l').
