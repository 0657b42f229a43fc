(** pyembroidery/EmbEncoder.py: the Transcoder, over any arithmetic. *)
From Coq Require Import ZArith List Bool.
From Verif Require Import PyBase EmbConst FunctionsModel ThreadModel NumModel MatrixModel.
Import ListNotations.
Open Scope Z_scope.

(** ** Thread planning: does not depend on coordinates *)

(** A thread of the source's threadlist, or one from get_random_thread. *)
Inductive tref := Own (t : thread) | Filler.

(** EmbPattern.py 374-378.  The indexes used by the encoder are never negative. *)
Definition get_thread_or_filler (threads : list thread) (index : Z) : tref :=
  if Z.of_nat (length threads) <=? index then Filler
  else match nth_error threads (Z.to_nat index) with Some t => Own t | None => Filler end.

(** EmbEncoder.py 100-121: the yielded tuples (flags, thread, needle, order, current_index). *)
Record event := mkE { e_flags : Z; e_thread : option Z; e_needle : option Z; e_order : option Z;
                      e_index : option Z }.

Definition is_sewing (flags : Z) : bool :=
  (flags =? STITCH) || (flags =? SEW_TO) || (flags =? NEEDLE_AT) || (flags =? SEQUIN_EJECT).

(** [cmds] are the stitch[2] of the source, in order. *)
Fixpoint thread_change_events (current_index : Z) (cmds : list Z) : list event :=
  match cmds with
  | [] => []
  | c :: r =>
      let '(flags, thread, needle, order) := decode_embroidery_command c in
      let current_index := if (current_index =? 0) && is_sewing flags then 1 else current_index in
      if flags =? SET_CHANGE_SEQUENCE then
        mkE flags thread needle order None :: thread_change_events current_index r
      else if (flags =? NEEDLE_SET) || (flags =? COLOR_CHANGE) || (flags =? COLOR_BREAK) then
        mkE flags thread needle order (Some current_index) :: thread_change_events (current_index + 1) r
      else thread_change_events current_index r
  end.

(** One entry [command, thread, needle, thread object] being filled in. *)
Record draft := mkD { d_cmd : option Z; d_thread : option Z; d_needle : option Z; d_obj : option tref }.
Definition no_draft : draft := mkD None None None None.

(** change_sequence is a dict: keys in insertion order. *)
Definition dict (A : Type) := list (Z * A).
Fixpoint dict_get {A} (k : Z) (d : dict A) : option A :=
  match d with
  | [] => None
  | (k', a) :: r => if k' =? k then Some a else dict_get k r
  end.
(** Assigning to an existing key keeps its place, a new key goes last. *)
Fixpoint dict_set {A} (k : Z) (a : A) (d : dict A) : dict A :=
  match d with
  | [] => [(k, a)]
  | (k', a') :: r => if k' =? k then (k', a) :: r else (k', a') :: dict_set k a r
  end.

(** EmbEncoder.py 157-163: what one event writes into its entry. *)
Definition fill_draft (threads : list thread) (e : event) (c : draft) : draft :=
  let cmd := if (e_flags e =? COLOR_CHANGE) || (e_flags e =? NEEDLE_SET) then Some (e_flags e) else d_cmd c in
  let '(thread, obj) := match e_thread e with
                        | Some t => (Some t, Some (get_thread_or_filler threads t))
                        | None => (d_thread c, d_obj c)
                        end in
  let needle := match e_needle e with Some n => Some n | None => d_needle c end in
  mkD cmd thread needle obj.

(** EmbEncoder.py 128-163: the loop over the events. *)
Fixpoint plan_events (threads : list thread) (lookahead : Z) (d : dict draft) (evs : list event) : dict draft :=
  match evs with
  | [] => d
  | e :: r =>
      let '(key, lookahead') :=
        match e_index e with
        | None => match e_order e with
                  | None => (lookahead, lookahead + 1)
                  | Some o => (o, lookahead)
                  end
        | Some i => (i, if lookahead <=? i then i + 1 else lookahead)
        end in
      let current := match dict_get key d with Some c => c | None => no_draft end in
      plan_events threads lookahead' (dict_set key (fill_draft threads e current) d) r
  end.

(** A finished entry. *)
Record change := mkC { c_cmd : Z; c_thread : Z; c_needle : Z; c_obj : tref }.

(** EmbEncoder.py 166-182: filling the gaps; [%] by a needle_count of 0 raises. *)
Fixpoint finish_plan (threads : list thread) (tcc needle_limit thread_index needle_index : Z)
    (d : dict draft) : res (dict change) :=
  match d with
  | [] => Ok []
  | (order, s) :: r =>
      let cmd := match d_cmd s with Some c => c | None => tcc end in
      let '(th, thread_index') :=
        match d_thread s with Some t => (t, thread_index) | None => (thread_index, thread_index + 1) end in
      do '(nd, needle_index') <-
        match d_needle s with
        | Some n => Ok (n, needle_index)
        | None =>
            if needle_limit <? needle_index then
              if needle_limit =? 0 then Err ZeroDivisionError
              else Ok ((needle_index - 1) mod needle_limit + 1, needle_index + 1)
            else Ok (needle_index, needle_index + 1)
        end;
      let obj := match d_obj s with Some t => t | None => get_thread_or_filler threads th end in
      do q <- finish_plan threads tcc needle_limit thread_index' needle_index' r;
      Ok ((order, mkC cmd th nd obj) :: q)
  end.

(* EmbEncoder.py 123-183 *)
Definition build_thread_change_sequence (tcc needle_count : Z) (threads : list thread) (cmds : list Z)
  : res (dict change) :=
  finish_plan threads tcc needle_count 0 1
    (plan_events threads 0 [(0, no_draft)] (thread_change_events 0 cmds)).

(** ** Settings *)
Section Encoder.
Context (N : Num).
Notation F := (F N).

(** Values of the settings dictionary as the caller gives them; None: key absent.
    A length is finite or [Inf] (float("inf")). *)
Inductive limit := Fin (l : F) | Inf.
Inductive tie_value := TieBool (b : bool) | TieCommand (c : Z).
Inductive scale_value := ScaleXY (x y : F) | ScaleOne (s : F).

Record settings := mkSettings {
  s_max_stitch : option limit;
  s_max_jump : option limit;
  s_full_jump : option bool;
  s_round : option bool;
  s_needle_count : option Z;
  s_thread_change_command : option Z;
  s_strip_sequins : option bool;
  s_sequin_contingency : option Z;
  s_writes_speeds : option bool;
  s_explicit_trim : option bool;
  s_tie_on : option tie_value;
  s_tie_off : option tie_value;
  s_long_stitch_contingency : option Z;
  s_translate : option (F * F);
  s_scale : option scale_value;
  s_rotate : option F }.

Definition get {A} (v : option A) (default : A) : A := match v with Some a => a | None => default end.

(** The attributes that stay fixed while transcoding. *)
Record config := mkConfig {
  full_jump : bool;
  rounding : bool;
  needle_count : Z;
  thread_change_command : Z;
  writes_speeds : bool }.

(** The attributes that change. [out] and [othreads] are destination_pattern.stitches and
    destination_pattern.threadlist, empty at the start. *)
Record st := mkSt {
  out : list (stitch F);
  othreads : list tref;
  nx : F; ny : F;
  order_index : Z;
  trimmed : bool;
  sequin_mode : bool;
  jumping : bool;
  high_flags : Z;
  max_stitch : limit;
  max_jump : limit;
  explicit_trim : bool;
  tie_on_contingency : Z;
  tie_off_contingency : Z;
  long_stitch_contingency : Z;
  sequin_contingency : Z;
  matrix : mat N }.

Definition tie_resolve (v : option tie_value) (none small : Z) : Z :=
  match v with
  | None => none
  | Some (TieBool b) => if b then small else none
  | Some (TieCommand c) => c
  end.

(* EmbEncoder.py 11-31 *)
Definition init_config (s : settings) : config :=
  let nc := get (s_needle_count s) 5 in
  let tcc := get (s_thread_change_command s) COLOR_CHANGE in
  mkConfig (get (s_full_jump s) false) (get (s_round s) false) nc
    (if (nc <=? 1) && (tcc =? NEEDLE_SET) then STOP else tcc)
    (get (s_writes_speeds s) true).

(** EmbEncoder.py 48-69.  Simplified: translate is a pair of numbers, scale a pair or a number. *)
Definition init_matrix (s : settings) : mat N :=
  let m := get_identity N in
  let m := match s_translate s with Some (tx, ty) => post_translate N m tx ty | None => m end in
  let m := match s_scale s with
           | Some (ScaleXY x y) => post_scale N m x y (f0 N) (f0 N)
           | Some (ScaleOne x) => post_scale N m x x (f0 N) (f0 N)
           | None => m
           end in
  match s_rotate s with Some r => post_rotate N m r (f0 N) (f0 N) | None => m end.

(* EmbEncoder.py 8-81 *)
Definition init_state (s : settings) : st :=
  mkSt [] [] (f0 N) (f0 N) (-1) true false false 0
    (get (s_max_stitch s) Inf) (get (s_max_jump s) Inf) (get (s_explicit_trim s) false)
    (tie_resolve (s_tie_on s) CONTINGENCY_TIE_ON_NONE CONTINGENCY_TIE_ON_THREE_SMALL)
    (tie_resolve (s_tie_off s) CONTINGENCY_TIE_OFF_NONE CONTINGENCY_TIE_OFF_THREE_SMALL)
    (get (s_long_stitch_contingency s) CONTINGENCY_LONG_STITCH_JUMP_NEEDLE)
    (get (s_sequin_contingency s)
       (if get (s_strip_sequins s) true then CONTINGENCY_SEQUIN_JUMP else CONTINGENCY_SEQUIN_UTILIZE))
    (init_matrix s).

(** ** Attribute assignments *)
Definition append (s : st) (a : stitch F) : st :=
  mkSt (out s ++ [a]) (othreads s) (nx s) (ny s) (order_index s) (trimmed s) (sequin_mode s) (jumping s)
    (high_flags s) (max_stitch s) (max_jump s) (explicit_trim s) (tie_on_contingency s)
    (tie_off_contingency s) (long_stitch_contingency s) (sequin_contingency s) (matrix s).
Definition add_thread (s : st) (t : tref) : st :=
  mkSt (out s) (othreads s ++ [t]) (nx s) (ny s) (order_index s) (trimmed s) (sequin_mode s) (jumping s)
    (high_flags s) (max_stitch s) (max_jump s) (explicit_trim s) (tie_on_contingency s)
    (tie_off_contingency s) (long_stitch_contingency s) (sequin_contingency s) (matrix s).
(* EmbEncoder.py 353-355 *)
Definition update_needle_position (s : st) (x y : F) : st :=
  mkSt (out s) (othreads s) x y (order_index s) (trimmed s) (sequin_mode s) (jumping s)
    (high_flags s) (max_stitch s) (max_jump s) (explicit_trim s) (tie_on_contingency s)
    (tie_off_contingency s) (long_stitch_contingency s) (sequin_contingency s) (matrix s).
Definition set_order (s : st) (o : Z) : st :=
  mkSt (out s) (othreads s) (nx s) (ny s) o (trimmed s) (sequin_mode s) (jumping s)
    (high_flags s) (max_stitch s) (max_jump s) (explicit_trim s) (tie_on_contingency s)
    (tie_off_contingency s) (long_stitch_contingency s) (sequin_contingency s) (matrix s).
Definition set_trimmed (s : st) (b : bool) : st :=
  mkSt (out s) (othreads s) (nx s) (ny s) (order_index s) b (sequin_mode s) (jumping s)
    (high_flags s) (max_stitch s) (max_jump s) (explicit_trim s) (tie_on_contingency s)
    (tie_off_contingency s) (long_stitch_contingency s) (sequin_contingency s) (matrix s).
Definition set_sequin_mode (s : st) (b : bool) : st :=
  mkSt (out s) (othreads s) (nx s) (ny s) (order_index s) (trimmed s) b (jumping s)
    (high_flags s) (max_stitch s) (max_jump s) (explicit_trim s) (tie_on_contingency s)
    (tie_off_contingency s) (long_stitch_contingency s) (sequin_contingency s) (matrix s).
Definition set_jumping (s : st) (b : bool) : st :=
  mkSt (out s) (othreads s) (nx s) (ny s) (order_index s) (trimmed s) (sequin_mode s) b
    (high_flags s) (max_stitch s) (max_jump s) (explicit_trim s) (tie_on_contingency s)
    (tie_off_contingency s) (long_stitch_contingency s) (sequin_contingency s) (matrix s).
Definition set_high (s : st) (h : Z) : st :=
  mkSt (out s) (othreads s) (nx s) (ny s) (order_index s) (trimmed s) (sequin_mode s) (jumping s)
    h (max_stitch s) (max_jump s) (explicit_trim s) (tie_on_contingency s)
    (tie_off_contingency s) (long_stitch_contingency s) (sequin_contingency s) (matrix s).
Definition set_limits (s : st) (ms mj : limit) : st :=
  mkSt (out s) (othreads s) (nx s) (ny s) (order_index s) (trimmed s) (sequin_mode s) (jumping s)
    (high_flags s) ms mj (explicit_trim s) (tie_on_contingency s)
    (tie_off_contingency s) (long_stitch_contingency s) (sequin_contingency s) (matrix s).
Definition set_contingencies (s : st) (et : bool) (ton toff long seq : Z) : st :=
  mkSt (out s) (othreads s) (nx s) (ny s) (order_index s) (trimmed s) (sequin_mode s) (jumping s)
    (high_flags s) (max_stitch s) (max_jump s) et ton toff long seq (matrix s).
Definition set_matrix (s : st) (m : mat N) : st :=
  mkSt (out s) (othreads s) (nx s) (ny s) (order_index s) (trimmed s) (sequin_mode s) (jumping s)
    (high_flags s) (max_stitch s) (max_jump s) (explicit_trim s) (tie_on_contingency s)
    (tie_off_contingency s) (long_stitch_contingency s) (sequin_contingency s) m.

(** ** The methods *)
(** EmbEncoder.py 368-374, with and without explicit coordinates. *)
Definition add_at (s : st) (flags : Z) (x y : F) : st := append s (mkS x y (Z.lor flags (high_flags s))).
Definition add (s : st) (flags : Z) : st := add_at s flags (nx s) (ny s).

(* EmbEncoder.py 362-366 *)
Definition add_thread_change (s : st) (command thread needle : Z) : st :=
  append s (mkS (nx s) (ny s) (encode_thread_change command (Some thread) (Some needle) None)).

(* EmbEncoder.py 471-477 *)
Definition toggle_sequins (s : st) : st :=
  if sequin_contingency s =? CONTINGENCY_SEQUIN_UTILIZE
  then set_sequin_mode (add s SEQUIN_MODE) (negb (sequin_mode s))
  else s.

(** abs(d) > max_length *)
Definition exceeds (d : F) (max_length : limit) : bool :=
  match max_length with Fin l => fgtb N (fabs N d) l | Inf => false end.

(** EmbEncoder.py 639-645 for [n] remaining iterations. *)
Fixpoint gap_loop (n : nat) (qx qy step_x step_y : F) (cmd : Z) (s : st) : st :=
  match n with
  | O => s
  | S n =>
      let qx := fadd N qx step_x in
      let qy := fadd N qy step_y in
      gap_loop n qx qy step_x step_y cmd (update_needle_position (append s (mkS qx qy cmd)) qx qy)
  end.

(** EmbEncoder.py 613-645.  "max_length * 1.0" is max_length; the quotient by an infinite
    length is not reached because nothing exceeds it. *)
Definition interpolate_gap_stitches (s : st) (x0 y0 x1 y1 : F) (max_length : limit) (data : Z) : res st :=
  let distance_x := fsub N x1 x0 in
  let distance_y := fsub N y1 y0 in
  match max_length with
  | Inf => Ok s
  | Fin l =>
      if exceeds distance_x max_length || exceeds distance_y max_length then
        let s := if (data =? JUMP) && sequin_mode s then toggle_sequins s else s in
        do rx <- fdiv N distance_x l;
        do steps_x <- fceil N (fabs N rx);
        do ry <- fdiv N distance_y l;
        do steps_y <- fceil N (fabs N ry);
        let steps := if steps_y <? steps_x then steps_x else steps_y in
        do step_size_x <- fdivz N distance_x steps;
        do step_size_y <- fdivz N distance_y steps;
        Ok (gap_loop (Z.to_nat (steps - 1)) x0 y0 step_size_x step_size_y (Z.lor data (high_flags s)) s)
      else Ok s
  end.

(* EmbEncoder.py 501-505 *)
Definition jump_at (s : st) (x y : F) : st :=
  let s := if sequin_mode s then toggle_sequins s else s in
  update_needle_position (add_at s JUMP x y) x y.
(* EmbEncoder.py 541-545 *)
Definition stitch_at (s : st) (x y : F) : st := update_needle_position (add_at s STITCH x y) x y.
(* EmbEncoder.py 479-488 *)
Definition jump_to_within_stitchrange (c : config) (s : st) (x y : F) : res st :=
  do s <- interpolate_gap_stitches s (nx s) (ny s) x y (max_jump s) JUMP;
  if full_jump c then
    if negb (feqb N (nx s) x) || negb (feqb N (ny s) y) then Ok (jump_at s x y) else Ok s
  else Ok s.
(* EmbEncoder.py 494-499 *)
Definition jump_to (s : st) (x y : F) : res st :=
  do s <- interpolate_gap_stitches s (nx s) (ny s) x y (max_jump s) JUMP;
  Ok (jump_at s x y).
(* EmbEncoder.py 515-523 *)
Definition sew_to (s : st) (x y : F) : res st :=
  do s <- interpolate_gap_stitches s (nx s) (ny s) x y (max_stitch s) STITCH;
  Ok (stitch_at s x y).
(* EmbEncoder.py 525-539 *)
Definition needle_to (s : st) (x y : F) : res st :=
  do s <- interpolate_gap_stitches s (nx s) (ny s) x y (max_stitch s) JUMP;
  Ok (stitch_at s x y).
(* EmbEncoder.py 507-513 *)
Definition stitch_with_contingency (s : st) (x y : F) : res st :=
  if long_stitch_contingency s =? CONTINGENCY_LONG_STITCH_SEW_TO then sew_to s x y
  else if long_stitch_contingency s =? CONTINGENCY_LONG_STITCH_JUMP_NEEDLE then needle_to s x y
  else Ok (stitch_at s x y).
(* EmbEncoder.py 547-567 *)
Definition sequin_at (s : st) (x y : F) : res st :=
  let contingency := sequin_contingency s in
  if contingency =? CONTINGENCY_SEQUIN_REMOVE then Ok s
  else
    do s <- interpolate_gap_stitches s (nx s) (ny s) x y (max_stitch s) STITCH;
    let s :=
      if contingency =? CONTINGENCY_SEQUIN_UTILIZE then add_at s SEQUIN_EJECT x y
      else if contingency =? CONTINGENCY_SEQUIN_JUMP then add_at s JUMP x y
      else if contingency =? CONTINGENCY_SEQUIN_STITCH then add_at s STITCH x y
      else s in
    Ok (update_needle_position s x y).

(* EmbEncoder.py 679-681 *)
Definition towards (a b amount : F) : F := fadd N (fmul N amount (fsub N b a)) a.

(** EmbEncoder.py 647-662; max_length is always given by the callers. *)
Definition lock_stitch (s : st) (x y anchor_x anchor_y : F) (max_length : limit) : st :=
  let '(ax, ay) :=
    match max_length with
    | Fin l => if fdist_gt N x y anchor_x anchor_y l then foriented N x y anchor_x anchor_y l
               else (anchor_x, anchor_y)
    | Inf => (anchor_x, anchor_y)
    end in
  let put s amount := append s (mkS (towards x ax amount) (towards y ay amount) STITCH) in
  put (put (put (put s (f33 N)) (f66 N)) (f33 N)) (f0 N).

(** The flags that make a neighbour an anchor: EmbEncoder.py 432-438 and 451-457, unmasked. *)
Definition is_anchor (flags : Z) : bool :=
  (flags =? STITCH) || (flags =? NEEDLE_AT) || (flags =? SEW_TO) || (flags =? SEQUIN_EJECT).

(** source_pattern.stitches[i] with Python's negative index; None: IndexError (caught by both
    callers). *)
Definition at_index (src : list (stitch F)) (i : Z) : option (stitch F) :=
  let len := Z.of_nat (length src) in
  let i := if i <? 0 then i + len else i in
  if (i <? 0) || (len <=? i) then None else nth_error src (Z.to_nat i).

Definition lock_towards (s : st) (b : option (stitch F)) : st :=
  match b with
  | None => s
  | Some b =>
      let '(bx, by') := point_in_matrix_space N (matrix s) (sx b) (sy b) in
      if is_anchor (scmd b) then lock_stitch s (nx s) (ny s) bx by' (max_stitch s) else s
  end.

(* EmbEncoder.py 426-443 *)
Definition tie_off (src : list (stitch F)) (position : Z) (s : st) : st :=
  if tie_off_contingency s =? CONTINGENCY_TIE_OFF_THREE_SMALL
  then lock_towards s (at_index src (position - 1)) else s.
(* EmbEncoder.py 445-462 *)
Definition tie_on (src : list (stitch F)) (position : Z) (s : st) : st :=
  if tie_on_contingency s =? CONTINGENCY_TIE_ON_THREE_SMALL
  then lock_towards s (at_index src (position + 1)) else s.

(* EmbEncoder.py 464-469 *)
Definition trim_here (s : st) : st :=
  let s := if sequin_mode s then toggle_sequins s else s in
  set_trimmed (add s TRIM) true.

(* EmbEncoder.py 585-599 *)
Definition next_change_sequence (c : config) (seq : dict change) (s : st) : res st :=
  let s := set_order s (order_index s + 1) in
  match dict_get (order_index s) seq with
  | None => Err KeyError
  | Some change =>
      let s :=
        if thread_change_command c =? COLOR_CHANGE then
          let s := add_thread s (c_obj change) in
          if negb (order_index s =? 0) then add_thread_change s COLOR_CHANGE (c_thread change) (c_needle change)
          else s
        else if thread_change_command c =? NEEDLE_SET then
          add_thread_change s NEEDLE_SET (c_thread change) (c_needle change)
        else if thread_change_command c =? STOP then
          add_thread_change (add_thread s (c_obj change)) STOP (c_thread change) (c_needle change)
        else s in
      Ok (set_trimmed s true)
  end.

(* EmbEncoder.py 357-360 *)
Definition declare_not_trimmed (c : config) (seq : dict change) (s : st) : res st :=
  do s <- if order_index s =? -1 then next_change_sequence c seq s else Ok s;
  Ok (set_trimmed s false).

(** EmbEncoder.py 376-395 from the current position on: flags unmasked. *)
Fixpoint lookahead_stitch (rest : list (stitch F)) : bool :=
  match rest with
  | [] => false
  | a :: r =>
      let flags := scmd a in
      if (flags =? STITCH) || (flags =? NEEDLE_AT) || (flags =? SEW_TO) || (flags =? TIE_ON)
         || (flags =? SEQUIN_EJECT) then true
      else if flags =? END then false
      else lookahead_stitch r
  end.

(** The first half of color_break and tie_off_trim_color_change: EmbEncoder.py 401-404, 411-414. *)
Definition close_section (src : list (stitch F)) (position : Z) (s : st) : st :=
  if negb (trimmed s) then
    let s := tie_off src position s in
    if explicit_trim s then trim_here s else s
  else s.

(* EmbEncoder.py 397-408 *)
Definition color_break (c : config) (seq : dict change) (src : list (stitch F)) (position : Z)
    (rest : list (stitch F)) (s : st) : res st :=
  if order_index s <? 0 then Ok s
  else
    let s := close_section src position s in
    if negb (lookahead_stitch rest) then Ok s
    else do s <- next_change_sequence c seq s; Ok (set_trimmed s true).

(* EmbEncoder.py 410-416 *)
Definition tie_off_trim_color_change (c : config) (seq : dict change) (src : list (stitch F)) (position : Z)
    (s : st) : res st :=
  do s <- next_change_sequence c seq (close_section src position s);
  Ok (set_trimmed s true).

(* EmbEncoder.py 418-424 *)
Definition tie_off_and_trim_if_needed (src : list (stitch F)) (position : Z) (s : st) : st :=
  if negb (trimmed s) then trim_here (tie_off src position s) else s.

(* EmbEncoder.py 577-583 *)
Definition stop_here (s : st) : st := set_trimmed (add s STOP) true.
Definition end_here (s : st) : st := set_trimmed (add s END) true.

(** The opening of a sewn section: EmbEncoder.py 214-218, 225-229, 236-240, 272-276. *)
Definition open_section (c : config) (seq : dict change) (src : list (stitch F)) (position : Z)
    (x y : F) (s : st) : res st :=
  do s <- declare_not_trimmed c seq s;
  do s <- jump_to_within_stitchrange c s x y;
  Ok (tie_on src position (stitch_at s x y)).

(** What one source command asks for: the branches of EmbEncoder.py 211-349. *)
Inductive op :=
| OpNothing | OpStitch | OpNeedleAt | OpSewTo | OpStitchBreak | OpFrameEject | OpSequenceBreak
| OpColorBreak | OpTieOff | OpTieOn | OpTrim | OpJump | OpSequinMode | OpSequinEject | OpThreadChange
| OpStop | OpSlow | OpFast | OpEnd
| OpSetTieOn (c : Z) | OpSetTieOff (c : Z) | OpMaxJump | OpMaxStitch | OpExplicit (b : bool)
| OpLongStitch (c : Z) | OpSequinContingency (c : Z)
| OpTranslate | OpScaleOrigin | OpRotateOrigin | OpScale | OpRotate | OpReset.

(** The chain of comparisons of EmbEncoder.py 211-349, in order. *)
Definition classify (flags : Z) : op :=
  if flags =? NO_COMMAND then OpNothing
  else if flags =? STITCH then OpStitch
  else if flags =? NEEDLE_AT then OpNeedleAt
  else if flags =? SEW_TO then OpSewTo
  else if flags =? STITCH_BREAK then OpStitchBreak
  else if flags =? FRAME_EJECT then OpFrameEject
  else if flags =? SEQUENCE_BREAK then OpSequenceBreak
  else if flags =? COLOR_BREAK then OpColorBreak
  else if flags =? TIE_OFF then OpTieOff
  else if flags =? TIE_ON then OpTieOn
  else if flags =? TRIM then OpTrim
  else if flags =? JUMP then OpJump
  else if flags =? SEQUIN_MODE then OpSequinMode
  else if flags =? SEQUIN_EJECT then OpSequinEject
  else if flags =? COLOR_CHANGE then OpThreadChange
  else if flags =? NEEDLE_SET then OpThreadChange
  else if flags =? STOP then OpStop
  else if flags =? SLOW then OpSlow
  else if flags =? FAST then OpFast
  else if flags =? END then OpEnd
  else if flags =? CONTINGENCY_TIE_ON_THREE_SMALL then OpSetTieOn CONTINGENCY_TIE_ON_THREE_SMALL
  else if flags =? CONTINGENCY_TIE_OFF_THREE_SMALL then OpSetTieOff CONTINGENCY_TIE_OFF_THREE_SMALL
  else if flags =? CONTINGENCY_TIE_ON_NONE then OpSetTieOn CONTINGENCY_TIE_ON_NONE
  else if flags =? CONTINGENCY_TIE_OFF_NONE then OpSetTieOff CONTINGENCY_TIE_OFF_NONE
  else if flags =? OPTION_MAX_JUMP_LENGTH then OpMaxJump
  else if flags =? OPTION_MAX_STITCH_LENGTH then OpMaxStitch
  else if flags =? OPTION_EXPLICIT_TRIM then OpExplicit true
  else if flags =? OPTION_IMPLICIT_TRIM then OpExplicit false
  else if flags =? CONTINGENCY_LONG_STITCH_NONE then OpLongStitch CONTINGENCY_LONG_STITCH_NONE
  else if flags =? CONTINGENCY_LONG_STITCH_JUMP_NEEDLE then OpLongStitch CONTINGENCY_LONG_STITCH_JUMP_NEEDLE
  else if flags =? CONTINGENCY_LONG_STITCH_SEW_TO then OpLongStitch CONTINGENCY_LONG_STITCH_SEW_TO
  else if flags =? CONTINGENCY_SEQUIN_REMOVE then OpSequinContingency CONTINGENCY_SEQUIN_REMOVE
  else if flags =? CONTINGENCY_SEQUIN_STITCH then OpSequinContingency CONTINGENCY_SEQUIN_STITCH
  else if flags =? CONTINGENCY_SEQUIN_JUMP then OpSequinContingency CONTINGENCY_SEQUIN_JUMP
  else if flags =? CONTINGENCY_SEQUIN_UTILIZE then OpSequinContingency CONTINGENCY_SEQUIN_UTILIZE
  else if flags =? MATRIX_TRANSLATE then OpTranslate
  else if flags =? MATRIX_SCALE_ORIGIN then OpScaleOrigin
  else if flags =? MATRIX_ROTATE_ORIGIN then OpRotateOrigin
  else if flags =? MATRIX_SCALE then OpScale
  else if flags =? MATRIX_ROTATE then OpRotate
  else if flags =? MATRIX_RESET then OpReset
  else OpNothing.

(** EmbEncoder.py 339-341, 344-346: the needle position in source space, with the matrix
    inverted twice. *)
Definition needle_in_source (s : st) : res (st * (F * F)) :=
  do inv <- inverse N (matrix s);
  let q := point_in_matrix_space N inv (nx s) (ny s) in
  do back <- inverse N inv;
  Ok (set_matrix s back, q).

(** The branch bodies of EmbEncoder.py 211-349 for the source command [a], with (x, y) its
    transformed and rounded position and [rest] the source from the current position on. *)
Definition exec (c : config) (seq : dict change) (src : list (stitch F)) (position : Z)
    (rest : list (stitch F)) (a : stitch F) (x y : F) (o : op) (s : st) : res st :=
  match o with
  | OpNothing => Ok s
  | OpStitch =>
      if trimmed s then open_section c seq src position x y s
      else if jumping s then do s <- needle_to s x y; Ok (set_jumping s false)
      else stitch_with_contingency s x y
  | OpNeedleAt =>
      if trimmed s then open_section c seq src position x y s
      else if jumping s then do s <- needle_to s x y; Ok (set_jumping s false)
      else needle_to s x y
  | OpSewTo =>
      if trimmed s then open_section c seq src position x y s
      else if jumping s then do s <- needle_to s x y; Ok (set_jumping s false)
      else sew_to s x y
  | OpStitchBreak => Ok (set_jumping s true)
  | OpFrameEject =>
      do s <- jump_to (tie_off_and_trim_if_needed src position s) x y;
      Ok (stop_here s)
  | OpSequenceBreak => Ok (tie_off_and_trim_if_needed src position s)
  | OpColorBreak => color_break c seq src position rest s
  | OpTieOff => Ok (tie_off src position s)
  | OpTieOn => Ok (tie_on src position s)
  | OpTrim => Ok (tie_off_and_trim_if_needed src position s)
  | OpJump => if jumping s then Ok s else jump_to s x y
  | OpSequinMode => Ok (toggle_sequins s)
  | OpSequinEject =>
      do s <- if trimmed s then open_section c seq src position x y s else Ok s;
      let s := if sequin_mode s then s else toggle_sequins s in
      sequin_at s x y
  | OpThreadChange => tie_off_trim_color_change c seq src position s
  | OpStop => Ok (stop_here s)
  | OpSlow => Ok (if writes_speeds c then add s SLOW else s)
  | OpFast => Ok (if writes_speeds c then add s FAST else s)
  | OpEnd => Ok (end_here s)
  | OpSetTieOn v => Ok (set_contingencies s (explicit_trim s) v (tie_off_contingency s)
                          (long_stitch_contingency s) (sequin_contingency s))
  | OpSetTieOff v => Ok (set_contingencies s (explicit_trim s) (tie_on_contingency s) v
                           (long_stitch_contingency s) (sequin_contingency s))
  | OpMaxJump => Ok (set_limits s (max_stitch s) (Fin (sx a)))
  | OpMaxStitch => Ok (set_limits s (Fin (sx a)) (max_jump s))
  | OpExplicit b => Ok (set_contingencies s b (tie_on_contingency s) (tie_off_contingency s)
                          (long_stitch_contingency s) (sequin_contingency s))
  | OpLongStitch v => Ok (set_contingencies s (explicit_trim s) (tie_on_contingency s)
                            (tie_off_contingency s) v (sequin_contingency s))
  | OpSequinContingency v =>
      let s := if negb (v =? CONTINGENCY_SEQUIN_UTILIZE) && sequin_mode s then toggle_sequins s else s in
      Ok (set_contingencies s (explicit_trim s) (tie_on_contingency s) (tie_off_contingency s)
            (long_stitch_contingency s) v)
  | OpTranslate => Ok (set_matrix s (post_translate N (matrix s) (sx a) (sy a)))
  | OpScaleOrigin => Ok (set_matrix s (post_scale N (matrix s) (sx a) (sy a) (f0 N) (f0 N)))
  | OpRotateOrigin => Ok (set_matrix s (post_rotate N (matrix s) (sx a) (f0 N) (f0 N)))
  | OpScale =>
      do '(s, q) <- needle_in_source s;
      Ok (set_matrix s (post_scale N (matrix s) (sx a) (sy a) (fst q) (snd q)))
  | OpRotate =>
      do '(s, q) <- needle_in_source s;
      Ok (set_matrix s (post_rotate N (matrix s) (sx a) (fst q) (snd q)))
  | OpReset => Ok (set_matrix s (get_identity N))
  end.

(** The position of a source command after matrix and rounding: EmbEncoder.py 202-207. *)
Definition placed (c : config) (s : st) (a : stitch F) : res (F * F) :=
  let '(x, y) := point_in_matrix_space N (matrix s) (sx a) (sy a) in
  if rounding c then
    do x <- fround N x;
    do y <- fround N y;
    Ok (x, y)
  else Ok (x, y).

(** EmbEncoder.py 200-351: the loop; [rest] is the source from [position] on.  The loop stops
    after an END; otherwise END is added at the end. *)
Fixpoint main_loop (c : config) (seq : dict change) (src : list (stitch F)) (position : Z)
    (rest : list (stitch F)) (s : st) : res st :=
  match rest with
  | [] => Ok (end_here s)
  | a :: r =>
      do '(x, y) <- placed c s a;
      let flags := cmd_of (scmd a) in
      let s := set_high s (Z.land (scmd a) FLAGS_MASK) in
      do s <- exec c seq src position rest a x y (classify flags) s;
      if flags =? END then Ok s else main_loop c seq src (position + 1) r s
  end.

(** A source or destination pattern: stitches and threads (metadata is copied unchanged). *)
Record pattern := mkP { p_stitches : list (stitch F); p_threads : list thread }.

(** EmbEncoder.py 83-92, 185-351, for a destination that is a new pattern: the stitches and
    the threads of the encoded pattern. *)
Definition transcode (set : settings) (p : pattern) : res (list (stitch F) * list tref) :=
  let c := init_config set in
  do seq <- build_thread_change_sequence (thread_change_command c) (needle_count c)
              (p_threads p) (map scmd (p_stitches p));
  let s := init_state set in
  let s := if thread_change_command c =? NEEDLE_SET
           then mkSt (out s) (map Own (p_threads p)) (nx s) (ny s) (order_index s) (trimmed s)
                  (sequin_mode s) (jumping s) (high_flags s) (max_stitch s) (max_jump s)
                  (explicit_trim s) (tie_on_contingency s) (tie_off_contingency s)
                  (long_stitch_contingency s) (sequin_contingency s) (matrix s)
           else s in
  do s <- main_loop c seq (p_stitches p) 0 (p_stitches p) s;
  Ok (out s, othreads s).
End Encoder.
