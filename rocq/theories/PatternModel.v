(** pyembroidery/EmbPattern.py: queries and in-place edits of a pattern.  Everything that
    computes with coordinates is over exact rationals (Python ints and floats without
    rounding); everything else is generic in the coordinate type [C] and the thread type [T].
    A pattern is its stitch list, its thread list and the position that relative additions
    start from.  Metadata ([extras]) is not part of this file. *)
From Coq Require Import ZArith QArith Qround Qabs List Bool.
From Verif Require Import PyBase EmbConst NumQ.
Import ListNotations.
Open Scope Z_scope.

(* EmbPattern.py 60-95: stitches, threadlist, _previousX, _previousY *)
Record pattern (T C : Type) := mkP {
  p_stitches : list (stitch C);
  p_threads : list T;
  p_x : C;
  p_y : C }.
Arguments mkP {T C}.
Arguments p_stitches {T C}.
Arguments p_threads {T C}.
Arguments p_x {T C}.
Arguments p_y {T C}.

(** The membership tests repeated through the file: [data == STITCH or data == SEW_TO or
    data == NEEDLE_AT] and [data == COLOR_CHANGE or data == COLOR_BREAK or
    data == NEEDLE_SET] (e.g. EmbPattern.py 498-504). *)
Definition sews (c : Z) : bool :=
  (cmd_of c =? STITCH) || (cmd_of c =? SEW_TO) || (cmd_of c =? NEEDLE_AT).
Definition changes (c : Z) : bool :=
  (cmd_of c =? COLOR_CHANGE) || (cmd_of c =? COLOR_BREAK) || (cmd_of c =? NEEDLE_SET).

(** Python list operations: [del l[a:b]], [l.insert(i, v)] for 0 <= i, [l[i]]. *)
Definition py_del {A} (a b : Z) (l : list A) : list A :=
  firstn (Z.to_nat a) l ++ skipn (Z.to_nat (Z.max a b)) l.
Definition py_insert {A} (i : Z) (v : A) (l : list A) : list A :=
  firstn (Z.to_nat i) l ++ v :: skipn (Z.to_nat i) l.
Definition py_index {A} (i : Z) (l : list A) : res A :=
  if i <? 0 then Err IndexError
  else match nth_error l (Z.to_nat i) with Some a => Ok a | None => Err IndexError end.
Definition zlen {A} (l : list A) : Z := Z.of_nat (length l).

(** ** Bounds, translation, centring *)

(** EmbPattern.py 325-342.  [None] stands for the infinity a side starts with: +inf for the
    minima and -inf for the maxima, so every comparison with it succeeds. *)
Definition above (v : Q) (m : option Q) : bool :=
  match m with None => true | Some m => q_gt v m end.
Definition below (v : Q) (m : option Q) : bool :=
  match m with None => true | Some m => q_gt m v end.
Definition sides := (option Q * option Q * option Q * option Q)%type.
Definition bounds_step (b : sides) (s : stitch Q) : sides :=
  let '(min_x, min_y, max_x, max_y) := b in
  let max_x := if above (sx s) max_x then Some (sx s) else max_x in
  let min_x := if below (sx s) min_x then Some (sx s) else min_x in
  let max_y := if above (sy s) max_y then Some (sy s) else max_y in
  let min_y := if below (sy s) min_y then Some (sy s) else min_y in
  (min_x, min_y, max_x, max_y).
Definition bounds (l : list (stitch Q)) : sides :=
  fold_left bounds_step l (None, None, None, None).

(* EmbPattern.py 484-487 *)
Definition translate (dx dy : Q) (l : list (stitch Q)) : list (stitch Q) :=
  map (fun s => mkS (sx s + dx)%Q (sy s + dy)%Q (scmd s)) l.

(** EmbPattern.py 478-482.  On an empty pattern the sum of the two infinities is nan and
    round(nan) raises ValueError. *)
Definition move_center_to_origin (l : list (stitch Q)) : res (list (stitch Q)) :=
  match bounds l with
  | (Some x0, Some y0, Some x1, Some y1) =>
      let cx := q_round ((x1 + x0) / 2)%Q in
      let cy := q_round ((y1 + y0) / 2)%Q in
      Ok (translate (inject_Z (- cx)) (inject_Z (- cy)) l)
  | _ => Err ValueError
  end.

(** ** Counting, blocks *)

(* EmbPattern.py 347-353 *)
Definition count_stitch_commands {C} (command : Z) (l : list (stitch C)) : Z :=
  fold_left (fun n s => if cmd_of (scmd s) =? command then n + 1 else n) l 0.

(** EmbPattern.py 374-378: [filler i] is the random thread made for index [i]. *)
Definition get_thread_or_filler {T} (filler : Z -> T) (threads : list T) (i : Z) : T :=
  match nth_error threads (Z.to_nat i) with Some t => t | None => filler i end.

(** EmbPattern.py 389-405: the generator as the list of what it yields. *)
Fixpoint stitchblocks {T C} (get : Z -> T) (block : list (stitch C)) (thread : T)
    (thread_index : Z) (l : list (stitch C)) : list (list (stitch C) * T) :=
  match l with
  | [] => if 0 <? zlen block then [(block, thread)] else []
  | s :: r =>
      let flags := cmd_of (scmd s) in
      if flags =? STITCH then stitchblocks get (block ++ [s]) thread thread_index r
      else
        (if 0 <? zlen block then [(block, thread)] else [])
        ++ (if flags =? COLOR_CHANGE
            then stitchblocks get [] (get thread_index) (thread_index + 1) r
            else stitchblocks get [] thread thread_index r)
  end.
Definition get_as_stitchblock {T C} (get : Z -> T) (l : list (stitch C)) :=
  stitchblocks get [] (get 0) 1 l.

(** Python's slice [l[a:b]] for 0 <= a <= b. *)
Definition py_slice {A} (a b : Z) (l : list A) : list A :=
  firstn (Z.to_nat (b - a)) (skipn (Z.to_nat a) l).

(** EmbPattern.py 407-418.  [r] is what enumerate has not yet delivered, [pos] its index. *)
Fixpoint command_blocks {C} (l : list (stitch C)) (last_pos last_command pos : Z)
    (r : list (stitch C)) : list (list (stitch C)) :=
  match r with
  | [] => [skipn (Z.to_nat last_pos) l]
  | s :: r =>
      let command := cmd_of (scmd s) in
      if (command =? last_command) || (last_command =? NO_COMMAND)
      then command_blocks l last_pos command (pos + 1) r
      else py_slice last_pos pos l :: command_blocks l pos command (pos + 1) r
  end.
Definition get_as_command_blocks {C} (l : list (stitch C)) : list (list (stitch C)) :=
  command_blocks l 0 NO_COMMAND 0 l.

(** EmbPattern.py 420-454, likewise. *)
Fixpoint colorblocks {T C} (get : Z -> T) (l : list (stitch C)) (thread_index start pos : Z)
    (r : list (stitch C)) : list (list (stitch C) * T) :=
  match r with
  | [] => if negb (start =? zlen l) then [(skipn (Z.to_nat start) l, get thread_index)] else []
  | s :: r =>
      let command := cmd_of (scmd s) in
      if command =? COLOR_BREAK then
        if negb (start =? pos)
        then (py_slice start pos l, get thread_index)
             :: colorblocks get l (thread_index + 1) (pos + 1) (pos + 1) r
        else colorblocks get l thread_index (pos + 1) (pos + 1) r
      else if command =? COLOR_CHANGE then
        (py_slice start (pos + 1) l, get thread_index)
        :: colorblocks get l (thread_index + 1) (pos + 1) (pos + 1) r
      else if (command =? NEEDLE_SET) && negb (start =? pos) then
        (py_slice start pos l, get thread_index)
        :: colorblocks get l (thread_index + 1) pos (pos + 1) r
      else colorblocks get l thread_index start (pos + 1) r
  end.
Definition get_as_colorblocks {T C} (get : Z -> T) (l : list (stitch C)) :=
  colorblocks get l 0 0 0 l.

(* EmbPattern.py 493-504: the number of sewn colour sections *)
Fixpoint count_sections {C} (thread_index : Z) (init_color : bool) (l : list (stitch C)) : Z :=
  match l with
  | [] => thread_index
  | s :: r =>
      if sews (scmd s) then
        if init_color then count_sections (thread_index + 1) false r
        else count_sections thread_index init_color r
      else if changes (scmd s) then count_sections thread_index true r
      else count_sections thread_index init_color r
  end.
(** EmbPattern.py 505-506: the while loop adds the random thread of index
    [len(threadlist)] until there are enough; [n] is how many rounds it makes. *)
Fixpoint add_fillers {T} (filler : Z -> T) (n : nat) (threads : list T) : list T :=
  match n with
  | O => threads
  | S n => add_fillers filler n (threads ++ [get_thread_or_filler filler threads (zlen threads)])
  end.
Definition fix_color_count {T C} (filler : Z -> T) (l : list (stitch C)) (threads : list T)
    : list T :=
  let thread_index := count_sections 0 true l in
  add_fillers filler (Z.to_nat (thread_index - zlen threads)) threads.

(** ** Insertion *)

(* EmbPattern.py 508-518 *)
Definition add_stitch_absolute {T C} (cmd : Z) (x y : C) (p : pattern T C) : pattern T C :=
  mkP (p_stitches p ++ [mkS x y cmd]) (p_threads p) x y.
Definition add_stitch_relative {T} (cmd : Z) (dx dy : Q) (p : pattern T Q) : pattern T Q :=
  add_stitch_absolute cmd (p_x p + dx)%Q (p_y p + dy)%Q p.

(** EmbPattern.py 520-536.  [position is None] cannot be reached: None < 0 raises. *)
Definition insert_stitch_relative {T} (position cmd : Z) (dx dy : Q) (p : pattern T Q)
    : res (pattern T Q) :=
  let l := p_stitches p in
  let position := if position <? 0 then position + zlen l else position in
  if position =? 0 then
    Ok (mkP (py_insert 0 (mkS dx dy cmd) l) (p_threads p) (p_x p) (p_y p))
  else if position =? zlen l then Ok (add_stitch_relative cmd dx dy p)
  else if (0 <? position) && (position <? zlen l) then
    do q <- py_index (position - 1) l;
    Ok (mkP (py_insert position (mkS (sx q + dx)%Q (sy q + dy)%Q cmd) l)
            (p_threads p) (p_x p) (p_y p))
  else Ok p.

(** ** Interpolations *)

(** [self.stitches[k][2] = c] *)
Definition set_command {C} (k : Z) (c : Z) (l : list (stitch C)) : list (stitch C) :=
  match nth_error l (Z.to_nat k) with
  | None => l
  | Some s => firstn (Z.to_nat k) l ++ mkS (sx s) (sy s) c :: skipn (S (Z.to_nat k)) l
  end.

(** EmbPattern.py 654-679.  [r] is what enumerate has not yet delivered; only commands
    already delivered are rewritten, so reading them from [r] is reading the live list. *)
Fixpoint duplicate_as_stop {T C} (teq : T -> T -> bool) (ss : list (stitch C)) (threads : list T)
    (thread_index : Z) (init_color : bool) (last_change : option Z) (pos : Z)
    (r : list (stitch C)) : list (stitch C) * list T :=
  match r with
  | [] => (ss, threads)
  | s :: r =>
      if sews (scmd s) then
        if init_color then
          match last_change with
          | Some k =>
              if thread_index =? 0
              then duplicate_as_stop teq ss threads (thread_index + 1) false last_change (pos + 1) r
              else
                match py_index (thread_index - 1) threads with
                | Err _ => (ss, threads)
                | Ok a =>
                    match py_index thread_index threads with
                    | Err _ => (ss, threads)
                    | Ok b =>
                        if teq a b
                        then duplicate_as_stop teq (set_command k STOP ss)
                               (py_del thread_index (thread_index + 1) threads)
                               thread_index false last_change (pos + 1) r
                        else duplicate_as_stop teq ss threads (thread_index + 1) false last_change
                               (pos + 1) r
                    end
                end
          | None => duplicate_as_stop teq ss threads (thread_index + 1) false last_change (pos + 1) r
          end
        else duplicate_as_stop teq ss threads thread_index init_color last_change (pos + 1) r
      else if changes (scmd s)
      then duplicate_as_stop teq ss threads thread_index true (Some pos) (pos + 1) r
      else duplicate_as_stop teq ss threads thread_index init_color last_change (pos + 1) r
  end.
Definition interpolate_duplicate_color_as_stop {T C} (teq : T -> T -> bool)
    (l : list (stitch C)) (threads : list T) : list (stitch C) * list T :=
  duplicate_as_stop teq l threads 0 true None 0 l.

(* EmbPattern.py 681-697, likewise *)
Fixpoint stop_as_duplicate {T C} (change_command : Z) (ss : list (stitch C)) (threads : list T)
    (thread_index pos : Z) (r : list (stitch C)) : list (stitch C) * list T :=
  match r with
  | [] => (ss, threads)
  | s :: r =>
      if sews (scmd s) then stop_as_duplicate change_command ss threads thread_index (pos + 1) r
      else if changes (scmd s)
      then stop_as_duplicate change_command ss threads (thread_index + 1) (pos + 1) r
      else if cmd_of (scmd s) =? STOP then
        match py_index thread_index threads with
        | Err _ => (ss, threads)
        | Ok t =>
            stop_as_duplicate change_command (set_command pos change_command ss)
              (py_insert thread_index t threads) (thread_index + 1) (pos + 1) r
        end
      else stop_as_duplicate change_command ss threads thread_index (pos + 1) r
  end.
Definition interpolate_stop_as_duplicate_color {T C} (change_command : Z)
    (l : list (stitch C)) (threads : list T) : list (stitch C) * list T :=
  stop_as_duplicate change_command l threads 0 0 l.

(** EmbPattern.py 699-739: the state of the while loop.  [stop_x], [stop_y] and
    [sequence_start_position] are None in Python until they are set; using them before is
    the error value here. *)
Record eject_state (C : Type) := mkE {
  e_ss : list (stitch C);
  e_mode : Z;
  e_stop : option (C * C);
  e_start : option Z;
  e_position : Z;
  e_ie : Z }.
Arguments mkE {C}.
Arguments e_ss {C}.
Arguments e_mode {C}.
Arguments e_stop {C}.
Arguments e_start {C}.
Arguments e_position {C}.
Arguments e_ie {C}.

(* EmbPattern.py 721-725 and 736-739: del, then insert *)
Definition eject_replace {C} (st : eject_state C) : res (list (stitch C) * Z) :=
  match e_start st, e_stop st with
  | Some start, Some (x, y) =>
      Ok (py_insert start (mkS x y FRAME_EJECT) (py_del start (e_position st) (e_ss st)), start)
  | _, _ => Err TypeError
  end.
(* EmbPattern.py 709-734: one round *)
Definition eject_step {C} (st : eject_state C) : res (eject_state C) :=
  do s <- py_index (e_position st) (e_ss st);
  let data := cmd_of (scmd s) in
  if sews (scmd s) || changes (scmd s) then
    if e_mode st =? 3 then
      do ' (ss, position) <- eject_replace st;
      Ok (mkE ss 0 (e_stop st) (e_start st) (position + 1) (zlen ss))
    else Ok (mkE (e_ss st) 0 (e_stop st) (e_start st) (e_position st + 1) (e_ie st))
  else if data =? JUMP then
    let mode := if e_mode st =? 2 then 3 else e_mode st in
    if mode =? 0
    then Ok (mkE (e_ss st) 1 (e_stop st) (Some (e_position st)) (e_position st + 1) (e_ie st))
    else Ok (mkE (e_ss st) mode (e_stop st) (e_start st) (e_position st + 1) (e_ie st))
  else if data =? STOP then
    if e_mode st =? 1
    then Ok (mkE (e_ss st) 2 (Some (sx s, sy s)) (e_start st) (e_position st + 1) (e_ie st))
    else Ok (mkE (e_ss st) (e_mode st) (e_stop st) (e_start st) (e_position st + 1) (e_ie st))
  else Ok (mkE (e_ss st) (e_mode st) (e_stop st) (e_start st) (e_position st + 1) (e_ie st)).
Fixpoint eject_loop {C} (fuel : nat) (st : eject_state C) : res (eject_state C) :=
  if e_position st <? e_ie st then
    match fuel with
    | O => Err OutOfFuel
    | S fuel => do st <- eject_step st; eject_loop fuel st
    end
  else Ok st.
Definition interpolate_frame_eject {C} (fuel : nat) (l : list (stitch C)) : res (list (stitch C)) :=
  do st <- eject_loop fuel (mkE l 0 None None 0 (zlen l));
  if 2 <=? e_mode st then
    do ' (ss, position) <- eject_replace st; Ok ss
  else Ok (e_ss st).

(** EmbPattern.py 741-799: the state of the while loop. *)
Record trim_state := mkTr {
  r_ss : list (stitch Q);
  r_i : Z;
  r_ie : Z;
  r_x : Q;
  r_y : Q;
  r_count : Z;
  r_start : Z;
  r_dx : Q;
  r_dy : Q;
  r_jumping : bool;
  r_trimmed : bool }.

(** [self.trim(position=jump_start)], EmbPattern.py 264-269 and 520-536: the stitch list
    after inserting TRIM.  [jump_start] is never the end of the list here. *)
Definition trim_at (position : Z) (l : list (stitch Q)) : res (list (stitch Q)) :=
  do p <- insert_stitch_relative position TRIM 0%Q 0%Q (mkP (T := unit) l [] 0%Q 0%Q);
  Ok (p_stitches p).

(* EmbPattern.py 756-799: one round *)
Definition trim_step (jumps : option Z) (dist : option Q) (clipping : bool) (st : trim_state)
    : res trim_state :=
  let i := r_i st + 1 in
  do s <- py_index i (r_ss st);
  let dx := (sx s - r_x st)%Q in
  let dy := (sy s - r_y st)%Q in
  let x := sx s in
  let y := sy s in
  let command := cmd_of (scmd s) in
  let '(trimmed, jumping) :=
    if (command =? STITCH) || (command =? SEQUIN_EJECT) then (false, false)
    else if (command =? COLOR_CHANGE) || (command =? NEEDLE_SET) || (command =? TRIM)
    then (true, false)
    else (r_trimmed st, r_jumping st) in
  if command =? JUMP then
    let '(jump_dx, jump_dy, jump_count, jump_start) :=
      if jumping then (r_dx st, r_dy st, r_count st, r_start st) else (0%Q, 0%Q, 0, i) in
    let jump_count := jump_count + 1 in
    let jump_dx := (jump_dx + dx)%Q in
    let jump_dy := (jump_dy + dy)%Q in
    let required :=
      match jumps with Some n => jump_count =? n | None => false end
      || match dist with
         | Some d => q_gt (Qabs jump_dy) d || q_gt (Qabs jump_dx) d
         | None => false
         end in
    do ' (ss, jump_start, i, ie, trimmed) <-
      (if negb trimmed && required then
         do ss <- trim_at jump_start (r_ss st);
         Ok (ss, jump_start + 1, i + 1, r_ie st + 1, true)
       else Ok (r_ss st, jump_start, i, r_ie st, trimmed));
    if clipping && Qeq_bool jump_dx 0 && Qeq_bool jump_dy 0 then
      let ss := py_del jump_start (i + 1) ss in
      Ok (mkTr ss (jump_start - 1) (zlen ss - 1) x y jump_count jump_start jump_dx jump_dy true trimmed)
    else Ok (mkTr ss i ie x y jump_count jump_start jump_dx jump_dy true trimmed)
  else Ok (mkTr (r_ss st) i (r_ie st) x y (r_count st) (r_start st) (r_dx st) (r_dy st) jumping trimmed).
Fixpoint trim_loop (jumps : option Z) (dist : option Q) (clipping : bool) (fuel : nat)
    (st : trim_state) : res trim_state :=
  if r_i st <? r_ie st then
    match fuel with
    | O => Err OutOfFuel
    | S fuel => do st <- trim_step jumps dist clipping st; trim_loop jumps dist clipping fuel st
    end
  else Ok st.
Definition interpolate_trims (jumps : option Z) (dist : option Q) (clipping : bool) (fuel : nat)
    (l : list (stitch Q)) : res (list (stitch Q)) :=
  do st <- trim_loop jumps dist clipping fuel
             (mkTr l (-1) (zlen l - 1) 0%Q 0%Q 0 0 0%Q 0%Q false true);
  Ok (r_ss st).

(** EmbPattern.py 801-836.  Outer loop; [skip_jumps] is the inner loop (lines 824-827),
    returning the new [i], [count] and the command it stopped at (not masked, line 826). *)
Fixpoint skip_jumps {C} (fuel : nat) (l : list (stitch C)) (i ie count command : Z)
    : res (Z * Z * Z) :=
  if (i <? ie) && (command =? JUMP) then
    match fuel with
    | O => Err OutOfFuel
    | S fuel =>
        do s <- py_index (i + 1) l;
        skip_jumps fuel l (i + 1) ie (count + 1) (scmd s)
    end
  else Ok (i, count, command).
Fixpoint interpolate_trim_loop {T} (fuel : nat) (jumps : Z) (l : list (stitch Q)) (i ie : Z)
    (trimmed : bool) (out : pattern T Q) : res (pattern T Q) :=
  if i <? ie then
    match fuel with
    | O => Err OutOfFuel
    | S fuel =>
        let i := i + 1 in
        do s <- py_index i l;
        let command := cmd_of (scmd s) in
        let trimmed :=
          if (command =? STITCH) || (command =? SEQUIN_EJECT) then false
          else if (command =? COLOR_CHANGE) || (command =? NEEDLE_SET) || (command =? TRIM)
          then true else trimmed in
        if trimmed || negb (scmd s =? JUMP)
        then interpolate_trim_loop fuel jumps l i ie trimmed
               (add_stitch_absolute (scmd s) (sx s) (sy s) out)
        else
          do ' (i, count, command) <- skip_jumps fuel l i ie 0 command;
          let i := if negb (command =? JUMP) then i - 1 else i in
          do s <- py_index i l;
          let out := if jumps <=? count then add_stitch_relative TRIM 0%Q 0%Q out else out in
          interpolate_trim_loop fuel jumps l i ie trimmed
            (add_stitch_absolute (scmd s) (sx s) (sy s) out)
    end
  else Ok out.
Definition get_pattern_interpolate_trim {T} (fuel : nat) (jumps : Z) (p : pattern T Q)
    : res (pattern T Q) :=
  do out <- interpolate_trim_loop fuel jumps (p_stitches p) (-1) (zlen (p_stitches p) - 1) true
              (mkP [] [] 0%Q 0%Q);
  Ok (mkP (p_stitches out) (p_threads out ++ p_threads p) (p_x out) (p_y out)).

(** EmbPattern.py 838-857.  The index loop reads the list once in order. *)
Fixpoint merge_jumps {T} (stitch_break : bool) (l : list (stitch Q)) (out : pattern T Q)
    : pattern T Q :=
  match l with
  | [] => out
  | s :: r =>
      if cmd_of (scmd s) =? JUMP then
        if stitch_break then merge_jumps stitch_break r out
        else merge_jumps true r
               (mkP (p_stitches out ++ [mkS 0%Q 0%Q STITCH_BREAK]) (p_threads out) (p_x out) (p_y out))
      else merge_jumps stitch_break r (add_stitch_absolute (scmd s) (sx s) (sy s) out)
  end.
Definition get_pattern_merge_jumps {T} (p : pattern T Q) : pattern T Q :=
  let out := merge_jumps false (p_stitches p) (mkP [] [] 0%Q 0%Q) in
  mkP (p_stitches out) (p_threads out ++ p_threads p) (p_x out) (p_y out).

(** EmbPattern.py 583-597 and 859-865.  [same] is Python's identity test of thread
    objects. *)
Definition add_stitchblock {T} (same : T -> T -> bool) (p : pattern T Q)
    (block : list (stitch Q) * T) : pattern T Q :=
  let thread := snd block in
  let new := match rev (p_threads p) with [] => true | t :: _ => negb (same thread t) end in
  let p := if new
           then add_stitch_relative COLOR_BREAK 0%Q 0%Q
                  (mkP (p_stitches p) (p_threads p ++ [thread]) (p_x p) (p_y p))
           else add_stitch_relative SEQUENCE_BREAK 0%Q 0%Q p in
  fold_left (fun p s => add_stitch_absolute (scmd s) (sx s) (sy s) p) (fst block) p.
Definition get_stable_pattern {T} (same : T -> T -> bool) (get : Z -> T) (p : pattern T Q)
    : pattern T Q :=
  fold_left (add_stitchblock same) (get_as_stitchblock get (p_stitches p)) (mkP [] [] 0%Q 0%Q).
