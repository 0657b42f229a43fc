(** pyembroidery/JefWriter.py and JefReader.py. *)
From Coq Require Import ZArith List Bool.
From Verif Require Import PyBase EmbConst StreamModel HelperModel.
Import ListNotations.
Open Scope Z_scope.

(** JefWriter.py 149-169: the loop after the quantisation.  b"..." * n is empty for n <= 0. *)
Fixpoint jef_loop (trims : bool) (command_count_max : Z) (l : list rel) : list Z :=
  match l with
  | [] => [0x80; 0x10]
  | e :: r =>
      let data := cmd_of (scmd e) in
      let dx := sx e in
      let dy := sy e in
      let rest := jef_loop trims command_count_max r in
      if data =? STITCH then write_int_8 dx ++ write_int_8 (- dy) ++ rest
      else if (data =? COLOR_CHANGE) || (data =? STOP) then
        [0x80; 0x01] ++ write_int_8 dx ++ write_int_8 (- dy) ++ rest
      else if data =? TRIM then
        (if trims then concat (repeat [0x80; 0x02; 0; 0] (Z.to_nat command_count_max)) else [])
        ++ rest
      else if data =? JUMP then [0x80; 0x02] ++ write_int_8 dx ++ write_int_8 (- dy) ++ rest
      else if data =? END then [0x80; 0x10]
      else rest
  end.

Definition jef_body {C} (qz : C -> Z -> Z) (trims : bool) (count_max : Z) (l : list (stitch C)) : list Z :=
  jef_loop trims count_max (quantise qz 0 0 l).

(** JefReader.py 5-37.  State: the thread list (None marks a stop) and color_index.
    out.threadlist[color_index] raises IndexError when out of range;
    "del out.threadlist[i]" removes that element.  Result: events and final thread list. *)
Fixpoint remove_nth {A} (n : nat) (l : list A) : list A :=
  match n, l with
  | O, _ :: r => r
  | S n, a :: r => a :: remove_nth n r
  | _, [] => []
  end.

Fixpoint jef_read_loop {T} (threads : list (option T)) (color_index : nat) (s : list Z)
  : res (list rel * list (option T)) :=
  match s with
  | b0 :: b1 :: r =>
      if negb (b0 =? 0x80) then
        do '(t, th) <- jef_read_loop threads color_index r;
        Ok (mkS (signed8 b0) (- signed8 b1) STITCH :: t, th)
      else
        match r with
        | c0 :: c1 :: r' =>
            let x := signed8 c0 in
            let y := - signed8 c1 in
            if b1 =? 0x02 then
              do '(t, th) <- jef_read_loop threads color_index r';
              Ok (mkS x y JUMP :: t, th)
            else if b1 =? 0x01 then
              match nth_error threads color_index with
              | None => Err IndexError
              | Some None =>
                  do '(t, th) <- jef_read_loop (remove_nth color_index threads) color_index r';
                  Ok (mkS 0 0 STOP :: t, th)
              | Some (Some _) =>
                  do '(t, th) <- jef_read_loop threads (S color_index) r';
                  Ok (mkS 0 0 COLOR_CHANGE :: t, th)
              end
            else Ok ([], threads)
        | _ => Ok ([], threads)
        end
  | _ => Ok ([], threads)
  end.

(** JefReader.py 5-37 (trim interpolation of lines 39-52 is in the pattern model). *)
Definition jef_read_stitches {T} (threads : list (option T)) (s : list Z)
  : res (list (stitch Z) * list (option T)) :=
  do '(l, th) <- jef_read_loop threads 1 s;
  Ok (apply_rel 0 0 (l ++ [mkS 0 0 END]), th).

(** JefWriter.py 36-69: the palette.  [near t] is thread.find_nearest_color_index(jef_threads)
    and [near2 t i] the same search with entry i blanked out (lines 51-58); [teq] is
    thread equality.  IndexError when pattern.threadlist is too short. *)
Fixpoint jef_palette {T} (teq : T -> T -> bool) (near : T -> Z) (near2 : T -> Z -> Z)
    (last : option (Z * T)) (toggled : bool) (rest : list T) (started : bool)
    (cmds : list Z) : res (list Z) :=
  match cmds with
  | [] => Ok []
  | flags :: cmds =>
      if (flags =? COLOR_CHANGE) || negb started then
        match rest with
        | [] => Err IndexError
        | thread :: rest =>
            let i := near thread in
            let i := match last with
                     | Some (li, lt) => if (li =? i) && negb (teq lt thread) then near2 thread i else i
                     | None => i
                     end in
            if flags =? STOP then
              do p <- jef_palette teq near near2 (Some (i, thread)) true rest true cmds;
              Ok (i :: 0 :: p)
            else
              do p <- jef_palette teq near near2 (Some (i, thread)) false rest true cmds;
              Ok (i :: p)
        end
      else if flags =? STOP then
        let toggled := negb toggled in
        do p <- jef_palette teq near near2 last toggled rest started cmds;
        Ok ((if toggled then 0 else match last with Some (i, _) => i | None => 0 end) :: p)
      else jef_palette teq near near2 last toggled rest started cmds
  end.

(** JefWriter.py 32-40, 42-69 starting state.  color_count is the palette's length: both are
    incremented together (lines 49/59 and 64/67,69). *)
Definition jef_write_palette {C T} (teq : T -> T -> bool) (near : T -> Z) (near2 : T -> Z -> Z)
    (threads : list T) (l : list (stitch C)) : res (list Z) :=
  jef_palette teq near near2 None false threads false (map (fun s => cmd_of (scmd s)) l).

(** JefWriter.py 79-92. *)
Fixpoint jef_point_count (trims : bool) (count_max : Z) (cmds : list Z) : Z :=
  match cmds with
  | [] => 0
  | data :: r =>
      if data =? STITCH then 1 + jef_point_count trims count_max r
      else if data =? JUMP then 2 + jef_point_count trims count_max r
      else if data =? TRIM then
        (if trims then 2 * count_max else 0) + jef_point_count trims count_max r
      else if (data =? COLOR_CHANGE) || (data =? STOP) then 2 + jef_point_count trims count_max r
      else if data =? END then 0
      else jef_point_count trims count_max r
  end.

(* JefWriter.py 172-181 *)
Definition get_jef_hoop_size (width height : Z) : Z :=
  if (width <? 500) && (height <? 500) then 1
  else if (width <? 1260) && (height <? 1100) then 3
  else if (width <? 1400) && (height <? 2000) then 2
  else if (width <? 2000) && (height <? 2000) then 4
  else 0.

(* JefWriter.py 184-194 *)
Definition write_hoop_edge_distance (x y : Z) : list Z :=
  if Z.min x y >=? 0
  then write_int_32le x ++ write_int_32le y ++ write_int_32le x ++ write_int_32le y
  else write_int_32le (-1) ++ write_int_32le (-1) ++ write_int_32le (-1) ++ write_int_32le (-1).

(** JefWriter.py 72-137.  [date] is the UTF-8 date string (14 bytes by default);
    [width], [height], [half_width], [half_height] are the rounded sizes of lines 94-99. *)
Definition jef_header (palette : list Z) (date : list Z) (point_count width height half_width half_height : Z)
  : list Z :=
  let color_count := Z.of_nat (length palette) in
  write_int_32le (0x74 + color_count * 8)
  ++ write_int_32le 0x14
  ++ date ++ write_int_8 0 ++ write_int_8 0
  ++ write_int_32le color_count
  ++ write_int_32le point_count
  ++ write_int_32le (get_jef_hoop_size width height)
  ++ write_int_32le half_width ++ write_int_32le half_height
  ++ write_int_32le half_width ++ write_int_32le half_height
  ++ write_hoop_edge_distance (550 - half_width) (550 - half_height)
  ++ write_hoop_edge_distance (250 - half_width) (250 - half_height)
  ++ write_hoop_edge_distance (700 - half_width) (1000 - half_height)
  ++ write_hoop_edge_distance (700 - half_width) (1000 - half_height)
  ++ flat_map write_int_32le palette
  ++ concat (repeat (write_int_32le 0x0D) (length palette)).

(** JefWriter.py 21-169. *)
Definition jef_write {C T} (qz : C -> Z -> Z) (teq : T -> T -> bool) (near : T -> Z)
    (near2 : T -> Z -> Z) (trims : bool) (count_max : Z) (date : list Z)
    (width height half_width half_height : Z) (threads : list T) (l : list (stitch C))
  : res (list Z) :=
  do palette <- jef_write_palette teq near near2 threads l;
  Ok (jef_header palette date
        (1 + jef_point_count trims count_max (map (fun s => cmd_of (scmd s)) l))
        width height half_width half_height
      ++ jef_body qz trims count_max l).

(** JefReader.py 62-68: the colour table.  abs(read_int_32le) is the unsigned value; None
    (end of file) raises TypeError. *)
Fixpoint jef_read_colors {T} (thread_of : Z -> T) (n : nat) (s : list Z) : res (list (option T)) :=
  match n with
  | O => Ok []
  | S n => match read_int_32le s with
           | (None, _) => Err TypeError
           | (Some i, r) =>
               do t <- jef_read_colors thread_of n r;
               Ok ((if Z.abs i =? 0 then None else Some (thread_of (Z.abs i))) :: t)
           end
  end.

(** JefReader.py 55-71: seek(20,1) after the first 4 bytes, seek(88,1) after the count, then
    absolute seek to the stitch offset. [thread_of i] is jef_threads[i % len(jef_threads)]. *)
Definition jef_read {T} (thread_of : Z -> T) (file : list Z) : res (list (stitch Z) * list (option T)) :=
  match read_int_32le file, read_int_32le (skipn 24 file) with
  | (Some offset, _), (Some count, _) =>
      do threads <- jef_read_colors thread_of (Z.to_nat count) (skipn 116 file);
      jef_read_stitches threads (skipn (Z.to_nat offset) file)
  | (_, _), (None, _) => Err TypeError        (* range(0, None) *)
  | (None, _), _ => Err TypeError             (* f.seek(None, 0) *)
  end.
