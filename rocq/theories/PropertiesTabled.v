(** Property C199: which threads the colour sections of a PES or PEC file are sewn with. *)
From Coq Require Import Ascii String.
From Coq Require Import ZArith List Bool Lia Arith.
From Verif Require Import PyBase BitLemmas EmbConst HelperModel ThreadModel PatternModel Vp3Model PecModel PecFileModel PesModel ReadableSpec ReadableProofs ReadableMoreProofs.
Import ListNotations.
Open Scope Z_scope.

(** The palette thread with number [c]; number 0 is unused and stands for black. *)
Definition palette (c : Z) : thread := added (nth (Z.to_nat c) pec_threads None).
(** The numbers that occur, each once, in the order of their first occurrence. *)
Fixpoint firsts (cs : list Z) : list Z :=
  match cs with [] => [] | c :: r => c :: filter (fun d => negb (d =? c)) (firsts r) end.
(** The place of [c] in a list. *)
Fixpoint place (c : Z) (l : list Z) : nat :=
  match l with [] => O | d :: r => if d =? c then O else S (place c r) end.
(** The threads of the sections with the palette numbers [cs], when the file names the threads
    [chart]: with no named threads, those of the palette; with a named thread for every section, the
    named ones as they stand; otherwise sections with the same number have the same thread, and the
    named threads go to the different numbers in the order in which these first occur, the palette
    serving the numbers for which none is left. *)
Definition section_threads (cs : list Z) (chart : list thread) : list thread :=
  match chart with
  | [] => map palette cs
  | _ => if Nat.leb (List.length cs) (List.length chart) then chart
         else map (fun c => nth (place c (firsts cs)) chart (palette c)) cs
  end.

Lemma place_in c l m : In c l -> place c (l ++ m) = place c l.
Proof.
  induction l as [|d l IH]; intros H; [destruct H|]. cbn [app place]. destruct (Z.eqb_spec d c); [reflexivity|].
  f_equal. apply IH. destruct H; [contradiction|assumption].
Qed.
Lemma place_out c l m : ~ In c l -> place c (l ++ c :: m) = List.length l.
Proof.
  induction l as [|d l IH]; intros H; cbn [app place List.length]; [rewrite Z.eqb_refl; reflexivity|].
  destruct (Z.eqb_spec d c) as [->|_]; [exfalso; apply H; left; reflexivity|]. f_equal. apply IH. intros I. apply H. right. exact I.
Qed.
Definition outside (seen : list Z) (d : Z) : bool := negb (existsb (Z.eqb d) seen).
Lemma outside_in c l : outside l c = false <-> In c l.
Proof.
  unfold outside. rewrite negb_false_iff, existsb_exists. split.
  - intros (d & H & E). apply Z.eqb_eq in E. subst. exact H.
  - intros H. exists c. split; [exact H|apply Z.eqb_refl].
Qed.
Lemma filter_filter {A} (f g : A -> bool) l : filter f (filter g l) = filter (fun a => g a && f a) l.
Proof.
  induction l as [|a l IH]; [reflexivity|]. cbn [filter]. destruct (g a) eqn:G; cbn [andb filter]; [destruct (f a)|]; rewrite IH; reflexivity.
Qed.

Lemma skipn_S {A} (l : list A) : forall n, skipn (S n) l = tl (skipn n l).
Proof. induction l as [|a l IH]; intros [|n]; try reflexivity. change (skipn (S n) l = tl (skipn n l)). apply IH. Qed.

Section Table.
Variable chart : list thread.
(** the thread, if any, of number [c] when the numbers were first seen in the order [o] *)
Let value (o : list Z) (c : Z) : option thread :=
  match nth_error chart (place c o) with Some t => Some t | None => nth (Z.to_nat c) pec_threads None end.

Lemma table_spec bytes : forall seen known,
  (forall c, match find (fun k => fst k =? c) known with
             | Some (_, t) => In c seen /\ t = value seen c
             | None => ~ In c seen end) ->
  let cs := map (fun b => b mod zlen pec_threads) bytes in
  process_pec_table bytes (skipn (List.length seen) chart) known = map (value (seen ++ filter (outside seen) (firsts cs))) cs.
Proof.
  induction bytes as [|b r IH]; intros seen known K cs; [reflexivity|]. subst cs. cbn [process_pec_table map].
  set (c := b mod zlen pec_threads) in *. pose proof (K c) as Kc.
  destruct (outside seen c) eqn:Oc.
  - (* a new number *)
    assert (Nc : ~ In c seen) by (intros I; apply outside_in in I; congruence).
    destruct (find (fun k => fst k =? c) known) as [[k t]|] eqn:Ef; [exfalso; tauto|].
    assert (F : seen ++ filter (outside seen) (firsts (c :: map (fun b => b mod zlen pec_threads) r))
      = (seen ++ [c]) ++ filter (outside (seen ++ [c])) (firsts (map (fun b => b mod zlen pec_threads) r))).
    { cbn [firsts filter]. rewrite Oc, <- app_assoc. cbn [app]. do 2 f_equal. rewrite filter_filter. apply filter_ext. intros d.
      unfold outside. rewrite existsb_app. cbn [existsb]. rewrite orb_false_r, negb_orb, andb_comm. reflexivity. }
    rewrite F.
    assert (V : forall m, value ((seen ++ [c]) ++ m) c = match skipn (List.length seen) chart with
        | t :: _ => Some t | [] => nth (Z.to_nat c) pec_threads None end).
    { intros m. unfold value. rewrite <- app_assoc. cbn [app]. rewrite place_out by exact Nc.
      replace (nth_error chart (List.length seen)) with (hd_error (skipn (List.length seen) chart)); [destruct (skipn (List.length seen) chart); reflexivity|].
      generalize (List.length seen). clear. intros n. revert n. induction chart as [|a l IH]; intros [|n]; cbn [skipn nth_error hd_error]; auto. }
    assert (Next : skipn (List.length (seen ++ [c])) chart = tl (skipn (List.length seen) chart)).
    { rewrite app_length. cbn [List.length]. rewrite Nat.add_1_r. apply skipn_S. }
    assert (Step : forall t, t = value (seen ++ [c]) c -> forall d, match find (fun k => fst k =? d) ((c, t) :: known) with
        | Some (_, t') => In d (seen ++ [c]) /\ t' = value (seen ++ [c]) d | None => ~ In d (seen ++ [c]) end).
    { intros t Et d. cbn [find fst]. destruct (Z.eqb_spec c d) as [<-|Ncd].
      - split; [apply in_or_app; right; left; reflexivity|exact Et].
      - specialize (K d). destruct (find (fun k => fst k =? d) known) as [[k' t']|].
        + destruct K as [K1 ->]. split; [apply in_or_app; left; exact K1|]. unfold value. rewrite place_in by exact K1. reflexivity.
        + intros I. apply in_app_or in I. destruct I as [I|[I|[]]]; [exact (K I)|exact (Ncd I)]. }
    specialize (IH (seen ++ [c])). rewrite Next in IH.
    pose proof (V (filter (outside (seen ++ [c])) (firsts (map (fun b => b mod zlen pec_threads) r)))) as V1.
    pose proof (V []) as V2. rewrite app_nil_r in V2.
    destruct (skipn (List.length seen) chart) as [|t0 rest] eqn:Es; cbn [tl] in IH; rewrite V1; f_equal;
      (apply IH; apply Step; symmetry; exact V2).
  - (* a number already seen *)
    assert (Ic : In c seen) by (apply outside_in; exact Oc).
    destruct (find (fun k => fst k =? c) known) as [[k t]|] eqn:Ef; [|contradiction]. destruct Kc as [_ Et].
    assert (F : filter (outside seen) (firsts (c :: map (fun b => b mod zlen pec_threads) r))
      = filter (outside seen) (firsts (map (fun b => b mod zlen pec_threads) r))).
    { cbn [firsts filter]. rewrite Oc, filter_filter. apply filter_ext. intros d. destruct (Z.eqb_spec d c) as [->|_]; [rewrite Oc|]; reflexivity. }
    rewrite F. assert (V : forall m, value (seen ++ m) c = t) by (intros m; unfold value in *; rewrite place_in by exact Ic; congruence).
    rewrite V. destruct t as [t|]; [f_equal; apply IH; exact K|].
    assert (Z0 : skipn (List.length seen) chart = []).
    { unfold value in Et. destruct (nth_error chart (place c seen)) eqn:En; [discriminate|]. apply nth_error_None in En.
      apply skipn_all2. assert (P : (place c seen < List.length seen)%nat).
      { clear - Ic. induction seen as [|d s IH]; [destruct Ic|]. cbn [place List.length]. destruct (Z.eqb_spec d c); [lia|].
        destruct Ic as [E|I]; [contradiction|]. specialize (IH I). lia. }
      lia. }
    rewrite Z0 in *. f_equal; [unfold value in Et; destruct (nth_error chart (place c seen)); [discriminate|congruence]|].
    specialize (IH seen ((c, nth (Z.to_nat c) pec_threads None) :: known)). rewrite Z0 in IH. apply IH.
    intros d. cbn [find fst]. destruct (Z.eqb_spec c d) as [<-|Ncd]; [|apply K]. split; [exact Ic|].
    rewrite <- Et. unfold value in Et. destruct (nth_error chart (place c seen)); [discriminate|congruence].
Qed.
End Table.

Lemma mapped bytes chart : map added (map_pec_colors bytes chart) = section_threads (map (fun b => b mod zlen pec_threads) bytes) chart.
Proof.
  unfold map_pec_colors, section_threads. destruct chart as [|t chart].
  - unfold process_pec_colors. rewrite !map_map. reflexivity.
  - set (ch := t :: chart). rewrite map_length. destruct (Nat.leb_spec (List.length bytes) (List.length ch)) as [L|L].
    + destruct (Z.leb_spec (zlen bytes) (zlen ch)); [|unfold zlen in *; lia]. rewrite map_map. apply map_id.
    + destruct (Z.leb_spec (zlen bytes) (zlen ch)); [unfold zlen in *; lia|].
      pose proof (table_spec ch bytes [] []) as T. cbn [List.length skipn app] in T. rewrite T by (intros c; cbn; tauto).
      set (cs := map (fun b => b mod zlen pec_threads) bytes).
      assert (F : filter (outside []) (firsts cs) = firsts cs) by (induction (firsts cs) as [|a l IH]; [reflexivity|cbn; rewrite IH; reflexivity]).
      rewrite F, map_map. apply map_ext. intros c. unfold palette.
      generalize (nth (Z.to_nat c) pec_threads None). intros d. generalize (place c (firsts cs)). intros n.
      destruct (nth_error ch n) eqn:En; [symmetry; apply nth_error_nth; exact En|].
      rewrite nth_overflow by (apply nth_error_None; exact En). reflexivity.
Qed.

(** For every file and every stitch section in it: when the section is read, the number of sections
    follows from the byte 48, the palette numbers stand in the bytes from 49, and the threads of the
    pattern are as specified. *)
Theorem C199_section_threads : forall file here bytes chart stitches threads m,
  a_file bytes ->
  read_pec file (here, bytes) chart = Ok (stitches, threads, m) ->
  exists n, nth_error bytes 48 = Some n /\
    threads = section_threads (map (fun b => b mod 65) (firstn (Z.to_nat (n + 1)) (skipn 49 bytes))) chart.
Proof.
  intros file p rest chart stitches threads m F. unfold read_pec.
  destruct (seek_is 3 p rest) as (q1 & ->). destruct (string_is 16 q1 (skipn (Z.to_nat 3) rest) ltac:(lia)) as (t & q2 & ->).
  destruct (seek_is 15 q2 (skipn (Z.to_nat 16) (skipn (Z.to_nat 3) rest))) as (q3 & ->).
  rewrite !skip_skip. destruct (int8_is q3 (skipn (Z.to_nat 3 + (Z.to_nat 16 + Z.to_nat 15)) rest)) as (q4 & E4).
  replace (Z.to_nat 3 + Z.to_nat 16 + Z.to_nat 15)%nat with (Z.to_nat 3 + (Z.to_nat 16 + Z.to_nat 15))%nat by lia. rewrite E4. clear E4.
  match goal with |- context [s_int read_int_8 (q4, ?s)] => destruct (int8_is q4 s) as (q5 & ->) end.
  match goal with |- context [s_seek 12 (q5, ?s)] => destruct (seek_is 12 q5 s) as (q6 & ->) end.
  match goal with |- context [s_int read_int_8 (q6, ?s)] => destruct (int8_is q6 s) as (q7 & ->) end.
  rewrite !skip_skip.
  repeat match goal with |- context [skipn ?k rest] => let k' := eval vm_compute in k in progress change (skipn k rest) with (skipn k' rest) end.
  destruct (Z.ltb_spec (zlen (skipn 48 rest)) 1) as [A|A]; [discriminate|].
  cbn [some bindr]. set (cc := at_ 0 (skipn 48 rest)).
  assert (C : 0 <= cc < 256) by (apply file_at, file_skip, F).
  destruct (read_is (cc + 1) q7 (skipn 49 rest) ltac:(lia)) as (q8 & ->).
  match goal with |- context [s_seek ?n (q8, ?s)] => destruct (seek_is n q8 s) as (q9 & ->) end.
  destruct (s_int read_int_24le _) as [[v|] f]; [|discriminate]. cbn [some bindr].
  destruct (some _) as [st|]; [|discriminate]. cbn [bindr]. destruct (some _) as [ht|]; [|discriminate]. cbn [bindr].
  destruct (read_pec_graphics _ _ _ _ _ _) as [g|]; [|discriminate]. cbn [bindr]. intros H. injection H as _ <- _.
  exists cc. split.
  - unfold cc, at_. clear - A. destruct (skipn 48 rest) as [|b r] eqn:E; [cbn in A; lia|]. cbn [Z.to_nat nth].
    rewrite <- (firstn_skipn 48 rest), E, nth_error_app2; rewrite firstn_length; assert (L : (48 < List.length rest)%nat).
    1,3: destruct (Nat.lt_ge_cases 48 (List.length rest)) as [L|L]; [exact L|rewrite skipn_all2 in E by exact L; discriminate].
    + rewrite Nat.min_l by lia. reflexivity.
    + lia.
  - rewrite mapped. reflexivity.
Qed.
Print Assumptions C199_section_threads.
(** Five sections with the palette numbers 3, 9, 3, 20, 9 and two named threads: the first and third
    are sewn with the first, the second and fifth with the second, the fourth from the palette. *)
Example C199_case : let a := plain_thread 1 in let b := plain_thread 2 in
  section_threads [3; 9; 3; 20; 9] [a; b] = [a; b; a; palette 20; b] /\
  exists s m, read_pec [] (0, repeat 0 48 ++ [4; 3; 9; 68; 20; 9] ++ repeat 0 463 ++ [255]) [a; b] = Ok (s, [a; b; a; palette 20; b], m).
Proof. split; [vm_compute; reflexivity|]. eexists. eexists. vm_compute. reflexivity. Qed.
