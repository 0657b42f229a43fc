(** C226: the threads of HUS and SHV files. *)
From Coq Require Import Ascii String ZArith Bool List Lia.
From Verif Require Import BitLemmas PyBase StreamModel HelperModel Vp3Model PecFileModel CompressModel RecordModel ThreadModel TextModel TextProofs ValueModel FilesProofs BlockModel PaletteModel.
Import ListNotations.
Open Scope Z_scope.

(** * Specification *)
(** The colours as the maker of the files prints them, in the order of their numbers. *)
Definition hus_colours : list text :=
  map text_of ["#000000"; "#0000e7"; "#00c600"; "#ff0000"; "#840084"; "#ffff00"; "#848484"; "#8484e7"; "#00ff84"; "#ff7b31"; "#ff8ca5"; "#845200";
    "#ffffff"; "#000084"; "#008400"; "#7b0000"; "#ff6384"; "#522952"; "#ff00ff"; "#ffde00"; "#ffff9c"; "#525252"; "#d6d6d6"; "#ff5208"; "#ff9c5a";
    "#ff52b5"; "#ffc6de"; "#523100"; "#b5a584"]%string.
Definition is_color (c : Z) : Prop := 0 <= c < 2 ^ 24.
(** The thread for number [i] of a HUS file. *)
Definition hus_entry (i : Z) (o : option thread) : Prop :=
  exists t, o = Some t /\ is_color (t_color t) /\ nth_error hus_colours (Z.to_nat i) = Some (hex_color (t_color t)) /\
    t_brand t = Some (text_of "Hus") /\ t_description t <> None /\ t_catalog t <> None.
(** The thread for the colour number [i] of a SHV file: its catalog number is that number. *)
Definition shv_entry_thread (i : Z) (t : thread) : Prop :=
  is_color (t_color t) /\ t_catalog t = Some (str_of_int i) /\ t_brand t = Some (text_of "Shv") /\ t_description t <> None.

(** * Proofs *)
Definition hus_ok (c : text) (o : option thread) : bool :=
  match o with
  | Some t => (0 <=? t_color t) && (t_color t <? 2 ^ 24) && text_eqb c (hex_color (t_color t))
      && match t_brand t with Some b => text_eqb b (text_of "Hus") | None => false end
      && match t_description t, t_catalog t with Some _, Some _ => true | _, _ => false end
  | None => false
  end.
Lemma hus_all : forallb (fun e => hus_ok (fst e) (snd e)) (combine hus_colours hus_palette) = true.
Proof. vm_compute. reflexivity. Qed.
Definition shv_ok (i : nat) (t : thread) : bool :=
  (0 <=? t_color t) && (t_color t <? 2 ^ 24)
  && match t_catalog t with Some c => text_eqb c (str_of_int (Z.of_nat i)) | None => false end
  && match t_brand t with Some b => text_eqb b (text_of "Shv") | None => false end
  && match t_description t with Some _ => true | None => false end.
Lemma shv_all : forallb (fun e => shv_ok (fst e) (snd e)) (combine (seq 0 43) shv_palette) = true.
Proof. vm_compute. reflexivity. Qed.
Lemma combine_nth {A B} (a : list A) (b : list B) : forall i x y, nth_error a i = Some x -> nth_error b i = Some y -> In (x, y) (combine a b).
Proof.
  revert b. induction a as [|x0 a IH]; intros [|y0 b] [|i] x y H1 H2; try discriminate; cbn [combine].
  - injection H1 as ->. injection H2 as ->. left. reflexivity.
  - right. exact (IH b i x y H1 H2).
Qed.
Lemma hus_at i : 0 <= i < 29 -> exists o, nth_error hus_palette (Z.to_nat i) = Some o /\ hus_entry i o.
Proof.
  intros H. assert (L : List.length hus_palette = 29%nat) by reflexivity. assert (L' : List.length hus_colours = 29%nat) by reflexivity.
  destruct (nth_error hus_palette (Z.to_nat i)) as [o|] eqn:E; [|apply nth_error_None in E; lia].
  destruct (nth_error hus_colours (Z.to_nat i)) as [c|] eqn:F; [|apply nth_error_None in F; lia].
  exists o. split; [reflexivity|]. pose proof hus_all as G. rewrite forallb_forall in G. specialize (G _ (combine_nth _ _ _ _ _ F E)). cbn [fst snd] in G.
  destruct o as [t|]; [|discriminate]. exists t. unfold hus_ok in G. repeat (apply andb_prop in G as [G ?]).
  split; [reflexivity|]. split; [unfold is_color; lia|]. split.
  - rewrite F. f_equal. apply text_eqb_spec. assumption.
  - destruct (t_brand t) as [b|]; [|discriminate]. destruct (t_description t), (t_catalog t); try discriminate.
    repeat split; try discriminate. f_equal. apply text_eqb_spec. assumption.
Qed.
Lemma shv_at i : 0 <= i < 43 -> exists t, nth_error shv_palette (Z.to_nat i) = Some t /\ shv_entry_thread i t.
Proof.
  intros H. assert (L : List.length shv_palette = 43%nat) by reflexivity.
  destruct (nth_error shv_palette (Z.to_nat i)) as [t|] eqn:E; [|apply nth_error_None in E; lia].
  exists t. split; [reflexivity|]. pose proof shv_all as G. rewrite forallb_forall in G.
  assert (F : nth_error (seq 0 43) (Z.to_nat i) = Some (Z.to_nat i)).
  { rewrite nth_error_nth' with (d := 0%nat) by (rewrite seq_length; lia). rewrite seq_nth by lia. reflexivity. }
  specialize (G _ (combine_nth _ _ _ _ _ F E)). cbn [fst snd] in G. unfold shv_ok in G. repeat (apply andb_prop in G as [G ?]).
  rewrite Z2Nat.id in * by lia. unfold shv_entry_thread.
  destruct (t_catalog t) as [c|]; [|discriminate]. destruct (t_brand t) as [b|]; [|discriminate]. destruct (t_description t); [|discriminate].
  split; [unfold is_color; lia|]. repeat split; try discriminate; f_equal; apply text_eqb_spec; assumption.
Qed.
Lemma from_palette_all {A} (palette : list A) (good : Z -> A -> Prop) n : (forall i, 0 <= i < n -> exists a, nth_error palette (Z.to_nat i) = Some a /\ good i a) ->
  forall l, Forall (fun i => 0 <= i < n) l -> exists ts, from_palette palette l = Ok ts /\ Forall2 good l ts.
Proof.
  intros H l F. induction F as [|i l Hi F IH]; [exists []; split; [reflexivity|constructor]|].
  destruct IH as (ts & E & G). destruct (H i Hi) as (a & N & Ga). exists (a :: ts). cbn [from_palette]. rewrite N, E. cbn [bindr]. split; [reflexivity|]. constructor; assumption.
Qed.
Lemma shv_codes n : forall f l g, shv_colors n f = Ok (l, g) -> Forall (fun i => 0 <= i < 43) (map fst l).
Proof.
  induction n as [|n IH]; intros f l g; cbn [shv_colors]; [intros [= <- <-]; constructor|].
  destruct (s_int read_int_32be f) as [[count|] f1]; destruct (s_int read_int_8 f1) as [[code|] f2]; try discriminate.
  destruct (shv_colors n (s_seek 9 f2)) as [[l' g']|] eqn:E; cbn [bindr]; [|discriminate]. intros [= <- <-]. cbn [map fst].
  constructor; [apply Z.mod_pos_bound; lia|exact (IH _ _ _ E)].
Qed.
Lemma shv_indices file name l s : shv_read file = Ok (name, l, s) -> Forall (fun i => 0 <= i < 43) l.
Proof.
  unfold shv_read. destruct (s_int read_int_8 (seek_to file 86)) as [len f1]. destruct (read_string_8 len f1) as [nm f2].
  destruct (s_int read_int_8 f2) as [w f3]. destruct (s_int read_int_8 f3) as [h f4].
  destruct (some h) as [h'|]; cbn [bindr]; [|discriminate]. destruct (some w) as [w'|]; cbn [bindr]; [|discriminate]. cbv zeta.
  destruct (s_int read_int_8 _) as [c f5]. destruct (some c) as [c'|]; cbn [bindr]; [|discriminate].
  destruct (shv_colors _ _) as [[t f6]|] eqn:E; cbn [bindr]; [|discriminate].
  destruct (map snd t) as [|first others]; [discriminate|]. destruct (ended _) as [r|]; cbn [bindr]; [|discriminate].
  intros [= <- <- <-]. exact (shv_codes _ _ _ _ E).
Qed.

(** Every HUS file that holds numbers of the palette loads with one thread for each, of the colour with that
    number; different numbers are different colours. *)
Theorem C226_hus : forall fuel file indices l,
  hus_read fuel file = Ok (indices, l) -> Forall (fun i => 0 <= i < 29) indices ->
  exists ts, hus_load fuel file = Ok (ts, l) /\ Forall2 hus_entry indices ts.
Proof.
  intros fuel file indices l H F. destruct (from_palette_all hus_palette hus_entry 29 hus_at indices F) as (ts & E & G).
  exists ts. unfold hus_load. rewrite H. cbn [bindr]. rewrite E. split; [reflexivity|exact G].
Qed.
Theorem C226_hus_distinct : forall i j t u, 0 <= i < 29 -> 0 <= j < 29 -> hus_entry i (Some t) -> hus_entry j (Some u) -> t_color t = t_color u -> i = j.
Proof.
  intros i j t u Hi Hj (t' & Et & _ & A & _) (u' & Eu & _ & B & _) E. injection Et as <-. injection Eu as <-. rewrite E in A.
  assert (N : NoDup hus_colours).
  { assert (D : nodup (list_eq_dec Z.eq_dec) hus_colours = hus_colours) by (vm_compute; reflexivity). rewrite <- D. apply NoDup_nodup. }
  apply Z2Nat.inj; try lia. apply (proj1 (NoDup_nth_error hus_colours) N); [|congruence].
  change (List.length hus_colours) with 29%nat. lia.
Qed.
(** Every SHV file that can be read loads with one thread for each colour, with that colour's number in the
    catalog; different numbers are different threads. *)
Theorem C226_shv : forall file name indices l, shv_read file = Ok (name, indices, l) ->
  exists ts, shv_load file = Ok (name, ts, l) /\ Forall2 shv_entry_thread indices ts.
Proof.
  intros file name indices l H. destruct (from_palette_all shv_palette shv_entry_thread 43 shv_at indices (shv_indices _ _ _ _ H)) as (ts & E & G).
  exists ts. unfold shv_load. rewrite H. cbn [bindr]. rewrite E. split; [reflexivity|exact G].
Qed.
Theorem C226_shv_distinct : forall i j t, shv_entry_thread i t -> shv_entry_thread j t -> i = j.
Proof.
  intros i j t (_ & A & _) (_ & B & _). rewrite A in B. injection B as B. apply (f_equal int_of_text) in B. rewrite !int_of_str_0 in B. congruence.
Qed.
Example C226_case : exists l,
  shv_load (repeat 32 0x56 ++ [2; 65; 66] ++ [0; 0] ++ repeat 0 4 ++ [2] ++ repeat 0 18 ++ [0; 0; 0; 1; 50] ++ repeat 0 9 ++ [0; 0; 0; 1; 2] ++ repeat 0 7 ++ [1; 1; 2; 2])
  = Ok (Some [65; 66], [shv_thread 51 154 255 "Light Blue" "7"; shv_thread 51 204 102 "Green" "2"], l).
Proof. eexists. vm_compute. reflexivity. Qed.
Example C226_hus_case : exists r ts,
  hus_read 255 ([0; 0; 0; 0; 0; 0; 0; 0; 2; 0; 0; 0; 0; 0; 0; 0; 0; 0; 0; 0; 46; 0; 0; 0; 46; 0; 0; 0; 46; 0; 0; 0; 32; 32; 32; 32; 32; 32; 32; 32; 0; 0; 7; 0; 3; 0]) = Ok ([7; 3], r) /\
  hus_load 255 ([0; 0; 0; 0; 0; 0; 0; 0; 2; 0; 0; 0; 0; 0; 0; 0; 0; 0; 0; 0; 46; 0; 0; 0; 46; 0; 0; 0; 46; 0; 0; 0; 32; 32; 32; 32; 32; 32; 32; 32; 0; 0; 7; 0; 3; 0]) = Ok (ts, r) /\
  map (option_map t_color) ts = [Some 0x8484E7; Some 0xFF0000].
Proof. eexists _, _. split; [vm_compute; reflexivity|]. split; vm_compute; reflexivity. Qed.
Print Assumptions C226_hus.
Print Assumptions C226_hus_distinct.
Print Assumptions C226_shv.
Print Assumptions C226_shv_distinct.
