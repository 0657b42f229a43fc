(** C218: colour files loaded, saved and converted any number of times. *)
From Coq Require Import Ascii String ZArith List Bool Lia.
From Verif Require Import PyBase HelperModel BitLemmas ThreadModel Utf8Model TextModel PatternModel Vp3Model ColorFileModel ColorFileProofs PropertiesColorFile.
Import ListNotations.
Open Scope Z_scope.

(** The three formats, saving the threads and loading a file (the writers and readers of ColorFileModel.v). *)
Inductive colour_format := EDR | COL | INF.
Definition save (k : colour_format) (ts : list thread) : res (list Z) :=
  match k with EDR => Ok (edr_write ts) | COL => col_write ts | INF => inf_write ts end.
Definition load (k : colour_format) (file : list Z) : res (list thread) :=
  match k with EDR => Ok (edr_read file) | COL => col_read file | INF => inf_read file end.
(** Saving in one format after the other, each time from what was loaded from the file before. *)
Fixpoint conversions (ks : list colour_format) (ts : list thread) : res (list thread) :=
  match ks with
  | [] => Ok ts
  | k :: ks => do file <- save k ts; do ts <- load k file; conversions ks ts
  end.

Lemma color_rgb_range r g b : 0 <= color_rgb r g b < 2 ^ 24.
Proof.
  assert (P : forall c, 0 <= Z.land c 255 < 256) by (intros c; change 255 with 0xFF; rewrite land_ff; apply Z.mod_pos_bound; lia).
  pose proof (P r). pose proof (P g). pose proof (P b). unfold color_rgb.
  remember (Z.land r 255) as r'. remember (Z.land g 255) as g'. remember (Z.land b 255) as b'.
  assert (X : Z.lor (Z.lor (Z.shiftl r' 16) (Z.shiftl g' 8)) b' = (r' * 256 + g') * 256 + b').
  { replace (Z.shiftl r' 16) with (Z.shiftl (Z.shiftl r' 8) 8) by (rewrite Z.shiftl_shiftl by lia; reflexivity).
    rewrite <- Z.shiftl_lor, Z.lor_comm. rewrite (Z.lor_comm (Z.shiftl r' 8) g').
    rewrite (lor_shiftl_add g') by (change (2 ^ 8) with 256; lia). rewrite lor_shiftl_add by (change (2 ^ 8) with 256; lia). change (2 ^ 8) with 256. lia. }
  rewrite X. change (2 ^ 24) with 16777216. lia.
Qed.
Lemma edr_range_ind n : forall s, (List.length s <= n)%nat -> Forall (fun t => 0 <= t_color t < 2 ^ 24) (edr_read s).
Proof.
  induction n as [|n IH]; intros s L.
  - destruct s; [constructor|cbn in L; lia].
  - destruct s as [|a [|b [|c s]]]; try constructor; [apply color_rgb_range|]. destruct s as [|d s]; [constructor|]. apply IH. cbn [List.length] in L. lia.
Qed.
Lemma col_lines_range n : forall f ts, col_read_lines n f = Ok ts -> Forall (fun t => 0 <= t_color t < 2 ^ 24) ts.
Proof.
  induction n as [|n IH]; intros f ts H; cbn [col_read_lines] in H.
  - injection H as <-. constructor.
  - destruct (readline f) as [line f']. destruct (split_on 44 line) as [|c [|r [|g [|b q]]]]; try discriminate.
    + destruct (int_of_text r); discriminate.
    + destruct (int_of_text r); cbn [bindr] in H; [|discriminate]. destruct (int_of_text g); discriminate.
    + destruct (int_of_text r); cbn [bindr] in H; [|discriminate]. destruct (int_of_text g); cbn [bindr] in H; [|discriminate].
      destruct (int_of_text b); cbn [bindr] in H; [|discriminate]. destruct (col_read_lines n f') eqn:E; cbn [bindr] in H; [|discriminate].
      injection H as <-. constructor; [apply color_rgb_range|]. apply (IH _ _ E).
Qed.
Lemma inf_range n : forall f ts, inf_read_records n f = Ok ts -> Forall (fun t => 0 <= t_color t < 2 ^ 24) ts.
Proof.
  induction n as [|n IH]; intros f ts H; cbn [inf_read_records] in H.
  - injection H as <-. constructor.
  - destruct (s_int read_int_16be f) as [v f1]. destruct (some v) as [v'|]; cbn [bindr] in H; [|discriminate].
    destruct (s_read (v' - 2) f1) as [d f2]. destruct (negb (zlen d =? v' - 2)); [injection H as <-; constructor|].
    destruct (py_index 2 d); cbn [bindr] in H; [|discriminate]. destruct (py_index 3 d); cbn [bindr] in H; [|discriminate]. destruct (py_index 4 d); cbn [bindr] in H; [|discriminate].
    match type of H with bindr ?e _ = _ => destruct e as [[x y]|]; cbn [bindr] in H; [|discriminate] end.
    match type of H with bindr ?e _ = _ => destruct e; cbn [bindr] in H; [|discriminate] end.
    destruct (inf_read_records n f2) eqn:E; cbn [bindr] in H; [|discriminate]. injection H as <-. constructor; [apply color_rgb_range|]. apply (IH _ _ E).
Qed.
Lemma loaded_range k file ts : load k file = Ok ts -> Forall (fun t => 0 <= t_color t < 2 ^ 24) ts.
Proof.
  destruct k; cbn [load].
  - intros H. injection H as <-. apply (edr_range_ind (List.length file)). lia.
  - unfold col_read. destruct (utf8_decode file); [|discriminate]. destruct (readline _) as [line f]. destruct (int_of_text line); cbn [bindr]; [|discriminate]. apply col_lines_range.
  - unfold inf_read. destruct (s_int read_int_32be (0, file)) as [a1 f1]. destruct (s_int read_int_32be f1) as [a2 f2]. destruct (s_int read_int_32be f2) as [a3 f3].
    destruct (s_int read_int_32be f3) as [a4 f4]. destruct (some a4); cbn [bindr]; [|discriminate]. apply inf_range.
Qed.

Definition colours (ts : list thread) : list Z := map (fun t => t_color t mod 2 ^ 24) ts.
Lemma colours_small ts : Forall (fun t => 0 <= t_color t < 2 ^ 24) ts -> colours ts = map t_color ts.
Proof. intros H. unfold colours. induction H as [|t ts H1 H2 IH]; [reflexivity|]. cbn [map]. rewrite IH, Z.mod_small by exact H1. reflexivity. Qed.
Lemma parts_mod c : get_red (c mod 2 ^ 24) = get_red c /\ get_green (c mod 2 ^ 24) = get_green c /\ get_blue (c mod 2 ^ 24) = get_blue c.
Proof.
  unfold get_red, get_green, get_blue. change 255 with 0xFF. rewrite !land_ff, !Z.shiftr_div_pow2 by lia.
  change (2 ^ 24) with 16777216. change (2 ^ 16) with 65536. change (2 ^ 8) with 256. split; [|split]; lia.
Qed.
Lemma plain_ascii c cat : ascii_texts (mkT c None cat None None None None).
Proof. split; [|split]; cbn [inf_description inf_chart t_description t_chart]; [| |cbn; lia]; repeat constructor. Qed.
(** The threads a save and a load give. *)
Definition kept (k : colour_format) (i : Z) (t : thread) : thread :=
  match k with
  | EDR => plain_thread (t_color t mod 2 ^ 24)
  | COL => mkT (t_color t mod 2 ^ 24) None (Some (str_of_int i)) None None None None
  | INF => mkT (t_color t mod 2 ^ 24) (Some (inf_description t)) None None None (Some (inf_chart t)) None
  end.
Fixpoint kept_all (k : colour_format) (i : Z) (ts : list thread) : list thread :=
  match ts with [] => [] | t :: r => kept k i t :: kept_all k (i + 1) r end.
Lemma kept_map k f : (forall i t, kept k i t = f t) -> forall ts i, kept_all k i ts = map f ts.
Proof. intros H. induction ts as [|t ts IH]; intros i; cbn [kept_all map]; [reflexivity|]. rewrite H, IH. reflexivity. Qed.
Lemma kept_col ts : forall n, kept_all COL (Z.of_nat n) ts
  = map (fun it => mkT (t_color (snd it) mod 2 ^ 24) None (Some (str_of_int (fst it))) None None None None) (combine (map Z.of_nat (seq n (List.length ts))) ts).
Proof.
  induction ts as [|t ts IH]; intros n; cbn [kept_all List.length seq map combine fst snd]; [reflexivity|].
  replace (Z.of_nat n + 1) with (Z.of_nat (S n)) by lia. rewrite IH. reflexivity.
Qed.
Lemma saved_loaded k ts : (k = INF -> Forall ascii_texts ts /\ Z.of_nat (List.length ts) < 2 ^ 32) -> exists file, save k ts = Ok file /\ load k file = Ok (kept_all k 0 ts).
Proof.
  intros H. destruct k; cbn [save load].
  - eexists. split; [reflexivity|]. rewrite C49_edr_round_trip. rewrite (kept_map EDR (fun t => plain_thread (t_color t mod 2 ^ 24))); reflexivity.
  - destruct (col_round_trip ts) as (file & E & R). exists file. split; [exact E|]. rewrite R. change 0 with (Z.of_nat 0). rewrite kept_col. reflexivity.
  - destruct (H eq_refl) as [A L]. destruct (C49_inf_round_trip ts A L) as (file & E & R). exists file. split; [exact E|]. rewrite R. f_equal. symmetry. apply kept_map. reflexivity.
Qed.
Lemma kept_length k ts : forall i, List.length (kept_all k i ts) = List.length ts.
Proof. induction ts as [|t ts IH]; intros i; cbn [kept_all List.length]; [reflexivity|]. rewrite IH. reflexivity. Qed.
Lemma kept_colours k ts : forall i, map t_color (kept_all k i ts) = colours ts.
Proof. unfold colours. induction ts as [|t ts IH]; intros i; cbn [kept_all map]; [reflexivity|]. rewrite IH. destruct k; reflexivity. Qed.
Lemma kept_ascii k ts : Forall ascii_texts ts -> forall i, Forall ascii_texts (kept_all k i ts).
Proof.
  induction 1 as [|t ts H1 H2 IH]; intros i; cbn [kept_all]; constructor; [|apply IH]. destruct k; cbn [kept]; [apply plain_ascii|apply plain_ascii|exact H1].
Qed.
(** The writers look only at what the file keeps. *)
Lemma edr_again ts : forall i, edr_write (kept_all EDR i ts) = edr_write ts.
Proof.
  induction ts as [|t ts IH]; intros i; [reflexivity|]. cbn [kept_all edr_write flat_map kept plain_thread t_color].
  destruct (parts_mod (t_color t)) as (-> & -> & ->). f_equal. apply IH.
Qed.
Lemma col_again ts : forall i j, col_lines j (kept_all COL i ts) = col_lines j ts.
Proof.
  induction ts as [|t ts IH]; intros i j; [reflexivity|]. cbn [kept_all col_lines kept t_color]. destruct (parts_mod (t_color t)) as (-> & -> & ->). rewrite IH. reflexivity.
Qed.
Lemma inf_again ts : forall i j, inf_records j (kept_all INF i ts) = inf_records j ts.
Proof.
  induction ts as [|t ts IH]; intros i j; [reflexivity|]. cbn [kept_all inf_records kept t_color t_description t_chart]. destruct (parts_mod (t_color t)) as (-> & -> & ->). rewrite IH. reflexivity.
Qed.
Lemma saved_again k ts : save k (kept_all k 0 ts) = save k ts.
Proof.
  destruct k; cbn [save].
  - rewrite edr_again. reflexivity.
  - unfold col_write. rewrite col_again. unfold zlen. rewrite kept_length. reflexivity.
  - unfold inf_write. rewrite inf_again. unfold zlen. rewrite kept_length. reflexivity.
Qed.

(** Any number of conversions between the three formats keeps the colours of whatever colour file was loaded.  What INF has to be spared
    is texts that are not ASCII (C65) or too long for its 16-bit lengths. *)
Theorem C218_conversions : forall k file ts ks, load k file = Ok ts -> (In INF ks -> Forall ascii_texts ts /\ Z.of_nat (List.length ts) < 2 ^ 32) ->
  exists ts', conversions ks ts = Ok ts' /\ map t_color ts' = map t_color ts.
Proof.
  intros k file ts ks H. apply loaded_range in H. revert ts H. induction ks as [|a ks IH]; intros ts H A.
  - exists ts. split; reflexivity.
  - cbn [conversions]. destruct (saved_loaded a ts) as (f & -> & B). { intros ->. apply A. left. reflexivity. }
    cbn [bindr]. rewrite B. cbn [bindr]. pose proof (kept_colours a ts 0) as C. rewrite (colours_small ts H) in C. rewrite <- C. apply IH.
    + apply Forall_forall. intros t I. rewrite Forall_forall in H. apply (in_map t_color) in I. rewrite C in I. apply in_map_iff in I. destruct I as (u & <- & Iu). apply H, Iu.
    + intros I. destruct A as [A1 A2]; [right; exact I|]. split; [apply kept_ascii, A1|]. rewrite kept_length. exact A2.
Qed.
(** Threads loaded from EDR and COL files never have texts that disturb INF. *)
Theorem C218_no_texts : forall k file ts, k <> INF -> load k file = Ok ts -> Forall ascii_texts ts.
Proof.
  intros k file ts N. destruct k; cbn [load]; [| |contradiction].
  - intros H. injection H as <-. enough (G : forall n s, (List.length s <= n)%nat -> Forall ascii_texts (edr_read s)) by (apply (G (List.length file)); lia).
    induction n as [|n IH]; intros s L.
    + destruct s; [constructor|cbn in L; lia].
    + destruct s as [|a [|b [|c s]]]; try constructor; [apply plain_ascii|]. destruct s as [|d s]; [constructor|]. apply IH. cbn [List.length] in L. lia.
  - unfold col_read. destruct (utf8_decode file); [|discriminate]. destruct (readline _) as [line f]. destruct (int_of_text line) as [c|]; cbn [bindr]; [|discriminate].
    generalize (Z.to_nat c). intros n. revert f ts. induction n as [|n IH]; intros f ts H; cbn [col_read_lines] in H.
    + injection H as <-. constructor.
    + destruct (readline f) as [line' f']. destruct (split_on 44 line') as [|c' [|r [|g [|b q]]]]; try discriminate.
      * destruct (int_of_text r); discriminate.
      * destruct (int_of_text r); cbn [bindr] in H; [|discriminate]. destruct (int_of_text g); discriminate.
      * destruct (int_of_text r); cbn [bindr] in H; [|discriminate]. destruct (int_of_text g); cbn [bindr] in H; [|discriminate].
        destruct (int_of_text b); cbn [bindr] in H; [|discriminate]. destruct (col_read_lines n f') eqn:E; cbn [bindr] in H; [|discriminate].
        injection H as <-. constructor; [apply plain_ascii|]. apply (IH _ _ E).
Qed.
(** A file saved from any threads is written byte for byte again when it is loaded and saved in its format. *)
Theorem C218_settles : forall k ts file, (k = INF -> Forall ascii_texts ts /\ Z.of_nat (List.length ts) < 2 ^ 32) -> save k ts = Ok file ->
  exists ts', load k file = Ok ts' /\ save k ts' = Ok file.
Proof.
  intros k ts file H E. destruct (saved_loaded k ts H) as (f & E' & L). rewrite E in E'. injection E' as <-. exists (kept_all k 0 ts). split; [exact L|].
  rewrite saved_again. exact E.
Qed.
Example C218_case : exists ts, load COL (text_of "2
A1, 255,0 ,7
, 300,1,2,x
") = Ok ts /\ map t_color ts = [0xFF0007; 0x2C0102] /\ Forall ascii_texts ts /\ Z.of_nat (List.length ts) < 2 ^ 32 /\
  exists ts', conversions [INF; EDR; COL; INF] ts = Ok ts' /\ map t_color ts' = [0xFF0007; 0x2C0102].
Proof.
  eexists. split; [vm_compute; reflexivity|]. split; [reflexivity|]. split; [repeat (constructor; [apply plain_ascii|]); constructor|]. split; [reflexivity|].
  eexists. split; [vm_compute; reflexivity|reflexivity].
Qed.

Print Assumptions C218_conversions.
Print Assumptions C218_no_texts.
Print Assumptions C218_settles.
