From Coq Require Import Ascii String ZArith List Bool Lia.
From Verif Require Import PyBase HelperModel BitLemmas HelperProofs ThreadModel Utf8Model Utf8Proofs TextModel TextProofs
  PatternModel Vp3Model Vp3Spec Vp3Proofs ColorFileModel.
Import ListNotations.
Open Scope Z_scope.

Lemma color_rgb_parts c : color_rgb (get_red c) (get_green c) (get_blue c) = c mod 2 ^ 24.
Proof.
  unfold color_rgb, get_red, get_green, get_blue. change 255 with 0xFF.
  rewrite !land_ff, !Z.shiftr_div_pow2 by lia.
  rewrite !Z.mod_mod by lia.
  rewrite (Z.lor_comm _ (c mod 256)).
  assert (H : Z.lor (Z.shiftl ((c / 2 ^ 16) mod 256) 16) (Z.shiftl ((c / 2 ^ 8) mod 256) 8)
              = Z.shiftl ((c / 2 ^ 8) mod 256 + ((c / 2 ^ 16) mod 256) * 256) 8).
  { rewrite Z.lor_comm.
    replace (Z.shiftl ((c / 2 ^ 16) mod 256) 16) with (Z.shiftl (Z.shiftl ((c / 2 ^ 16) mod 256) 8) 8)
      by (rewrite Z.shiftl_shiftl by lia; reflexivity).
    rewrite <- Z.shiftl_lor. f_equal. rewrite lor_shiftl_add; [reflexivity|lia|]. change (2 ^ 8) with 256. lia. }
  rewrite H. rewrite lor_shiftl_add by (change (2 ^ 8) with 256; lia).
  change (2 ^ 24) with 16777216. change (2 ^ 16) with 65536. change (2 ^ 8) with 256. lia.
Qed.

Lemma byte_8 v rest : write_int_8 v ++ rest = Z.land v 0xFF :: rest.
Proof. reflexivity. Qed.
Lemma land_get_red c : Z.land (get_red c) 0xFF = get_red c.
Proof. unfold get_red. rewrite !land_ff. apply Z.mod_mod. lia. Qed.
Lemma land_get_green c : Z.land (get_green c) 0xFF = get_green c.
Proof. unfold get_green. rewrite !land_ff. apply Z.mod_mod. lia. Qed.
Lemma land_get_blue c : Z.land (get_blue c) 0xFF = get_blue c.
Proof. unfold get_blue. rewrite !land_ff. apply Z.mod_mod. lia. Qed.

Lemma edr_round_trip threads :
  edr_read (edr_write threads) = map (fun t => plain_thread (t_color t mod 2 ^ 24)) threads.
Proof.
  induction threads as [|t r IH]; [reflexivity|].
  cbn [edr_write flat_map map]. rewrite <- !app_assoc, !byte_8, land_get_red, land_get_green, land_get_blue.
  cbn [edr_read]. rewrite color_rgb_parts. change (flat_map _ r) with (edr_write r). rewrite IH. reflexivity.
Qed.

(** ** COL *)
Definition col_line (index : Z) (t : thread) : text :=
  str_of_int index ++ [44] ++ str_of_int (get_red (t_color t)) ++ [44]
  ++ str_of_int (get_green (t_color t)) ++ [44] ++ str_of_int (get_blue (t_color t)).
Lemma col_lines_cons index t r : col_lines index (t :: r) = col_line index t ++ 13 :: 10 :: col_lines (index + 1) r.
Proof. cbn [col_lines]. unfold col_line. rewrite <- !app_assoc. reflexivity. Qed.
Lemma col_line_free k index t : ~ number_char k -> k <> 44 -> ~ In k (col_line index t).
Proof.
  intros H1 H2. unfold col_line. rewrite !in_app_iff.
  intros [K|[K|[K|[K|[K|[K|K]]]]]]; try (revert K; apply not_in_number; exact H1);
    destruct K as [K|[]]; congruence.
Qed.
Lemma ascii_number a : Forall number_char a -> Forall ascii a.
Proof. apply Forall_impl. unfold number_char, digit, ascii. lia. Qed.
Lemma col_lines_ascii : forall threads index, Forall ascii (col_lines index threads).
Proof.
  induction threads as [|t r IH]; intros index; [constructor|].
  rewrite col_lines_cons. unfold col_line. rewrite !Forall_app.
  repeat split; try (apply ascii_number, str_of_int_chars);
    repeat (apply Forall_cons || apply Forall_nil); unfold ascii; try lia. apply IH.
Qed.
Lemma col_lines_newlines : forall threads index,
  universal_newlines (col_lines index threads)
  = concat (map (fun it => col_line (fst it) (snd it) ++ [10])
      (combine (map (fun k => index + Z.of_nat k) (seq 0 (List.length threads))) threads)).
Proof.
  induction threads as [|t r IH]; intros index; [reflexivity|].
  rewrite col_lines_cons, universal_newlines_crlf, IH
    by (apply col_line_free; [unfold number_char, digit; lia|lia]).
  cbn [List.length seq map combine concat fst snd]. rewrite Z.add_0_r, <- app_assoc. cbn [app].
  f_equal. f_equal. f_equal. f_equal. f_equal.
  rewrite <- seq_shift, map_map. apply map_ext. intros k. lia.
Qed.
Lemma col_read_lines_of : forall threads index rest,
  col_read_lines (List.length threads)
    (concat (map (fun it => col_line (fst it) (snd it) ++ [10])
      (combine (map (fun k => index + Z.of_nat k) (seq 0 (List.length threads))) threads)) ++ rest)
  = Ok (map (fun it => mkT (t_color (snd it) mod 2 ^ 24) None (Some (str_of_int (fst it))) None None None None)
      (combine (map (fun k => index + Z.of_nat k) (seq 0 (List.length threads))) threads)).
Proof.
  induction threads as [|t r IH]; intros index rest; [reflexivity|].
  cbn [List.length seq map combine concat fst snd col_read_lines].
  rewrite <- !app_assoc. cbn [app].
  rewrite readline_first by (apply col_line_free; [unfold number_char, digit; lia|lia]).
  unfold col_line at 1. rewrite <- !app_assoc. cbn [app].
  rewrite split_on_first by no_char. rewrite split_on_first by no_char. rewrite split_on_first by no_char.
  rewrite split_on_none.
  2:{ rewrite in_app_iff. intros [K|K]; [revert K; no_char|]. destruct K as [K|[]]; lia. }
  rewrite !int_of_str_0. cbn [bindr]. rewrite int_of_str by (constructor; [reflexivity|constructor]).
  cbn [bindr].
  rewrite <- seq_shift, map_map.
  rewrite map_ext with (g := fun k => (index + 1) + Z.of_nat k) by (intros k; lia).
  rewrite IH. cbn [bindr]. rewrite color_rgb_parts, Z.add_0_r. reflexivity.
Qed.
Lemma col_round_trip threads : exists file, col_write threads = Ok file /\
  col_read file = Ok (map (fun it => mkT (t_color (snd it) mod 2 ^ 24) None (Some (str_of_int (fst it))) None None None None)
      (combine (map Z.of_nat (seq 0 (List.length threads))) threads)).
Proof.
  unfold col_write.
  assert (A : Forall ascii (str_of_int (zlen threads) ++ [13; 10] ++ col_lines 0 threads)).
  { rewrite !Forall_app. split; [apply ascii_number, str_of_int_chars|].
    split; [repeat (apply Forall_cons || apply Forall_nil); unfold ascii; lia|apply col_lines_ascii]. }
  destruct (utf8_ascii _ A) as [E D]. eexists. split; [exact E|]. unfold col_read. rewrite D.
  cbn [app]. rewrite universal_newlines_crlf by no_char. rewrite readline_first by no_char.
  rewrite int_of_str by (constructor; [reflexivity|constructor]). cbn [bindr].
  unfold zlen. rewrite Nat2Z.id, col_lines_newlines.
  rewrite <- (app_nil_r (concat _)), col_read_lines_of.
  rewrite map_ext with (g := Z.of_nat) by (intros k; lia). reflexivity.
Qed.

(** ** INF *)
Lemma cut_nul_of a r : ~ In 0 a -> cut_nul (a ++ 0 :: r) = Some (a, r).
Proof.
  induction a as [|b q IH]; intros H; cbn [app cut_nul].
  - reflexivity.
  - destruct (Z.eqb_spec b 0) as [->|_]; [exfalso; apply H; left; reflexivity|].
    rewrite IH by (intros K; apply H; right; exact K). reflexivity.
Qed.
(** ASCII without NUL. *)
Definition inf_text (t : text) : Prop := Forall (fun c => 0 < c < 128) t.
Definition shown (o : option text) : text := match o with Some t => t | None => unknown end.
Definition inf_thread (t : thread) : Prop :=
  inf_text (shown (t_description t)) /\ inf_text (shown (t_chart t)) /\
  zlen (shown (t_description t)) + zlen (shown (t_chart t)) <= 65524.
Lemma inf_text_ascii t : inf_text t -> Forall ascii t.
Proof. apply Forall_impl. unfold ascii. lia. Qed.
Lemma inf_text_no_nul t : inf_text t -> ~ In 0 t.
Proof. intros H K. unfold inf_text in H. rewrite Forall_forall in H. specialize (H 0 K). lia. Qed.
Lemma inf_records_of : forall threads index, Forall inf_thread threads -> exists bytes,
  inf_records index threads = Ok bytes /\
  forall pos rest, inf_read_records (List.length threads) (pos, bytes ++ rest)
    = Ok (map (fun t => mkT (t_color t mod 2 ^ 24) (Some (shown (t_description t))) None None None
                          (Some (shown (t_chart t))) None) threads).
Proof.
  induction threads as [|t r IH]; intros index H; [exists []; split; [reflexivity|reflexivity]|].
  inversion H as [|? ? (Hd & Hc & Hl) Hr]; subst.
  destruct (IH (index + 1) Hr) as (bytes & Eb & Rb).
  cbn [inf_records]. cbv zeta.
  change (match t_description t with Some d => d | None => unknown end) with (shown (t_description t)).
  change (match t_chart t with Some d => d | None => unknown end) with (shown (t_chart t)).
  set (d := shown (t_description t)) in *. set (c := shown (t_chart t)) in *.
  destruct (utf8_ascii d (inf_text_ascii d Hd)) as [Ed Dd].
  destruct (utf8_ascii c (inf_text_ascii c Hc)) as [Ec Dc].
  rewrite Ed, Ec, Eb. cbn [bindr]. eexists. split; [reflexivity|].
  intros pos rest. cbn [List.length inf_read_records].
  rewrite <- !app_assoc. rewrite s_16be. cbn [some bindr].
  pose proof (zlen_nonneg d). pose proof (zlen_nonneg c).
  rewrite Z.mod_small by (change (2 ^ 16) with 65536; lia).
  set (body := write_int_16be index ++ write_int_8 (get_red (t_color t)) ++ write_int_8 (get_green (t_color t))
          ++ write_int_8 (get_blue (t_color t)) ++ write_int_16be (index + 1) ++ d ++ write_int_8 0 ++ c ++ write_int_8 0).
  assert (Lb : zlen body = 11 + zlen d + zlen c - 2).
  { unfold body. rewrite !zlen_app, !zlen_16. unfold write_int_8. rewrite !zlen_cons, !zlen_nil. lia. }
  assert (Eq : write_int_16be index ++ write_int_8 (get_red (t_color t)) ++ write_int_8 (get_green (t_color t))
          ++ write_int_8 (get_blue (t_color t)) ++ write_int_16be (index + 1) ++ d ++ write_int_8 0 ++ c ++ write_int_8 0
          ++ bytes ++ rest = body ++ bytes ++ rest) by (unfold body; rewrite <- !app_assoc; reflexivity).
  rewrite Eq, s_read_app by (symmetry; exact Lb). rewrite Lb, Z.eqb_refl. cbn [negb].
  unfold body. unfold write_int_16be, write_int_8, py_index. cbn [app].
  change (2 <? 0) with false. change (3 <? 0) with false. change (4 <? 0) with false. cbn match.
  change (Z.to_nat 2) with 2%nat. change (Z.to_nat 3) with 3%nat. change (Z.to_nat 4) with 4%nat.
  cbn [nth_error bindr skipn].
  rewrite cut_nul_of by (apply inf_text_no_nul; exact Hd). rewrite Dd. cbn [bindr].
  rewrite cut_nul_of by (apply inf_text_no_nul; exact Hc). rewrite Dc. cbn [bindr].
  rewrite Rb. cbn [bindr map]. rewrite land_get_red, land_get_green, land_get_blue, color_rgb_parts. reflexivity.
Qed.
Lemma inf_round_trip threads : Forall inf_thread threads -> zlen threads < 2 ^ 32 -> exists file,
  inf_write threads = Ok file /\
  inf_read file = Ok (map (fun t => mkT (t_color t mod 2 ^ 24) (Some (shown (t_description t))) None None None
                          (Some (shown (t_chart t))) None) threads).
Proof.
  intros H L. destruct (inf_records_of threads 0 H) as (bytes & E & R). unfold inf_write. rewrite E. cbn [bindr].
  eexists. split; [reflexivity|]. unfold inf_read. rewrite !s_32be. cbn [some bindr].
  pose proof (zlen_nonneg threads). rewrite (Z.mod_small (zlen threads)) by lia.
  unfold zlen. rewrite Nat2Z.id. rewrite <- (app_nil_r bytes). apply R.
Qed.
