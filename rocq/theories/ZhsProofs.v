From Coq Require Import Ascii String ZArith List Bool Lia.
From Verif Require Import PyBase EmbConst StreamModel StreamSpec HelperModel BitLemmas ThreadModel Utf8Model Utf8Proofs TextModel
  PatternModel Vp3Model PecFileModel RecordModel RecordSpec RecordProofs RecordMoreProofs RecordAnyProofs BlockSpec BlockProofs
  BlockMoreProofs PhbSpec PhbProofs ZhsModel ZhsSpec.
Import ListNotations.
Open Scope Z_scope.

Lemma split_step p q c r : c <> p -> split_two p q (c :: r) = match split_two p q r with w :: ws => (c :: w) :: ws | [] => [[c]] end.
Proof. intros H. cbn [split_two]. destruct r; [reflexivity|]. destruct (Z.eqb_spec c p); [contradiction|]. reflexivity. Qed.
Lemma split_mark p q r : split_two p q (p :: q :: r) = [] :: split_two p q r.
Proof. cbn [split_two]. rewrite !Z.eqb_refl. reflexivity. Qed.
Lemma split_not p q d r : d <> q -> split_two p q (p :: d :: r)
  = match split_two p q (d :: r) with w :: ws => (p :: w) :: ws | [] => [[p]] end.
Proof.
  intros H. change (split_two p q (p :: d :: r)) with (if (p =? p) && (d =? q) then [] :: split_two p q r
    else match split_two p q (d :: r) with w :: ws => (p :: w) :: ws | [] => [[p]] end).
  rewrite (proj2 (Z.eqb_neq d q) H), andb_false_r. reflexivity.
Qed.
Lemma split_some p q t : exists w ws, split_two p q t = w :: ws.
Proof.
  destruct t as [|c r]; [exists [], []; reflexivity|]. cbn [split_two].
  destruct r as [|d r']; [exists [c], []; reflexivity|]. destruct ((c =? p) && (d =? q)); [eexists _, _; reflexivity|].
  destruct (split_two p q (d :: r')); eexists _, _; reflexivity.
Qed.

(** Text in which "&" stands only before [o]. *)
Inductive plain_but (o : Z) : text -> Prop :=
| pb_nil : plain_but o []
| pb_char c w : c <> 38 -> plain_but o w -> plain_but o (c :: w)
| pb_mark w : plain_but o w -> plain_but o (38 :: o :: w).
Lemma pb_app o a b : plain_but o a -> plain_but o b -> plain_but o (a ++ b).
Proof. induction 1; intros; cbn [app]; [assumption|apply pb_char; auto|apply pb_mark; auto]. Qed.
Lemma pb_unmarked o t : unmarked t -> plain_but o t.
Proof. induction 1 as [|c w [_ N] F IH]; constructor; auto. Qed.
Lemma split_plain o q w : plain_but o w -> o <> q -> o <> 38 -> forall rest,
  split_two 38 q (w ++ rest) = match split_two 38 q rest with h :: t => (w ++ h) :: t | [] => [w] end.
Proof.
  intros H Ho Hs rest. destruct (split_some 38 q rest) as (h & t & E). rewrite E. induction H as [|c w N H IH|w H IH]; cbn [app].
  - exact E.
  - rewrite split_step by exact N. rewrite IH. reflexivity.
  - rewrite split_not by exact Ho. rewrite split_step by exact Hs. rewrite IH. reflexivity.
Qed.
Lemma split_word q w rest : unmarked w -> split_two 38 q (w ++ 38 :: q :: rest) = w :: split_two 38 q rest.
Proof.
  intros H. rewrite (split_plain (if q =? 0 then 1 else 0) q) by (first [apply pb_unmarked, H|destruct (Z.eqb_spec q 0); lia]).
  rewrite split_mark, app_nil_r. reflexivity.
Qed.
Lemma split_last q w : unmarked w -> split_two 38 q w = [w].
Proof.
  intros H. rewrite <- (app_nil_r w) at 1. rewrite (split_plain (if q =? 0 then 1 else 0) q) by (first [apply pb_unmarked, H|destruct (Z.eqb_spec q 0); lia]).
  cbn [split_two]. rewrite app_nil_r. reflexivity.
Qed.

(** The text of an entry without its "&$". *)
Definition body (e : zhs_entry) : text := skipn 2 (zhs_text e).
Lemma text_body e : zhs_text e = 38 :: 36 :: body e. Proof. reflexivity. Qed.
Lemma more_split : forall more w, unmarked w -> Forall unmarked more ->
  split_two 38 35 (w ++ flat_map (fun t => text_of "&#" ++ t) more) = w :: more.
Proof.
  induction more as [|m more IH]; intros w Hw F; cbn [flat_map].
  - rewrite app_nil_r. apply split_last, Hw.
  - apply Forall_cons_iff in F as [Fm F]. change (text_of "&#") with [38; 35] at 1. cbn [app]. rewrite split_word by exact Hw.
    rewrite IH by assumption. reflexivity.
Qed.
Lemma body_split e : zhs_entry_ok e -> split_two 38 35 (body e) = z_chart e :: z_description e :: z_number e :: z_more e.
Proof.
  intros (_ & A & B & C & D). unfold body, zhs_text. change (text_of "&$") with [38; 36]. change (text_of "&#") with [38; 35] at 1 2. cbn [app skipn].
  rewrite split_word by exact A. rewrite split_word by exact B. rewrite more_split by assumption. reflexivity.
Qed.
Lemma more_plain more : Forall unmarked more -> plain_but 35 (flat_map (fun t => text_of "&#" ++ t) more).
Proof.
  induction 1; cbn [flat_map]; [constructor|]. change (text_of "&#") with [38; 35]. cbn [app]. apply pb_mark. apply pb_app; [apply pb_unmarked|]; assumption.
Qed.
Lemma body_plain e : zhs_entry_ok e -> plain_but 35 (body e).
Proof.
  intros (_ & A & B & C & D). unfold body, zhs_text. change (text_of "&$") with [38; 36]. change (text_of "&#") with [38; 35] at 1 2. cbn [app skipn].
  apply pb_app; [apply pb_unmarked, A|]. apply pb_mark. apply pb_app; [apply pb_unmarked, B|]. apply pb_mark.
  apply pb_app; [apply pb_unmarked, C|apply more_plain, D].
Qed.
Lemma texts_split : forall es w, plain_but 35 w -> Forall zhs_entry_ok es -> split_two 38 36 (w ++ flat_map zhs_text es) = w :: map body es.
Proof.
  induction es as [|e es IH]; intros w Hw F; cbn [flat_map map].
  - rewrite (split_plain 35) by (assumption || lia). cbn [split_two]. rewrite app_nil_r. reflexivity.
  - apply Forall_cons_iff in F as [Fe F]. rewrite (split_plain 35) by (assumption || lia). rewrite text_body. cbn [app].
    rewrite split_mark, app_nil_r. f_equal. apply IH; [apply body_plain, Fe|exact F].
Qed.

Definition noted (e : zhs_entry) : thread := zhs_note (plain_thread (z_color e)) (body e).
Lemma noted_means e : zhs_entry_ok e -> zhs_means e (noted e).
Proof.
  intros K. unfold zhs_means, noted, zhs_note. rewrite body_split by exact K.
  assert (N : zhs_number (z_number e) (if 3 <? zlen (z_number e) then Some (firstn (List.length (z_number e) - 2) (z_number e)) else None)).
  { destruct (Z.ltb_spec 3 (zlen (z_number e))) as [H|H]; [left|right; split; [lia|reflexivity]].
    unfold zlen in *. set (t := z_number e) in *.
    assert (L : List.length (skipn (List.length t - 2) t) = 2%nat) by (rewrite skipn_length; lia).
    destruct (skipn (List.length t - 2) t) as [|b [|c [|]]] eqn:E; cbn in L; try lia.
    exists (firstn (List.length t - 2) t), b, c. split; [rewrite <- E; symmetry; apply firstn_skipn|]. split; [|reflexivity].
    unfold zlen. rewrite firstn_length. lia. }
  destruct (3 <? zlen (z_number e)), (z_chart e), (z_description e); cbn [t_color t_description t_chart t_catalog t_details t_brand t_weight given plain_thread]; auto 10.
Qed.
Lemma notes_map : forall es extra, zhs_notes (map (fun e => plain_thread (z_color e)) es) (map body (es ++ extra)) = map noted es.
Proof. induction es as [|e es IH]; intros extra; cbn [map app zhs_notes]; [reflexivity|]. rewrite IH. reflexivity. Qed.
Lemma two24_id v : 0 <= v < 2 ^ 24 -> two24 v = v.
Proof. intros H. unfold two24. apply Z.mod_small. exact H. Qed.
Lemma colors_read : forall es p r, Forall zhs_entry_ok es -> exists p',
  zhs_colors (List.length es) (p, flat_map (fun e => be24 (z_color e)) es ++ r) = (map (fun e => plain_thread (z_color e)) es, (p', r)).
Proof.
  induction es as [|e es IH]; intros p r F; [exists p; reflexivity|]. apply Forall_cons_iff in F as [Fe F].
  cbn [List.length zhs_colors flat_map map]. rewrite <- app_assoc. rewrite (s_int_at read_int_24be _ _ (two24 (z_color e))) by apply be24_read.
  destruct (IH (p + zlen (be24 (z_color e))) r F) as [p' ->]. exists p'. rewrite two24_id by apply Fe. reflexivity.
Qed.
Lemma unmarked_scalar t : unmarked t -> Forall scalar t.
Proof. apply Forall_impl. tauto. Qed.
Lemma text_scalar e : zhs_entry_ok e -> Forall scalar (zhs_text e).
Proof.
  intros (_ & A & B & C & D). unfold zhs_text.
  assert (M : Forall scalar (text_of "&$") /\ Forall scalar (text_of "&#")).
  { change (text_of "&$") with [38; 36]. change (text_of "&#") with [38; 35]. unfold scalar. split; (apply Forall_cons; [lia|]); (apply Forall_cons; [lia|]); apply Forall_nil. }
  destruct M as [M1 M2]. do 6 (apply Forall_app; split; [auto using unmarked_scalar; fail|]) .
  induction D; cbn [flat_map]; [constructor|]. apply Forall_app. split; [|assumption]. apply Forall_app. auto using unmarked_scalar.
Qed.
Lemma texts_scalar es : Forall zhs_entry_ok es -> Forall scalar (flat_map zhs_text es).
Proof. induction 1; cbn [flat_map]; [constructor|]. apply Forall_app. split; [apply text_scalar|]; assumption. Qed.

Theorem zhs_read_of file entries extra stitches l : zhs_file file entries extra stitches -> zhs_stitches stitches = Ok l ->
  zhs_read file = Ok (l, map noted entries).
Proof.
  intros (start & header & lead & texts & Hs & Hh & Hn & Hl & F & Et & Ht & H1 & H2 & H3) E. unfold unsigned in *. unfold zhs_read.
  destruct (holds_seek _ _ _ H1) as [r ->]. rewrite <- app_assoc.
  rewrite (s_int_at read_int_32le _ _ start) by (apply le32_read; lia).
  rewrite (s_int_at read_int_32le _ _ header) by (apply le32_read; lia). cbn [some bindr].
  destruct (holds_seek _ _ _ H2) as [r2 ->]. unfold zhs_header. cbn [app]. rewrite s_byte_at. cbn [some bindr].
  unfold zlen at 1. rewrite Nat2Z.id. rewrite <- app_assoc. apply Forall_app in F as F'. destruct F' as [Fe Fx].
  match goal with |- context [zhs_colors _ (?p, flat_map ?f _ ++ ?r)] => destruct (colors_read entries p r Fe) as [p' ->] end.
  rewrite <- app_assoc. change (2 ^ 16) with 65536 in Ht. rewrite (s_int_at read_int_16le _ _ (zlen texts)) by (apply le16_count; unfold zlen in *; lia).
  rewrite s_read_at by reflexivity.
  destruct (utf8_round_trip (lead ++ flat_map zhs_text (entries ++ extra))) as (s & Es & _ & Ds).
  { apply Forall_app. split; [apply unmarked_scalar, Hl|apply texts_scalar, F]. }
  rewrite Et in Es. injection Es as <-. rewrite Ds. rewrite texts_split by (try apply pb_unmarked; assumption). cbn [tl bindr].
  rewrite (ends_seek _ _ _ H3). cbn [snd]. rewrite E. cbn [bindr]. rewrite notes_map. reflexivity.
Qed.

Lemma zhs_stitches_any b : exists l, zhs_stitches b = Ok l /\ one_end l.
Proof.
  destruct (good3 quiet _ (0, 0) zhs_calm b) as (ev & E & _ & _). unfold zhs_stitches.
  destruct (ended (loop3 zhs_body (0, 0) b)) as [l|e] eqn:El; [|rewrite E in El; discriminate].
  exists l. split; [reflexivity|]. exact (end_zhs _ _ El).
Qed.
Lemma notes_length : forall ts ds, List.length (zhs_notes ts ds) = List.length ts.
Proof. induction ts as [|t ts IH]; intros [|d ds]; cbn [zhs_notes List.length]; auto. Qed.
Lemma colors_length : forall n f, List.length (fst (zhs_colors n f)) = n.
Proof.
  induction n as [|n IH]; intros f; cbn [zhs_colors]; [reflexivity|]. destruct (s_int read_int_24be f) as [c g].
  specialize (IH g). destruct (zhs_colors n g) as [l h]. cbn [fst List.length] in *. auto.
Qed.
Lemma int32_none r : fst (read_int_32le r) = None <-> zlen r < 4.
Proof. unfold read_int_32le, zlen. destruct r as [|a [|b [|c [|d r]]]]; cbn [fst firstn List.length]; split; intros H; try discriminate; try lia; reflexivity. Qed.
Lemma int8_none r : fst (read_int_8 r) = None <-> r = [].
Proof. destruct r; cbn; split; intros; try discriminate; reflexivity. Qed.
