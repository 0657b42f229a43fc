(** Which files the readers of PEC, PES and VP3 accept. *)
From Coq Require Import Ascii String ZArith Bool List Lia.
From Verif Require Import PyBase EmbConst BitLemmas HelperModel StreamModel PatternModel Utf8Model TextModel Vp3Model ThreadModel
  PecModel PecFileModel PesModel ReadableSpec ReadableProofs.
From Verif Require DstAnyProofs ValueProofs.
Import ListNotations.
Open Scope Z_scope.

(** ** Streams: only what is left matters *)
Lemma seek_is n p (s : list Z) : exists q, s_seek n (p, s) = (q, skipn (Z.to_nat n) s).
Proof. eexists. reflexivity. Qed.
Lemma read_is n p s : 0 <= n -> exists q, s_read n (p, s) = (firstn (Z.to_nat n) s, (q, skipn (Z.to_nat n) s)).
Proof. intros H. unfold s_read. destruct (Z.ltb_spec n 0); [lia|]. eexists. reflexivity. Qed.
Lemma string_is n p s : 0 <= n -> exists t q, read_string_8 (Some n) (p, s) = (t, (q, skipn (Z.to_nat n) s)).
Proof. intros H. unfold read_string_8. destruct (read_is n p s H) as (q & ->). eauto. Qed.
Lemma int8_is p s : exists q, s_int read_int_8 (p, s) = (if zlen s <? 1 then None else Some (at_ 0 s), (q, skipn 1 s)).
Proof. unfold s_int. cbn [snd fst]. rewrite read8_is. eauto. Qed.
Lemma int24_is p s : exists v q, s_int read_int_24le (p, s) = (if zlen s <? 3 then None else Some v, (q, skipn 3 s)).
Proof. unfold s_int. cbn [snd fst]. destruct (read24le_is s) as (v & ->). eauto. Qed.

(** ** PEC *)
Lemma chart_rest (color_bytes : list Z) : forall chart known, List.length (process_pec_table color_bytes chart known) = List.length color_bytes.
Proof.
  induction color_bytes as [|b r IH]; intros chart known; [reflexivity|]. cbn [process_pec_table].
  destruct (find _ known) as [[k [t|]]|]; [|destruct chart|destruct chart]; cbn [List.length]; rewrite IH; reflexivity.
Qed.
Lemma chart_enough color_bytes chart : zlen color_bytes <= zlen (map_pec_colors color_bytes chart).
Proof.
  unfold map_pec_colors. destruct chart as [|t chart].
  - unfold process_pec_colors, zlen. rewrite map_length. lia.
  - destruct (Z.leb_spec (zlen color_bytes) (zlen (t :: chart))).
    + unfold zlen in *. rewrite map_length. lia.
    + unfold zlen. rewrite chart_rest. lia.
Qed.
Lemma graphics_ok : forall n i size stride values f, 0 <= i -> i + Z.of_nat n <= zlen values -> exists m, read_pec_graphics n i size stride values f = Ok m.
Proof.
  induction n as [|n IH]; intros i size stride values f H L; [cbn; eauto|]. cbn [read_pec_graphics].
  destruct (s_read size f) as [g f']. unfold py_index. destruct (Z.ltb_spec i 0); [lia|].
  destruct (nth_error values (Z.to_nat i)) as [t|] eqn:E.
  - cbn [bindr]. destruct (IH (i + 1) size stride values f' ltac:(lia) ltac:(lia)) as (m & ->). cbn [bindr]. eauto.
  - apply nth_error_None in E. unfold zlen in L. lia.
Qed.

Lemma pec_block_outcome file p rest chart : a_file rest ->
  if zlen rest <? 517 then read_pec file (p, rest) chart = Err TypeError else exists r, read_pec file (p, rest) chart = Ok r.
Proof.
  intros F. unfold read_pec.
  destruct (seek_is 3 p rest) as (q1 & ->). destruct (string_is 16 q1 (skipn (Z.to_nat 3) rest) ltac:(lia)) as (t & q2 & ->).
  destruct (seek_is 15 q2 (skipn (Z.to_nat 16) (skipn (Z.to_nat 3) rest))) as (q3 & ->).
  rewrite !skip_skip. destruct (int8_is q3 (skipn (Z.to_nat 3 + (Z.to_nat 16 + Z.to_nat 15)) rest)) as (q4 & E4).
  replace (Z.to_nat 3 + Z.to_nat 16 + Z.to_nat 15)%nat with (Z.to_nat 3 + (Z.to_nat 16 + Z.to_nat 15))%nat by lia. rewrite E4. clear E4.
  match goal with |- context [s_int read_int_8 (q4, ?s)] => destruct (int8_is q4 s) as (q5 & ->) end.
  match goal with |- context [s_seek 12 (q5, ?s)] => destruct (seek_is 12 q5 s) as (q6 & ->) end.
  match goal with |- context [s_int read_int_8 (q6, ?s)] => destruct (int8_is q6 s) as (q7 & ->) end.
  rewrite !skip_skip.
  repeat match goal with |- context [skipn ?k rest] => let k' := eval vm_compute in k in progress change (skipn k rest) with (skipn k' rest) end.
  rewrite !zlen_skip. change (Z.of_nat 48) with 48. change (Z.of_nat 34) with 34. change (Z.of_nat 35) with 35.
  destruct (Z.ltb_spec (Z.max 0 (zlen rest - 48)) 1) as [A|A].
  { cbn [some bindr]. destruct (Z.ltb_spec (zlen rest) 517); [reflexivity|lia]. }
  cbn [some bindr]. set (cc := at_ 0 (skipn 48 rest)).
  assert (C : 0 <= cc < 256) by (apply file_at, file_skip, F).
  destruct (read_is (cc + 1) q7 (skipn 49 rest) ltac:(lia)) as (q8 & ->).
  match goal with |- context [s_seek ?n (q8, ?s)] => destruct (seek_is n q8 s) as (q9 & ->) end.
  rewrite !skip_skip.
  match goal with |- context [s_int read_int_24le (q9, skipn ?k rest)] => replace k with 514%nat by lia end.
  match goal with |- context [s_int read_int_24le (q9, ?s)] => destruct (int24_is q9 s) as (v & q10 & ->) end.
  rewrite !zlen_skip. change (Z.of_nat 514) with 514.
  destruct (Z.ltb_spec (zlen rest) 517) as [B|B].
  { destruct (Z.ltb_spec (Z.max 0 (zlen rest - 514)) 3); [reflexivity|lia]. }
  destruct (Z.ltb_spec (Z.max 0 (zlen rest - 514)) 3); [lia|]. cbn [some bindr].
  destruct (Z.ltb_spec (Z.max 0 (zlen rest - 34)) 1); [lia|]. destruct (Z.ltb_spec (Z.max 0 (zlen rest - 35)) 1); [lia|]. cbn [some bindr].
  match goal with |- context [read_pec_graphics ?n 0 ?size ?stride ?values ?f] =>
    destruct (graphics_ok n 0 size stride values f ltac:(lia)) as (m & ->) end.
  - pose proof (chart_enough (firstn (Z.to_nat (cc + 1)) (skipn 49 rest)) chart) as E.
    assert (L : zlen (firstn (Z.to_nat (cc + 1)) (skipn 49 rest)) = cc + 1).
    { unfold zlen in *. rewrite firstn_length, skipn_length. lia. }
    unfold zlen in *. cbn [List.length]. lia.
  - cbn [bindr]. eauto.
Qed.
Lemma string_start file : exists t q, read_string_8 (Some 8) (0, file) = (t, (q, skipn 8 file)).
Proof. exact (string_is 8 0 file ltac:(lia)). Qed.
Theorem pec_outcome file : a_file file ->
  if zlen file <? 525 then pec_file_read file = Err TypeError else exists r, pec_file_read file = Ok r.
Proof.
  intros F. unfold pec_file_read. destruct (string_start file) as (t & q & ->).
  pose proof (pec_block_outcome file q (skipn 8 file) [] (file_skip 8 _ F)) as O. rewrite zlen_skip in O. change (Z.of_nat 8) with 8 in O.
  destruct (Z.ltb_spec (zlen file) 525); destruct (Z.ltb_spec (Z.max 0 (zlen file - 8)) 517); try lia.
  - rewrite O. reflexivity.
  - destruct O as (r & ->). cbn [bindr]. eauto.
Qed.

(** ** PES *)
Lemma some_type {A} (v : option A) : (exists a, some v = Ok a) \/ some v = Err TypeError.
Proof. destruct v; [left; eexists; reflexivity|right; reflexivity]. Qed.
Lemma pes_threads_type : forall n f, (exists l, read_pes_threads n f = Ok l) \/ read_pes_threads n f = Err TypeError.
Proof.
  induction n as [|n IH]; intros f; [left; eexists; reflexivity|]. cbn [read_pes_threads]. unfold read_pes_thread.
  destruct (read_pes_string f) as [c f1]. destruct (s_int _ f1) as [[v|] f2]; cbn [some bindr]; [|right; reflexivity].
  destruct (read_pes_string _) as [c3 f3]. destruct (read_pes_string f3) as [c4 f4]. destruct (read_pes_string f4) as [c5 f5]. cbn [bindr].
  destruct (IH f5) as [(l & ->)| ->]; cbn [bindr]; [left; eexists; reflexivity|right; reflexivity].
Qed.
Lemma pes_counts_type f : (exists l, read_pes_counts f = Ok l) \/ read_pes_counts f = Err TypeError.
Proof.
  unfold read_pes_counts. destruct (s_int _ f) as [[[|v|v]|] f1]; try (left; eexists; reflexivity).
  destruct (s_int _ f1) as [[[|v|v]|] f2]; try (left; eexists; reflexivity).
  destruct (s_int _ f2) as [[[|v|v]|] f3]; try (left; eexists; reflexivity).
  destruct (s_int _ f3) as [[v|] f4]; cbn [some bindr]; [apply pes_threads_type|right; reflexivity].
Qed.
Lemma pes_header_type hoop skip image skip2 f : (exists l, read_pes_header hoop skip image skip2 f = Ok l) \/ read_pes_header hoop skip image skip2 f = Err TypeError.
Proof.
  unfold read_pes_header. destruct (read_pes_metadata _) as [m1 f1].
  destruct (if hoop then _ else _) as [m2 f2]. destruct (read_pes_entry _ _) as [m3 f3].
  destruct (pes_counts_type (s_seek skip2 f3)) as [(l & ->)| ->]; cbn [bindr]; [left; eexists; reflexivity|right; reflexivity].
Qed.
(** A text of ASCII characters is decoded from its own bytes only. *)
Lemma decode_ascii : forall t s, Forall (fun c => c < 0x80) t -> utf8_decode s = Some t -> s = t.
Proof.
  induction t as [|c t IH]; intros s H E.
  - destruct s as [|b s]; [reflexivity|]. exfalso. clear -E. cbn [utf8_decode] in E.
    assert (O : forall c x, ocons c x <> Some []) by (intros c [x|]; discriminate).
    repeat match type of E with
    | (if ?b then _ else _) = _ => destruct b
    | match ?l with [] => _ | _ :: _ => _ end = _ => destruct l
    | ocons _ _ = _ => exact (O _ _ E)
    | None = _ => discriminate E
    | _ => cbv zeta in E
    end.
  - inversion H as [|c' t' Hc Ht]; subst. apply DstAnyProofs.decode_first in E as (a & s' & -> & E & A & _). rewrite (A Hc), (IH _ Ht E). reflexivity.
Qed.
Lemma is_text_bytes s bytes : Forall (fun c => c < 0x80) (text_of s) -> is_text (utf8_decode bytes) s = true -> bytes = text_of s.
Proof.
  intros H E. unfold is_text in E. destruct (utf8_decode bytes) as [t|] eqn:D; [|discriminate].
  apply ValueProofs.text_eqb_iff in E. subst t. exact (decode_ascii _ _ H D).
Qed.
Lemma signature_is file : exists q, read_string_8 (Some 8) (0, file) = (utf8_decode (firstn 8 file), (q, skipn 8 file)).
Proof. unfold read_string_8. destruct (read_is 8 0 file ltac:(lia)) as (q & ->). eauto. Qed.

Ltac ascii := unfold text_of; cbn; repeat (constructor; [lia|]); constructor.
Lemma version_plain bytes f : (forall s, In s ["#PES0100"; "#PES0090"; "#PES0080"; "#PES0070"; "#PES0060"; "#PES0050"; "#PES0055"; "#PES0056"]%string -> bytes <> text_of s) ->
  exists m, read_pes_version (utf8_decode bytes) f = Ok ([], m).
Proof.
  intros N. unfold read_pes_version.
  assert (R : forall s, In s ["#PES0100"; "#PES0090"; "#PES0080"; "#PES0070"; "#PES0060"; "#PES0050"; "#PES0055"; "#PES0056"]%string -> is_text (utf8_decode bytes) s = false).
  { intros s H. destruct (is_text (utf8_decode bytes) s) eqn:E; [|reflexivity]. exfalso. apply (N s H). apply is_text_bytes; [|exact E].
    cbn [In] in H. repeat destruct H as [<-|H]; try contradiction; ascii. }
  rewrite !R by (cbn [In]; tauto). destruct (read_pes_metadata _) as [m f'].
  repeat match goal with |- context [if ?b then _ else _] => destruct b end; eexists; reflexivity.
Qed.
Lemma version_type sig f : (exists t m, read_pes_version sig f = Ok (t, m)) \/ read_pes_version sig f = Err TypeError.
Proof.
  unfold read_pes_version. destruct (read_pes_metadata _) as [m f'].
  repeat match goal with
  | |- context [if is_text ?a ?b then _ else _] => destruct (is_text a b);
      [match goal with
       | |- context [read_pes_header ?h ?s ?i ?s2 f] => destruct (pes_header_type h s i s2 f) as [((t & m') & ->)| ->]; cbn [bindr];
           [left; do 2 eexists; reflexivity|right; reflexivity]
       | _ => left; do 2 eexists; reflexivity
       end|]
  end.
  left; do 2 eexists; reflexivity.
Qed.

Lemma threads_signature file s : In s ["#PES0100"; "#PES0090"; "#PES0080"; "#PES0070"; "#PES0060"; "#PES0050"; "#PES0055"; "#PES0056"]%string ->
  firstn 8 file = text_of s -> pes_with_threads file.
Proof.
  intros H E. unfold pes_with_threads. rewrite E. clear E. cbn [In] in H.
  repeat destruct H as [<-|H]; try contradiction;
    match goal with |- context [text_of ?s] => let t := eval vm_compute in (text_of s) in change (text_of s) with t end;
    first [right; reflexivity|left; do 2 eexists; split; [reflexivity|lia]].
Qed.

(** Where the PEC part of a file of the PES format starts. *)
Theorem pes_outcome file : a_file file ->
  let start := number32 8 file in
  (pec_signature file -> if zlen file <? 525 then pes_read file = Err TypeError else exists r, pes_read file = Ok r) /\
  (~ pec_signature file ->
     (if (zlen file <? 12) || (zlen file <? start + 517) then pes_read file = Err TypeError
      else pes_read file = Err TypeError \/ exists r, pes_read file = Ok r) /\
     (~ pes_with_threads file -> 12 <= zlen file -> start + 517 <= zlen file -> exists r, pes_read file = Ok r)).
Proof.
  intros F start. unfold pes_read. destruct (signature_is file) as (q & ->).
  pose proof (number_range 8 file F) as NR. fold start in NR.
  assert (P : is_text (utf8_decode (firstn 8 file)) "#PEC0001" = true <-> pec_signature file).
  { unfold pec_signature. split; intros H.
    - rewrite (is_text_bytes "#PEC0001" _ ltac:(ascii) H). reflexivity.
    - rewrite H. reflexivity. }
  split; intros S.
  { rewrite (proj2 P S). pose proof (pec_block_outcome file q (skipn 8 file) [] (file_skip 8 _ F)) as O. rewrite zlen_skip in O. change (Z.of_nat 8) with 8 in O.
    destruct (Z.ltb_spec (zlen file) 525); destruct (Z.ltb_spec (Z.max 0 (zlen file - 8)) 517); try lia.
    - rewrite O. reflexivity.
    - destruct O as (r & ->). cbn [bindr]. eauto. }
  replace (is_text (utf8_decode (firstn 8 file)) "#PEC0001") with false by (destruct (is_text _ _) eqn:E; [exfalso; exact (S (proj1 P eq_refl))|reflexivity]).
  unfold s_int. cbn [snd fst]. rewrite (read32le_is _ (file_skip 8 _ F)), zlen_skip. change (Z.of_nat 8) with 8.
  replace (number32 0 (skipn 8 file)) with start by (unfold number32; rewrite !at_skip; reflexivity).
  match goal with |- context [read_pes_version ?s ?f] => set (V := read_pes_version s f) end.
  assert (VT : (exists t m, V = Ok (t, m)) \/ V = Err TypeError) by apply version_type.
  assert (VP : ~ pes_with_threads file -> exists m, V = Ok ([], m)).
  { intros N. apply version_plain. intros s H E. exact (N (threads_signature file s H E)). }
  assert (B : forall chart, if zlen file <? start + 517 then read_pec file (seek_to file start) chart = Err TypeError
    else exists r, read_pec file (seek_to file start) chart = Ok r).
  { intros chart. unfold seek_to. pose proof (pec_block_outcome file start (skipn (Z.to_nat start) file) chart (file_skip _ _ F)) as O.
    rewrite zlen_skip, Z2Nat.id in O by lia.
    destruct (Z.ltb_spec (zlen file) (start + 517)); destruct (Z.ltb_spec (Z.max 0 (zlen file - start)) 517); try lia; exact O. }
  destruct (Z.ltb_spec (zlen file) 12) as [A|A].
  - destruct (Z.ltb_spec (Z.max 0 (zlen file - 8)) 4); [|lia]. split; [|intros _ HH; lia]. cbn [orb].
    destruct VT as [(t & m & ->)| ->]; reflexivity.
  - destruct (Z.ltb_spec (Z.max 0 (zlen file - 8)) 4); [lia|]. cbn [orb]. split.
    + destruct (zlen file <? start + 517).
      * destruct VT as [(t & m & ->)| ->]; [|reflexivity]. cbn [bindr some]. rewrite (B t). reflexivity.
      * destruct VT as [(t & m & ->)| ->]; [|left; reflexivity]. right. cbn [bindr some]. destruct (B t) as (((st & th) & m') & ->). cbn [bindr]. eauto.
    + intros N _ L. destruct (VP N) as (m & ->). cbn [bindr some]. pose proof (B []) as Bn.
      destruct (Z.ltb_spec (zlen file) (start + 517)); [lia|]. destruct Bn as (((st & th) & m') & ->). cbn [bindr]. eauto.
Qed.

(** ** VP3 *)
Definition type_or_index {A} (r : res A) : Prop := (exists a, r = Ok a) \/ r = Err TypeError \/ r = Err IndexError.
Lemma toi_ok {A} (a : A) : type_or_index (Ok a). Proof. left. eauto. Qed.
Lemma toi_bind {A B} (r : res A) (f : A -> res B) : type_or_index r -> (forall a, type_or_index (f a)) -> type_or_index (bindr r f).
Proof. intros [(a & ->)|[-> | ->]] H; cbn [bindr]; [apply H|right; left; reflexivity|right; right; reflexivity]. Qed.
Lemma toi_some {A} (v : option A) : type_or_index (some v).
Proof. destruct v; [apply toi_ok|right; left; reflexivity]. Qed.
Lemma decode_index : forall n l, (List.length l <= n)%nat -> type_or_index (vp3_decode l).
Proof.
  induction n as [|n IH]; intros l L; [destruct l; [apply toi_ok|cbn in L; lia]|].
  destruct l as [|x [|y r]]; try apply toi_ok. cbn [vp3_decode]. cbn [List.length] in L.
  destruct (negb _); [apply toi_bind; [apply IH; lia|intros; apply toi_ok]|].
  destruct (y =? 1).
  - destruct r as [|a [|b [|c [|d r]]]]; try (right; right; reflexivity).
    apply toi_bind; [|intros; apply toi_ok]. destruct r as [|e [|f r]]; try apply toi_ok. apply IH. cbn [List.length] in L. lia.
  - destruct (y =? 2); [apply IH; lia|]. destruct (y =? 3); [apply toi_bind; [apply IH; lia|intros; apply toi_ok]|apply IH; lia].
Qed.
Lemma skip_index f : type_or_index (skip_vp3_string f).
Proof. unfold skip_vp3_string. destruct (s_int _ f) as [v f']. apply toi_bind; [apply toi_some|intros; apply toi_ok]. Qed.
Lemma block_index cx cy f o : type_or_index (vp3_read_colorblock cx cy f o).
Proof.
  unfold vp3_read_colorblock. destruct (s_read 3 f) as [b f1]. destruct (s_int _ f1) as [d f2]. apply toi_bind; [apply toi_some|intros dist].
  destruct (s_int _ f2) as [x f3]. apply toi_bind; [apply toi_some|intros xx]. destruct (s_int _ f3) as [y f4]. apply toi_bind; [apply toi_some|intros yy].
  apply toi_bind.
  - unfold vp3_read_thread. destruct (s_int _ f4) as [c f5]. destruct (s_int _ f5) as [tr f6]. apply toi_bind; [apply toi_some|intros cs].
    destruct (vp3_read_colors _ _ _) as [col f7]. destruct (s_int _ f7) as [a8 f8]. destruct (s_int _ f8) as [a9 f9].
    destruct (read_vp3_string_8 f9) as [s1 g1]. destruct (read_vp3_string_8 g1) as [s2 g2]. destruct (read_vp3_string_8 g2) as [s3 g3]. apply toi_ok.
  - intros [t f5]. destruct (s_read 3 _) as [b6 f6]. destruct (s_read _ f6) as [b7 f7]. apply toi_bind; [exact (decode_index _ _ (Nat.le_refl _))|intros; apply toi_ok].
Qed.
Lemma blocks_index : forall n cx cy f o threads, type_or_index (vp3_read_blocks n cx cy f o threads).
Proof.
  induction n as [|n IH]; intros cx cy f o threads; [apply toi_ok|]. cbn [vp3_read_blocks]. apply toi_bind; [apply block_index|].
  intros [[t f'] o']. apply IH.
Qed.
Theorem vp3_outcome file : type_or_index (vp3_read file).
Proof.
  unfold vp3_read. destruct (s_read 6 _) as [b f1]. apply toi_bind; [apply skip_index|intros f2]. apply toi_bind; [apply skip_index|intros f3].
  destruct (s_int _ _) as [cx f4]. apply toi_bind; [apply toi_some|intros x]. destruct (s_int _ f4) as [cy f5]. apply toi_bind; [apply toi_some|intros y].
  apply toi_bind; [apply skip_index|intros f6]. apply toi_bind; [apply skip_index|intros f7]. destruct (s_int _ f7) as [n f8].
  apply toi_bind; [apply toi_some|intros count]. apply toi_bind; [apply blocks_index|]. intros [o threads]. apply toi_ok.
Qed.
