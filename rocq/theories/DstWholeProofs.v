(** Whole DST files written and read back. *)
From Coq Require Import Ascii String ZArith QArith Qabs List Bool Lia Lqa.
From Verif Require Import PyBase EmbConst StreamModel StreamSpec StreamProofs NumQ QuantModel QuantProofs ThreadModel Utf8Model Utf8Proofs
  TextModel PatternModel PatternProofs DstModel DstSpec DstProofs DstFileProofs DstFileModel DstFileSpec DstHeaderProofs
  DstTrimProofs DstEntryProofs BitLemmas.
Import ListNotations.
Open Scope Z_scope.
Ltac Zify.zify_post_hook ::= idtac.

Lemma whole_cut v : whole v (q_cut v).
Proof.
  destruct v as [n d]. unfold whole, q_cut. cbn [Qnum Qden]. unfold Qle, Qlt, inject_Z, Qplus, Qminus, Qopp. cbn [Qnum Qden].
  rewrite !Z.mul_1_r, ?Z.mul_1_l, ?Z.opp_involutive. split; intros H.
  - rewrite Z.quot_div_nonneg by lia. pose proof (Z.mul_div_le n (Z.pos d) ltac:(lia)). pose proof (Z.mul_succ_div_gt n (Z.pos d) ltac:(lia)).
    rewrite ?Pos.mul_1_l, ?Pos.mul_1_r. generalize dependent (n / Z.pos d); intros; nia.
  - assert (E : exists m, n = - m) by (exists (- n); lia). destruct E as [m ->].
    rewrite Z.quot_opp_l by lia. rewrite Z.quot_div_nonneg by lia.
    pose proof (Z.mul_div_le m (Z.pos d) ltac:(lia)). pose proof (Z.mul_succ_div_gt m (Z.pos d) ltac:(lia)).
    rewrite ?Pos.mul_1_l, ?Pos.mul_1_r. generalize dependent (m / Z.pos d); intros. unfold Qplus. cbn [Qnum Qden]. nia.
Qed.
Lemma whole_abs v : whole (Qabs v) (Z.abs (q_cut v)).
Proof.
  destruct v as [n d]. replace (Z.abs (q_cut (n # d))) with (q_cut (Z.abs n # d)); [apply whole_cut|].
  unfold q_cut. cbn [Qnum Qden]. rewrite <- Z.quot_abs by lia. reflexivity.
Qed.
Lemma whole_small v n : whole v n -> (Qabs v < inject_Z (10 ^ 10))%Q -> - 10 ^ 10 < n < 10 ^ 10.
Proof.
  intros [H1 H2] B. apply Qabs_Qlt_condition in B as [B1 B2].
  destruct (Qlt_le_dec v 0) as [L|L].
  - destruct (H2 (Qlt_le_weak _ _ L)) as [A1 A2]. 
    assert (- inject_Z (10 ^ 10) < inject_Z n)%Q by lra. assert (inject_Z n < inject_Z (10 ^ 10))%Q.
    { apply Qlt_le_trans with (v + 1)%Q; [lra|]. apply Qle_trans with (inject_Z 1); [unfold inject_Z at 1; lra|]. rewrite <- Zle_Qle. lia. }
    rewrite <- inject_Z_opp in H. rewrite <- Zlt_Qlt in H, H0. lia.
  - destruct (H1 L) as [A1 A2].
    assert (- inject_Z (10 ^ 10) < inject_Z n)%Q.
    { apply Qlt_trans with (v - 1 - 1)%Q; [|lra]. rewrite <- inject_Z_opp. apply Qlt_le_trans with (inject_Z (-2)); [rewrite <- Zlt_Qlt; lia|]. change (inject_Z (-2)) with (0 - 1 - 1)%Q. lra. }
    assert (inject_Z n < inject_Z (10 ^ 10))%Q by lra.
    rewrite <- inject_Z_opp in H. rewrite <- Zlt_Qlt in H, H0. lia.
Qed.
Lemma bounds_extent l : l <> [] -> exists x0 y0 x1 y1, bounds l = (Some x0, Some y0, Some x1, Some y1) /\
  extent sx l x0 x1 /\ extent sy l y0 y1.
Proof.
  intros N. pose proof (bounds_covers l) as C. destruct (bounds l) as [[[x0 y0] x1] y1]. unfold covers in C.
  destruct x0 as [x0|], y0 as [y0|], x1 as [x1|], y1 as [y1|]; try contradiction.
  destruct C as (F & (a & Ia & Ea) & (b & Ib & Eb) & (c & Ic & Ec) & (d & Id & Ed)).
  exists x0, y0, x1, y1. split; [reflexivity|]. split; (split; [|split]).
  - exists a. split; [exact Ia|rewrite Ea; reflexivity].
  - exists c. split; [exact Ic|rewrite Ec; reflexivity].
  - eapply Forall_impl; [|exact F]. cbn. tauto.
  - exists b. split; [exact Ib|rewrite Eb; reflexivity].
  - exists d. split; [exact Id|rewrite Ed; reflexivity].
  - eapply Forall_impl; [|exact F]. cbn. tauto.
Qed.

Lemma read_loop_length : forall k s sq, (List.length s <= k)%nat -> (List.length (dst_read_loop sq s) <= List.length s)%nat.
Proof.
  induction k; intros s sq H.
  - destruct s; [cbn; lia|cbn in H; lia].
  - destruct s as [|b0 [|b1 [|b2 r]]]; cbn [dst_read_loop List.length]; try lia. cbn [List.length] in H.
    destruct (dst_kind sq b2); [|cbn; lia]. cbn [List.length]. specialize (IHk r (if z =? SEQUIN_MODE then negb sq else sq) ltac:(lia)). lia.
Qed.
Lemma apply_rel_length : forall l x y, List.length (apply_rel x y l) = List.length l.
Proof. induction l as [|s l IH]; intros x y; [reflexivity|]. cbn [apply_rel List.length]. rewrite IH. reflexivity. Qed.

(** The coordinates and the count that fit the fields of the header. *)
Definition small (l : list (stitch Q)) : Prop :=
  zlen l < 10 ^ 10 /\ Forall (fun s => (Qabs (sx s) < inject_Z (10 ^ 10))%Q /\ (Qabs (sy s) < inject_Z (10 ^ 10))%Q) l.

Lemma filter_len {A} (f : A -> bool) l : (List.length (filter f l) <= List.length l)%nat.
Proof. induction l as [|a l IH]; cbn [filter List.length]; [lia|]. destruct (f a); cbn [List.length]; lia. Qed.

Theorem dst_file extended t p (body : list (stitch Q)) e :
  let l := body ++ [e] in
  2 <= t -> info_ok extended p -> header_room extended p -> small l ->
  dst_representable true false 0 0 (written l) -> tidy t true None 0 0 (before_end (written l)) ->
  exists file x0 y0 x1 y1 nx0 ny0 nx1 ny1 ax ay,
    dst_write extended t p l = Ok file /\
    extent sx l x0 x1 /\ extent sy l y0 y1 /\ whole (Qabs x0) nx0 /\ whole (Qabs x1) nx1 /\ whole (Qabs y0) ny0 /\ whole (Qabs y1) ny1 /\
    whole (sx e) ax /\ whole (sy e) (- ay) /\
    forall fuel, (List.length file <= fuel)%nat ->
    dst_read t None true fuel file = Ok (map of_int (closed (relabel dst_name (before_end (written l)))),
      mkDL (header_threads extended p)
           (header_meta extended p (zlen l) (zlen (filter (fun s => cmd_of (scmd s) =? COLOR_CHANGE) l)) nx0 nx1 ny0 ny1 ax ay)).
Proof.
  intros l Ht Hi Hr [S1 S2] Hd Hy.
  assert (N : l <> []) by (unfold l; destruct body; discriminate).
  destruct (bounds_extent l N) as (x0 & y0 & x1 & y1 & Eb & X & Y).
  assert (El : match rev l with s :: _ => (q_cut (sx s), - q_cut (sy s)) | [] => (0, 0) end = (q_cut (sx e), - q_cut (sy e))).
  { unfold l. rewrite rev_app_distr. reflexivity. }
  assert (Sm : forall v, (exists s, In s l /\ (sx s == v)%Q) \/ (exists s, In s l /\ (sy s == v)%Q) -> 0 <= Z.abs (q_cut v) < 10 ^ 10).
  { intros v Hv. assert (B : (Qabs v < inject_Z (10 ^ 10))%Q).
    { rewrite Forall_forall in S2. destruct Hv as [(s & Hs & <-)|(s & Hs & <-)]; apply (S2 s Hs). }
    pose proof (whole_small v _ (whole_cut v) B). lia. }
  pose proof (Sm x0 (or_introl (proj1 X))) as B0. pose proof (Sm x1 (or_introl (proj1 (proj2 X)))) as B1.
  pose proof (Sm y0 (or_intror (proj1 Y))) as B2. pose proof (Sm y1 (or_intror (proj1 (proj2 Y)))) as B3.
  assert (Ie : In e l) by (unfold l; apply in_or_app; right; left; reflexivity).
  assert (B4 : - 10 ^ 10 < q_cut (sx e) < 10 ^ 10 /\ - 10 ^ 10 < - q_cut (sy e) < 10 ^ 10).
  { rewrite Forall_forall in S2. destruct (S2 e Ie) as [Q1 Q2].
    pose proof (whole_small _ _ (whole_cut _) Q1). pose proof (whole_small _ _ (whole_cut _) Q2). lia. }
  assert (B5 : 0 <= zlen l < 10 ^ 10) by (unfold zlen in *; lia).
  assert (B6 : 0 <= count_color_changes l < 10 ^ 10).
  { unfold count_color_changes, zlen in *. pose proof (filter_len (fun s : stitch Q => cmd_of (scmd s) =? COLOR_CHANGE) l). lia. }
  pose proof (header_text_entries extended p l _ _ _ _ _ _ Eb El) as Et.
  destruct (dst_roundtrip_gen true t (written l) Hd) as (bs & Ebs & _ & Rbs).
  destruct (read_header_lines _ bs (entries_keys extended p (zlen l) (count_color_changes l) (Z.abs (q_cut x0)) (Z.abs (q_cut x1))
      (Z.abs (q_cut y0)) (Z.abs (q_cut y1)) (q_cut (sx e)) (- q_cut (sy e))) (entries_lines extended p _ _ _ _ _ _ _ _ Hi)
      (entries_size extended p _ _ _ _ _ _ _ _ Hr B5 B6 B0 B1 B2 B3 (proj1 B4) (proj2 B4))) as (h & Eh & Rh & Sh).
  assert (Ew : dst_body qz_q t l = Ok bs).
  { unfold dst_body in *. rewrite <- Ebs. unfold written. rewrite quantise_snap. reflexivity. }
  eexists. exists x0, y0, x1, y1, (Z.abs (q_cut x0)), (Z.abs (q_cut y0)), (Z.abs (q_cut x1)), (Z.abs (q_cut y1)), (q_cut (sx e)), (- q_cut (sy e)).
  split.
  { unfold dst_write. rewrite Et. cbn [bindr]. rewrite Eh. cbn [bindr]. rewrite Ew. cbn [bindr]. reflexivity. }
  split; [exact X|]. split; [exact Y|]. split; [apply whole_abs|]. split; [apply whole_abs|]. split; [apply whole_abs|]. split; [apply whole_abs|].
  split; [apply whole_cut|]. split; [rewrite Z.opp_involutive; apply whole_cut|].
  intros fuel Hf. unfold dst_read. rewrite Rh, (read_all extended p _ _ _ _ _ _ _ _ Hi). cbn [bindr]. rewrite Sh, Rbs.
  rewrite dst_trims_back; [reflexivity|exact Ht|exact Hy|].
  assert (L1 : (List.length (closed (dst_view (trim_offsets t) (before_end (written l)))) <= List.length bs + 1)%nat).
  { rewrite <- Rbs. unfold dst_read_raw. rewrite apply_rel_length, app_length. cbn [List.length].
    pose proof (read_loop_length _ bs false (Nat.le_refl _)). lia. }
  assert (L2 : List.length (closed (dst_view (trim_offsets t) (before_end (written l)))) = S (List.length (dst_view (trim_offsets t) (before_end (written l))))).
  { unfold closed. destruct (needle_after 0 0 _). rewrite app_length. cbn [List.length]. lia. }
  assert (L3 : (512 + List.length bs <= fuel)%nat).
  { eapply Nat.le_trans; [|exact Hf]. rewrite !app_length, repeat_length. lia. }
  lia.
Qed.
