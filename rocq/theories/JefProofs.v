From Coq Require Import ZArith List Bool Lia.
From Verif Require Import PyBase EmbConst StreamModel StreamSpec StreamProofs BitLemmas
  HelperModel HelperProofs Tactics EightBitProofs JefModel JefSpec.
Import ListNotations.
Open Scope Z_scope.

Notation jef_good := (ev_good 127 [STITCH; JUMP] [COLOR_CHANGE; STOP; TRIM; END]).

(** ** The palette *)
Section Palette.
Context {T : Type} (teq : T -> T -> bool) (near : T -> Z) (near2 : T -> Z -> Z).

Definition nz (i : Z) : Prop := 1 <= i < 2 ^ 32.
Hypothesis near_nz : forall t, nz (near t).
Hypothesis near2_nz : forall t i, nz (near2 t i).

Definition thread_cmds (cmds : list Z) : nat :=
  length (filter (fun c => (c =? COLOR_CHANGE) || (c =? STOP)) cmds).
Definition cc_cmds (cmds : list Z) : nat := length (filter (fun c => c =? COLOR_CHANGE) cmds).

(** The marks the reader will see: [true] for a colour, [false] for a stop. *)
Fixpoint marks (odd : bool) (cmds : list Z) : list bool :=
  match cmds with
  | [] => []
  | c :: r => if c =? COLOR_CHANGE then true :: marks false r
              else if c =? STOP then odd :: marks (negb odd) r
              else marks odd r
  end.

Lemma marks_length : forall cmds odd, length (marks odd cmds) = thread_cmds cmds.
Proof.
  unfold thread_cmds. induction cmds as [|c r IH]; intros odd; [reflexivity|].
  cbn [marks filter]. destruct (c =? COLOR_CHANGE); cbn [orb length]; [rewrite IH; reflexivity|].
  destruct (c =? STOP); cbn [length]; rewrite IH; reflexivity.
Qed.

Definition mark_of (i : Z) : bool := negb (i =? 0).

Lemma palette_started : forall cmds li lt odd rest,
  nz li -> (cc_cmds cmds <= length rest)%nat ->
  exists p, jef_palette teq near near2 (Some (li, lt)) odd rest true cmds = Ok p
    /\ map mark_of p = marks odd cmds /\ Forall (fun i => 0 <= i < 2 ^ 32) p.
Proof.
  induction cmds as [|c r IH]; intros li lt odd rest Hli Hlen.
  { exists []. repeat split. apply Forall_nil. }
  cbn [jef_palette marks negb]. rewrite orb_false_r. unfold cc_cmds in *. cbn [filter] in Hlen.
  destruct (Z.eqb_spec c COLOR_CHANGE) as [E|E].
  - destruct rest as [|t rest]; [cbn in Hlen; lia|]. cbn [length] in Hlen. subst c. ceq.
    set (i := if (li =? near t) && negb (teq lt t) then near2 t (near t) else near t).
    assert (Hi : nz i) by (unfold i; destruct ((li =? near t) && negb (teq lt t)); auto).
    destruct (IH i t false rest Hi ltac:(lia)) as (p & Ep & M & F).
    rewrite Ep. cbn [bindr]. exists (i :: p). split; [reflexivity|]. split.
    + cbn [map]. rewrite M. f_equal. unfold mark_of, nz in *. lia.
    + apply Forall_cons; [unfold nz in *; lia|exact F].
  - destruct (Z.eqb_spec c STOP) as [E'|E'].
    + destruct (IH li lt (negb odd) rest Hli Hlen) as (p & Ep & M & F).
      rewrite Ep. cbn [bindr]. eexists. split; [reflexivity|]. split.
      * cbn [map]. rewrite M. f_equal. unfold mark_of, nz in *. destruct odd; cbn [negb]; [lia|reflexivity].
      * apply Forall_cons; [unfold nz in *; destruct odd; cbn [negb]; lia|exact F].
    + apply IH; assumption.
Qed.

Lemma palette_start : forall c cmds threads,
  c <> COLOR_CHANGE -> (S (cc_cmds cmds) <= length threads)%nat ->
  exists i p, jef_palette teq near near2 None false threads false (c :: cmds) = Ok (i :: p)
    /\ nz i /\ map mark_of p = marks false (c :: cmds) /\ Forall (fun i => 0 <= i < 2 ^ 32) p.
Proof.
  intros c cmds threads Hc Hlen. destruct threads as [|t threads]; [cbn in Hlen; lia|].
  cbn [jef_palette negb]. rewrite orb_true_r. cbn [length] in Hlen.
  exists (near t). cbn [marks].
  replace (c =? COLOR_CHANGE) with false by (symmetry; apply Z.eqb_neq; exact Hc).
  destruct (c =? STOP).
  - destruct (palette_started cmds (near t) t true threads (near_nz t) ltac:(lia)) as (p & Ep & M & F).
    rewrite Ep. cbn [bindr]. exists (0 :: p). split; [reflexivity|]. split; [apply near_nz|]. split.
    + cbn [map negb]. rewrite M. reflexivity.
    + apply Forall_cons; [lia|exact F].
  - destruct (palette_started cmds (near t) t false threads (near_nz t) ltac:(lia)) as (p & Ep & M & F).
    rewrite Ep. cbn [bindr]. exists p. split; [reflexivity|]. split; [apply near_nz|]. split; assumption.
Qed.

(** Whatever happens, a palette is produced only with one entry per section. *)
Lemma palette_length : forall cmds last odd rest started p,
  jef_palette teq near near2 last odd rest started cmds = Ok p ->
  length p = match cmds with
             | [] => 0%nat
             | c :: _ => if negb started && negb (c =? COLOR_CHANGE)
                         then S (thread_cmds cmds) else thread_cmds cmds
             end.
Proof.
  assert (A : forall cmds last odd rest p,
    jef_palette teq near near2 last odd rest true cmds = Ok p -> length p = thread_cmds cmds).
  { induction cmds as [|c r IH]; intros last odd rest p H; cbn [jef_palette negb] in H.
    { injection H as <-. reflexivity. }
    rewrite orb_false_r in H. unfold thread_cmds in *. cbn [filter].
    destruct (Z.eqb_spec c COLOR_CHANGE) as [E|E]; cbn [orb].
    - destruct rest as [|t rest]; [discriminate|]. subst c.
      change (COLOR_CHANGE =? STOP) with false in H. cbn iota in H.
      destruct (jef_palette teq near near2 _ false rest true r) as [q|] eqn:Eq in H; cbn [bindr] in H; [|discriminate].
      injection H as <-. cbn [length]. rewrite (IH _ _ _ _ Eq). reflexivity.
    - destruct (c =? STOP).
      + destruct (jef_palette teq near near2 last (negb odd) rest true r) as [q|] eqn:Eq in H; cbn [bindr] in H; [|discriminate].
        injection H as <-. cbn [length]. rewrite (IH _ _ _ _ Eq). reflexivity.
      + apply (IH _ _ _ _ H). }
  intros cmds last odd rest started p H. destruct started.
  { rewrite (A _ _ _ _ _ H). destruct cmds; [reflexivity|]. cbn [negb andb]. reflexivity. }
  destruct cmds as [|c r]; cbn [jef_palette negb] in H.
  { injection H as <-. reflexivity. }
  rewrite orb_true_r in H. destruct rest as [|t rest]; [discriminate|]. cbn [negb andb].
  unfold thread_cmds. cbn [filter].
  destruct (Z.eqb_spec c STOP) as [E|E].
  - subst c. match type of H with context [jef_palette teq near near2 ?a true rest true r] =>
      destruct (jef_palette teq near near2 a true rest true r) as [q|] eqn:Eq in H end;
      cbn [bindr] in H; [|discriminate].
    injection H as <-. ceq. cbn [length]. rewrite (A _ _ _ _ _ Eq). reflexivity.
  - match type of H with context [jef_palette teq near near2 ?a false rest true r] =>
      destruct (jef_palette teq near near2 a false rest true r) as [q|] eqn:Eq in H end;
      cbn [bindr] in H; [|discriminate].
    injection H as <-. cbn [length]. rewrite (A _ _ _ _ _ Eq). unfold thread_cmds.
    destruct (c =? COLOR_CHANGE); cbn [orb negb length]; reflexivity.
Qed.
End Palette.

(** ** The stitch stream *)
Fixpoint jef_ev_view (n : nat) (odd : bool) (l : list rel) : list rel :=
  match l with
  | [] => []
  | s :: r =>
      let c := cmd_of (scmd s) in
      if c =? STOP then mkS 0 0 (if odd then COLOR_CHANGE else STOP) :: jef_ev_view n (negb odd) r
      else if c =? COLOR_CHANGE then mkS 0 0 COLOR_CHANGE :: jef_ev_view n false r
      else if c =? TRIM then repeat (mkS 0 0 JUMP) n ++ jef_ev_view n odd r
      else mkS (sx s) (sy s) c :: jef_ev_view n odd r
  end.

Definition is_some {A} (o : option A) : bool := match o with Some _ => true | None => false end.

Lemma remove_nth_pre : forall A (pre : list A) x post, remove_nth (length pre) (pre ++ x :: post) = pre ++ post.
Proof. induction pre as [|a pre IH]; intros; cbn [length app remove_nth]; [reflexivity|rewrite IH; reflexivity]. Qed.

Lemma nth_error_pre : forall A (pre : list A) x post, nth_error (pre ++ x :: post) (length pre) = Some x.
Proof. induction pre as [|a pre IH]; intros; cbn [length app nth_error]; [reflexivity|apply IH]. Qed.

Definition cmds_of {C} (l : list (stitch C)) : list Z := map (fun s => cmd_of (scmd s)) l.

Lemma read_zero_jumps : forall T m (threads : list (option T)) ci s,
  jef_read_loop threads ci (concat (repeat [0x80; 0x02; 0; 0] m) ++ s)
  = do '(t, th) <- jef_read_loop threads ci s; Ok (repeat (mkS 0 0 JUMP) m ++ t, th).
Proof.
  intros T m. induction m as [|m IH]; intros threads ci s.
  - cbn [repeat concat app]. destruct (jef_read_loop threads ci s) as [[t th]|]; reflexivity.
  - cbn [repeat concat app]. cbn [jef_read_loop]. ceq. rewrite IH.
    destruct (jef_read_loop threads ci s) as [[t th]|]; reflexivity.
Qed.

Lemma jef_events : forall T trims m l odd (pre post : list (option T)),
  Forall jef_good l ->
  map is_some post = marks odd (cmds_of (before_end l)) ->
  jef_read_loop (pre ++ post) (length pre) (jef_loop trims m l)
  = Ok (jef_ev_view (if trims then Z.to_nat m else 0) odd (before_end l), pre ++ filter is_some post).
Proof.
  intros T trims m. induction l as [|e l IH]; intros odd pre post H M.
  { cbn [before_end cmds_of map marks] in M. destruct post; [|discriminate].
    cbn [jef_loop jef_read_loop before_end jef_ev_view filter]. reflexivity. }
  inversion H as [|? ? He Hl]; subst. cbn [jef_loop]. cbn [before_end] in M |- *.
  destruct He as [(Hc & Hx & Hy)|(Hc & Hx & Hy)]; cbn [In] in Hc.
  - destruct Hc as [Hc|[Hc|[]]]; rewrite <- Hc in *; ceq; cbn [jef_ev_view]; rewrite <- Hc; ceq;
      unfold write_int_8; cbn [app jef_read_loop].
    + rewrite land_not_80 by lia. cbn [negb].
      change (STITCH =? END) with false in M. cbn iota in M. unfold cmds_of in M. cbn [map marks] in M.
      rewrite <- Hc in M. rewrite (IH odd pre post Hl M). cbn [bindr].
      rewrite signed8_pos, signed8_neg by lia. reflexivity.
    + ceq. change (JUMP =? END) with false in M. cbn iota in M. unfold cmds_of in M. cbn [map marks] in M.
      rewrite <- Hc in M. rewrite (IH odd pre post Hl M). cbn [bindr].
      rewrite signed8_pos, signed8_neg by lia. reflexivity.
  - destruct Hc as [Hc|[Hc|[Hc|[Hc|[]]]]]; rewrite <- Hc in *; ceq; cbn [jef_ev_view]; rewrite <- ?Hc; ceq.
    + change (COLOR_CHANGE =? END) with false in M. cbn iota in M. unfold cmds_of in M. cbn [map marks] in M.
      rewrite <- Hc in M. change (COLOR_CHANGE =? COLOR_CHANGE) with true in M. cbn iota in M.
      destruct post as [|[t|] post]; cbn [map is_some] in M; try discriminate. injection M as M.
      unfold write_int_8; cbn [app jef_read_loop]; ceq. rewrite nth_error_pre.
      specialize (IH false (pre ++ [Some t]) post Hl M).
      rewrite app_length in IH. cbn [length] in IH. rewrite Nat.add_1_r, <- !app_assoc in IH. cbn [app] in IH.
      rewrite IH. cbn [bindr filter is_some]. reflexivity.
    + change (STOP =? END) with false in M. cbn iota in M. unfold cmds_of in M. cbn [map marks] in M.
      rewrite <- Hc in M. change (STOP =? COLOR_CHANGE) with false in M.
      change (STOP =? STOP) with true in M. cbn iota in M.
      destruct post as [|o post]; cbn [map] in M; try discriminate. injection M as Mo M.
      unfold write_int_8; cbn [app jef_read_loop]; ceq. rewrite nth_error_pre.
      destruct o as [t|]; cbn [is_some] in Mo; subst odd.
      * specialize (IH false (pre ++ [Some t]) post Hl M).
        rewrite app_length in IH. cbn [length] in IH. rewrite Nat.add_1_r, <- !app_assoc in IH. cbn [app] in IH.
        rewrite IH. cbn [bindr filter is_some negb]. reflexivity.
      * rewrite remove_nth_pre. rewrite (IH true pre post Hl M). cbn [bindr filter is_some negb]. reflexivity.
    + change (TRIM =? END) with false in M. cbn iota in M. unfold cmds_of in M. cbn [map marks] in M.
      rewrite <- Hc in M. change (TRIM =? COLOR_CHANGE) with false in M.
      change (TRIM =? STOP) with false in M. cbn iota in M.
      destruct trims.
      * rewrite read_zero_jumps. rewrite (IH odd pre post Hl M). cbn [bindr]. reflexivity.
      * cbn [app repeat]. apply (IH odd pre post Hl M).
    + change (END =? END) with true in M. cbn iota in M. cbn [cmds_of map marks] in M.
      destruct post; [|discriminate]. reflexivity.
Qed.

Lemma repeat_snoc_apply : forall n px py r,
  apply_rel px py (repeat (mkS 0 0 JUMP) n ++ r) = repeat (mkS px py JUMP) n ++ apply_rel px py r.
Proof.
  induction n as [|n IH]; intros px py r; [reflexivity|].
  cbn [repeat app apply_rel sx sy scmd]. rewrite !Z.add_0_r, IH. reflexivity.
Qed.

Lemma jef_apply_view : forall n l odd px py,
  representable 127 [STITCH; JUMP] [COLOR_CHANGE; STOP; TRIM; END] px py l ->
  apply_rel px py (jef_ev_view n odd (quantise qz_int px py l)) = jef_view n odd l.
Proof.
  intros n. induction l as [|s l IH]; intros odd px py H; [reflexivity|].
  destruct H as [Hs Hl]. cbn [quantise jef_ev_view jef_view scmd sx sy]. rewrite !qz_int_add.
  destruct Hs as [(Hc & Hstep)|(Hc & Hx & Hy)]; cbn [In] in Hc.
  - destruct Hc as [Hc|[Hc|[]]]; rewrite <- Hc; ceq; cbn [apply_rel sx sy scmd];
      rewrite !qz_int_add, IH by assumption; reflexivity.
  - rewrite Hx, Hy in *.
    destruct Hc as [Hc|[Hc|[Hc|[Hc|[]]]]]; rewrite <- Hc; ceq; cbn [apply_rel sx sy scmd];
      rewrite ?Z.add_0_r, ?qz_int_add, ?repeat_snoc_apply, IH by assumption; reflexivity.
Qed.

(** ** The whole file *)
Lemma write32_length : forall v, length (write_int_32le v) = 4%nat.
Proof. reflexivity. Qed.

Lemma flat32_length : forall l, length (flat_map write_int_32le l) = (4 * length l)%nat.
Proof. induction l as [|a l IH]; [reflexivity|]. cbn [flat_map]. rewrite app_length, IH. cbn [length]. rewrite write32_length. lia. Qed.

Lemma concat_rep_length : forall A (x : list A) n, length (concat (repeat x n)) = (length x * n)%nat.
Proof. induction n as [|n IH]; cbn [repeat concat]; [rewrite Nat.mul_0_r; reflexivity|]. rewrite app_length, IH. lia. Qed.

Lemma hoop_length : forall x y, length (write_hoop_edge_distance x y) = 16%nat.
Proof. intros. unfold write_hoop_edge_distance. destruct (Z.min x y >=? 0); reflexivity. Qed.

Definition jef_fixed (date : list Z) (color_count point_count width height hw hh : Z) : list Z :=
  write_int_32le (0x74 + color_count * 8)
  ++ write_int_32le 0x14
  ++ date ++ write_int_8 0 ++ write_int_8 0
  ++ write_int_32le color_count
  ++ write_int_32le point_count
  ++ write_int_32le (get_jef_hoop_size width height)
  ++ write_int_32le hw ++ write_int_32le hh
  ++ write_int_32le hw ++ write_int_32le hh
  ++ write_hoop_edge_distance (550 - hw) (550 - hh)
  ++ write_hoop_edge_distance (250 - hw) (250 - hh)
  ++ write_hoop_edge_distance (700 - hw) (1000 - hh)
  ++ write_hoop_edge_distance (700 - hw) (1000 - hh).

Lemma jef_header_split : forall palette date pc w h hw hh,
  jef_header palette date pc w h hw hh
  = jef_fixed date (Z.of_nat (length palette)) pc w h hw hh
    ++ flat_map write_int_32le palette ++ concat (repeat (write_int_32le 0x0D) (length palette)).
Proof. intros. unfold jef_header, jef_fixed. rewrite <- !app_assoc. reflexivity. Qed.

Lemma jef_fixed_length : forall date cc pc w h hw hh, length date = 14%nat ->
  length (jef_fixed date cc pc w h hw hh) = 116%nat.
Proof.
  intros. unfold jef_fixed. rewrite !app_length, !write32_length, !hoop_length, H. reflexivity.
Qed.

Lemma jef_header_length : forall palette date pc w h hw hh, length date = 14%nat ->
  length (jef_header palette date pc w h hw hh) = (116 + 8 * length palette)%nat.
Proof.
  intros. rewrite jef_header_split, !app_length, jef_fixed_length, flat32_length, concat_rep_length by assumption.
  rewrite write32_length. lia.
Qed.

Lemma skipn_exact : forall A (a b : list A) n, length a = n -> skipn n (a ++ b) = b.
Proof. intros A a b n <-. rewrite skipn_app, skipn_all, Nat.sub_diag. reflexivity. Qed.

Lemma jef_offset : forall palette date pc w h hw hh body,
  Z.of_nat (length palette) < 2 ^ 28 ->
  fst (read_int_32le (jef_header palette date pc w h hw hh ++ body))
  = Some (116 + 8 * Z.of_nat (length palette)).
Proof.
  intros. unfold jef_header. rewrite <- app_assoc. rewrite rw_32le. cbn [fst].
  f_equal. rewrite Z.mod_small; lia.
Qed.

Lemma jef_count : forall palette date pc w h hw hh body, length date = 14%nat ->
  Z.of_nat (length palette) < 2 ^ 28 ->
  fst (read_int_32le (skipn 24 (jef_header palette date pc w h hw hh ++ body)))
  = Some (Z.of_nat (length palette)).
Proof.
  intros palette date pc w h hw hh body Hd Hn. rewrite jef_header_split. unfold jef_fixed.
  rewrite <- !app_assoc.
  set (cc := Z.of_nat (length palette)).
  match goal with |- context [skipn 24 ?l] => match l with
    ?a ++ ?b ++ ?c ++ ?d ++ ?e ++ ?r => replace l with ((a ++ b ++ c ++ d ++ e) ++ r) by (rewrite <- !app_assoc; reflexivity)
  end end.
  rewrite skipn_exact by (rewrite !app_length, !write32_length, Hd; reflexivity).
  rewrite rw_32le. cbn [fst]. f_equal. rewrite Z.mod_small; unfold cc; lia.
Qed.

Lemma jef_body_at_offset : forall palette date pc w h hw hh body, length date = 14%nat ->
  skipn (Z.to_nat (116 + 8 * Z.of_nat (length palette))) (jef_header palette date pc w h hw hh ++ body) = body.
Proof.
  intros. apply skipn_exact. rewrite jef_header_length by assumption. lia.
Qed.

Lemma jef_read_colors_write : forall T (thread_of : Z -> T) palette q,
  Forall (fun i => 0 <= i < 2 ^ 32) palette ->
  jef_read_colors thread_of (length palette) (flat_map write_int_32le palette ++ q)
  = Ok (map (fun i => if i =? 0 then None else Some (thread_of i)) palette).
Proof.
  intros T thread_of. induction palette as [|i palette IH]; intros q H; [reflexivity|].
  inversion H as [|? ? Hi Hp]; subst. cbn [length flat_map jef_read_colors].
  rewrite <- app_assoc, rw_32le. rewrite IH by assumption. cbn [bindr map].
  rewrite Z.mod_small by lia. rewrite Z.abs_eq by lia. reflexivity.
Qed.

Lemma cmds_quantise : forall C (qz : C -> Z -> Z) l px py, cmds_of (quantise qz px py l) = cmds_of l.
Proof.
  unfold cmds_of. induction l as [|s l IH]; intros; [reflexivity|]. cbn [quantise map scmd]. rewrite IH. reflexivity.
Qed.

Definition jef_thread_table {T} (thread_of : Z -> T) (palette : list Z) : list (option T) :=
  map (fun i => if i =? 0 then None else Some (thread_of i)) palette.

Lemma table_marks : forall T (thread_of : Z -> T) p,
  map is_some (jef_thread_table thread_of p) = map mark_of p.
Proof.
  intros. unfold jef_thread_table. rewrite map_map. apply map_ext. intros i. unfold mark_of.
  destruct (i =? 0); reflexivity.
Qed.

Lemma table_filter : forall T (thread_of : Z -> T) p,
  filter is_some (jef_thread_table thread_of p) = map (fun i => Some (thread_of i)) (filter mark_of p).
Proof.
  intros. unfold jef_thread_table. induction p as [|i p IH]; [reflexivity|].
  cbn [map filter]. unfold mark_of at 1. destruct (Z.eqb_spec i 0); cbn [is_some negb map]; rewrite IH; reflexivity.
Qed.

Lemma marks_end : forall cmds odd c, c <> COLOR_CHANGE -> c <> STOP -> marks odd (cmds ++ [c]) = marks odd cmds.
Proof.
  induction cmds as [|a r IH]; intros odd c H1 H2; cbn [app marks].
  - destruct (Z.eqb_spec c COLOR_CHANGE); [contradiction|]. destruct (Z.eqb_spec c STOP); [contradiction|]. reflexivity.
  - destruct (a =? COLOR_CHANGE); [rewrite IH by assumption; reflexivity|].
    destruct (a =? STOP); rewrite IH by assumption; reflexivity.
Qed.

Lemma before_end_split : forall C (l : list (stitch C)) s, l = before_end l ++ [s] -> cmd_of (scmd s) = END.
Proof.
  induction l as [|a l IH]; intros s H; [discriminate|]. cbn [before_end] in H.
  destruct (Z.eqb_spec (cmd_of (scmd a)) END) as [E|E].
  - cbn [app] in H. injection H as <- _. exact E.
  - cbn [app] in H. injection H as H. apply IH. exact H.
Qed.

Lemma marks_before_end : forall C (l : list (stitch C)) odd, end_last l ->
  marks odd (cmds_of (before_end l)) = marks odd (cmds_of l).
Proof.
  intros C l odd [E|[s E]]; [rewrite E; reflexivity|].
  rewrite E at 2. unfold cmds_of at 2. rewrite map_app. cbn [map].
  pose proof (before_end_split _ _ _ E) as Es. rewrite Es.
  rewrite marks_end by discriminate. reflexivity.
Qed.

Lemma jef_roundtrip : forall T (teq : T -> T -> bool) near near2 (thread_of : Z -> T)
    trims m date w h hw hh threads p,
  (forall t, nz (near t)) -> (forall t i, nz (near2 t i)) ->
  length date = 14%nat ->
  jef_representable p -> starts_sewing p -> end_last p ->
  (S (color_changes p) <= length threads)%nat -> Z.of_nat (thread_commands p) < 2 ^ 27 ->
  exists palette file,
    jef_write qz_int teq near near2 trims m date w h hw hh threads p = Ok file /\
    jef_write_palette teq near near2 threads p = Ok palette /\
    length palette = S (thread_commands p) /\
    jef_read thread_of file
    = Ok (closed (jef_view (if trims then Z.to_nat m else 0) false (before_end p)),
          map (fun i => Some (thread_of i)) (filter mark_of palette)).
Proof.
  intros T teq near near2 thread_of trims m date w h hw hh threads p Hn Hn2 Hd Hr Hs He Hth Hsmall.
  destruct p as [|s p]; [contradiction|]. cbn [starts_sewing] in Hs.
  unfold jef_write, jef_write_palette. cbn [map].
  assert (Hcc : color_changes (s :: p) = cc_cmds (cmds_of p)).
  { unfold color_changes, cc_cmds, cmds_of. cbn [filter].
    destruct (Z.eqb_spec (cmd_of (scmd s)) COLOR_CHANGE); [contradiction|].
    clear. induction p as [|a p IH]; [reflexivity|]. cbn [filter map].
    destruct (cmd_of (scmd a) =? COLOR_CHANGE); cbn [length]; rewrite IH; reflexivity. }
  rewrite Hcc in Hth.
  destruct (palette_start teq near near2 Hn Hn2 (cmd_of (scmd s)) (cmds_of p) threads Hs Hth)
    as (i & pal & Ep & Hi & M & F).
  unfold cmds_of in Ep. rewrite Ep. cbn [bindr].
  eexists (i :: pal), _. split; [reflexivity|]. split; [reflexivity|].
  assert (Hlen : length (i :: pal) = S (thread_commands (s :: p))).
  { cbn [length]. f_equal. rewrite <- (map_length mark_of pal), M, marks_length.
    change (cmd_of (scmd s) :: cmds_of p) with (cmds_of (s :: p)).
    unfold thread_cmds, thread_commands, cmds_of. generalize (s :: p). clear.
    induction l as [|a l IH]; [reflexivity|]. cbn [map filter].
    destruct ((cmd_of (scmd a) =? COLOR_CHANGE) || (cmd_of (scmd a) =? STOP)); cbn [length]; rewrite IH; reflexivity. }
  split; [exact Hlen|].
  assert (Hlz : Z.of_nat (length (i :: pal)) < 2 ^ 28) by lia.
  set (pc := 1 + _). set (body := jef_body _ _ _ _).
  unfold jef_read.
  pose proof (jef_offset (i :: pal) date pc w h hw hh body Hlz) as E1.
  pose proof (jef_count (i :: pal) date pc w h hw hh body Hd Hlz) as E2.
  destruct (read_int_32le (jef_header (i :: pal) date pc w h hw hh ++ body)) as [o1 r1].
  destruct (read_int_32le (skipn 24 (jef_header (i :: pal) date pc w h hw hh ++ body))) as [o2 r2].
  cbn [fst] in E1, E2. rewrite E1, E2. rewrite Nat2Z.id.
  rewrite jef_body_at_offset by exact Hd.
  rewrite jef_header_split, <- app_assoc. rewrite skipn_exact by (apply jef_fixed_length; exact Hd).
  rewrite <- app_assoc.
  assert (F' : Forall (fun i => 0 <= i < 2 ^ 32) (i :: pal)) by (apply Forall_cons; [unfold nz in Hi; lia|exact F]).
  rewrite jef_read_colors_write by exact F'. cbn [bindr].
  change (map (fun i => if i =? 0 then None else Some (thread_of i)) (i :: pal))
    with (jef_thread_table thread_of (i :: pal)).
  unfold jef_read_stitches.
  assert (Ei : jef_thread_table thread_of (i :: pal) = [Some (thread_of i)] ++ jef_thread_table thread_of pal).
  { unfold jef_thread_table. cbn [map app]. destruct (Z.eqb_spec i 0); [unfold nz in Hi; lia|reflexivity]. }
  rewrite Ei. unfold body, jef_body.
  change 1%nat with (length [Some (thread_of i)]).
  rewrite (jef_events T trims m (quantise qz_int 0 0 (s :: p)) false [Some (thread_of i)]).
  - cbn [bindr]. rewrite apply_rel_end, <- quantise_before_end.
    rewrite jef_apply_view by (apply representable_before_end; exact Hr).
    f_equal. f_equal. cbn [filter]. unfold mark_of at 1.
    destruct (Z.eqb_spec i 0); [unfold nz in Hi; lia|]. cbn [negb map app]. f_equal. apply table_filter.
  - apply representable_good. exact Hr.
  - rewrite table_marks, M, <- quantise_before_end, cmds_quantise.
    change (cmd_of (scmd s) :: cmds_of p) with (cmds_of (s :: p)).
    symmetry. apply marks_before_end. exact He.
Qed.

(** ** Truncation *)
Definition ok_prefix2 {A B} (a b : res (list A * B)) : Prop :=
  forall y th, b = Ok (y, th) -> exists x th', a = Ok (x, th') /\ prefix_of x y.

Lemma ok_prefix2_refl : forall A B (a : res (list A * B)), ok_prefix2 a a.
Proof. intros A B a y th H. exists y, th. split; [exact H|apply prefix_refl]. Qed.
Lemma ok_prefix2_nil : forall A B (b : res (list A * B)) th, ok_prefix2 (Ok ([], th)) b.
Proof. intros A B b th y th0 H. exists [], th. split; [reflexivity|apply prefix_nil]. Qed.
Lemma ok_prefix2_cons : forall A B (e : A) (a b : res (list A * B)), ok_prefix2 a b ->
  ok_prefix2 (do '(t, th) <- a; Ok (e :: t, th)) (do '(t, th) <- b; Ok (e :: t, th)).
Proof.
  intros A B e a b H y th Hy. destruct b as [[q th0]|]; cbn [bindr] in Hy; [|discriminate].
  injection Hy as <- <-. destruct (H q th0 eq_refl) as (x & th' & -> & Hx). exists (e :: x), th'.
  split; [reflexivity|apply prefix_cons; exact Hx].
Qed.

Lemma jef_read_prefix : forall T k s n (threads : list (option T)) ci, (length s <= k)%nat ->
  ok_prefix2 (jef_read_loop threads ci (firstn n s)) (jef_read_loop threads ci s).
Proof.
  intros T. induction k as [|k IH]; intros s n threads ci Hk.
  - destruct s; [|cbn in Hk; lia]. rewrite firstn_nil. apply ok_prefix2_refl.
  - destruct s as [|b0 [|b1 r]]; destruct n as [|[|n]]; cbn [firstn];
      try apply ok_prefix2_nil; try apply ok_prefix2_refl.
    cbn [jef_read_loop]. cbn [length] in Hk.
    destruct (negb (b0 =? 128)); [apply ok_prefix2_cons; apply IH; lia|].
    destruct r as [|c0 [|c1 r]]; destruct n as [|[|n]]; cbn [firstn];
      try apply ok_prefix2_nil; try apply ok_prefix2_refl.
    cbn [length] in Hk.
    destruct (b1 =? 2); [apply ok_prefix2_cons; apply IH; lia|].
    destruct (b1 =? 1); [|apply ok_prefix2_refl].
    destruct (nth_error threads ci) as [[t|]|]; [| |apply ok_prefix2_refl];
      apply ok_prefix2_cons; apply IH; lia.
Qed.

(** Reading raises only if there are more colour controls than table entries. *)
Fixpoint jef_color_records (s : list Z) : nat :=
  match s with
  | b0 :: b1 :: r =>
      if negb (b0 =? 0x80) then jef_color_records r
      else match r with
           | _ :: _ :: r' => if b1 =? 0x01 then S (jef_color_records r')
                             else if b1 =? 0x02 then jef_color_records r' else 0%nat
           | _ => 0%nat
           end
  | _ => 0%nat
  end.

Lemma remove_nth_length : forall A n (l : list A), (n < length l)%nat -> length (remove_nth n l) = (length l - 1)%nat.
Proof.
  intros A n. induction n as [|n IH]; intros [|a l] H; cbn [length remove_nth] in *; try lia.
  rewrite IH by lia. lia.
Qed.

Lemma jef_read_total : forall T k s (threads : list (option T)) ci, (length s <= k)%nat ->
  (ci + jef_color_records s <= length threads)%nat ->
  exists r, jef_read_loop threads ci s = Ok r.
Proof.
  intros T. induction k as [|k IH]; intros s threads ci Hk Hn.
  - destruct s; [|cbn in Hk; lia]. eexists. reflexivity.
  - destruct s as [|b0 [|b1 r]]; try (eexists; reflexivity).
    cbn [jef_read_loop jef_color_records length] in *.
    destruct (negb (b0 =? 128)).
    { destruct (IH r threads ci) as [[l th] E]; [lia|lia|]. rewrite E. eexists; reflexivity. }
    destruct r as [|c0 [|c1 r]]; try (eexists; reflexivity). cbn [length] in Hk.
    destruct (Z.eqb_spec b1 1) as [E1|E1].
    + subst b1. ceq. destruct (nth_error threads ci) as [[t|]|] eqn:En.
      * destruct (IH r threads (S ci)) as [[l th] E]; [lia|lia|]. rewrite E. eexists; reflexivity.
      * assert (ci < length threads)%nat by (apply nth_error_Some; rewrite En; discriminate).
        destruct (IH r (remove_nth ci threads) ci) as [[l th] E]; [lia|rewrite remove_nth_length by lia; lia|].
        rewrite E. eexists; reflexivity.
      * apply nth_error_None in En. lia.
    + destruct (b1 =? 2); [|eexists; reflexivity].
      destruct (IH r threads ci) as [[l th] E]; [lia|lia|]. rewrite E. eexists; reflexivity.
Qed.
