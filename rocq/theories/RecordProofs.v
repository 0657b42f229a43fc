(** The read-only record formats are decoded exactly. *)
From Coq Require Import ZArith List Bool Lia.
From Verif Require Import PyBase EmbConst StreamModel StreamSpec StreamProofs HelperModel HelperProofs FunctionsModel PatternModel
  RecordModel RecordSpec BitLemmas.
Import ListNotations.
Open Scope Z_scope.

Lemma stores_loop {S} (loop : S -> list Z -> res (list rel)) (record : S -> list rel -> list Z -> S -> Prop) (stops : list Z -> Prop) :
  (forall s tail, stops tail -> loop s tail = Ok []) ->
  (forall s steps b s' r, record s steps b s' -> loop s (b ++ r) = calls_then steps (loop s' r)) ->
  forall s px py l bytes, stores record stops s px py l bytes ->
  exists ev, loop s bytes = Ok ev /\ apply_rel px py ev = l.
Proof.
  intros He Hr s px py l bytes H. induction H as [s px py tail Ht|s s' px py steps b l bytes Hb here H IH].
  - exists []. split; [apply He; exact Ht|reflexivity].
  - destruct IH as (ev & E & <-). exists (steps ++ ev). rewrite (Hr _ _ _ _ _ Hb), E. split; [reflexivity|].
    rewrite apply_rel_app. unfold here. destruct (needle_after px py (apply_rel px py steps)). reflexivity.
Qed.
Lemma stores_ended {S} (loop : S -> list Z -> res (list rel)) (record : S -> list rel -> list Z -> S -> Prop) (stops : list Z -> Prop) :
  (forall s tail, stops tail -> loop s tail = Ok []) ->
  (forall s steps b s' r, record s steps b s' -> loop s (b ++ r) = calls_then steps (loop s' r)) ->
  forall s l bytes, stores record stops s 0 0 l bytes -> ended (loop s bytes) = Ok (closed l).
Proof.
  intros He Hr s l bytes H. destruct (stores_loop loop record stops He Hr _ _ _ _ _ H) as (ev & E & <-).
  rewrite E. cbn [ended bindr]. rewrite apply_rel_end. reflexivity.
Qed.

(** Computing the tests of closed numbers. *)
Ltac known t := let v := eval vm_compute in t in match v with true => change t with true | false => change t with false end.
Ltac closedb :=
  repeat match goal with
  | |- context [flag ?a ?b] => known (flag a b)
  | |- context [?a =? ?b] => known (a =? b)
  | |- context [?a <=? ?b] => known (a <=? b)
  | |- context [?a <? ?b] => known (a <? b)
  | |- context [?a >? ?b] => known (a >? b)
  end; cbn [negb andb orb fst snd]; cbv iota.
Ltac eqs := first [reflexivity | lia | progress f_equal; eqs].
Lemma step3 {S} (body : S -> Z -> Z -> Z -> pass S) s b0 b1 b2 steps s' r : body s b0 b1 b2 = Next steps s' ->
  loop3 body s ([b0; b1; b2] ++ r) = calls_then steps (loop3 body s' r).
Proof. intros H. cbn [app loop3]. rewrite H. reflexivity. Qed.
Lemma step2 {S} (body : S -> Z -> Z -> pass S) s b0 b1 steps s' r : body s b0 b1 = Next steps s' ->
  loop2 body s ([b0; b1] ++ r) = calls_then steps (loop2 body s' r).
Proof. intros H. cbn [app loop2]. rewrite H. reflexivity. Qed.
Lemma step22 {S} (body : S -> Z -> Z -> pass S) s b0 b1 b2 b3 s0 steps s' r :
  body s b0 b1 = Next [] s0 -> body s0 b2 b3 = Next steps s' ->
  loop2 body s ([b0; b1; b2; b3] ++ r) = calls_then steps (loop2 body s' r).
Proof. intros H1 H2. cbn [app loop2]. rewrite H1, H2. destruct (loop2 body s' r); reflexivity. Qed.
Ltac signs dx dy := unfold neg, pos; destruct (Z.ltb_spec dx 0), (Z.ltb_spec 0 dy).
Ltac shorts H := unfold short in H; cbn [List.length] in H.

(** Lists too short for a record. *)
Lemma loop3_short {S} body (s : S) l : short 3 l -> loop3 body s l = Ok [].
Proof. intros H. destruct l as [|a [|b [|c r]]]; try reflexivity. shorts H. lia. Qed.
Lemma loop2_short {S} body (s : S) l : short 2 l -> loop2 body s l = Ok [].
Proof. intros H. destruct l as [|a [|b r]]; try reflexivity. shorts H. lia. Qed.
Lemma loop4_short {S} body (s : S) l : short 4 l -> loop4 body s l = Ok [].
Proof. intros H. destruct l as [|a [|b [|c [|d r]]]]; try reflexivity. shorts H. lia. Qed.

Lemma calls_nil r : calls_then [] r = r.
Proof. destruct r; reflexivity. Qed.

Lemma two8_signed v : -128 <= v <= 127 -> signed8 (two8 v) = v.
Proof. intros H. unfold two8. rewrite <- land_ff. apply signed8_small. lia. Qed.
Lemma two8_not_80 v : signed_byte v -> (two8 v =? 0x80) = false.
Proof. unfold signed_byte, two8. intros H. destruct (v mod 256 =? 128) eqn:E; [|reflexivity]. lia. Qed.

(** 100 *)
Lemma a100_sm7 v : signed_byte v -> a100_sign (sm7 v) = v.
Proof. unfold signed_byte, a100_sign, sm7, neg. intros H. destruct (Z.ltb_spec v 0); destruct (_ >? _) eqn:E; lia. Qed.
Lemma flag_odd b : flag b 1 = Z.odd b.
Proof.
  unfold flag. change 1 with (Z.ones 1). rewrite Z.land_ones by lia. change (2 ^ 1) with 2.
  rewrite Zmod_odd. destruct (Z.odd b); reflexivity.
Qed.
Lemma a100_step s steps b s' r : rec_100 s steps b s' -> loop4 a100_body s (b ++ r) = calls_then steps (loop4 a100_body s' r).
Proof.
  intros [u dx dy A B|k u dx dy O K A B|k u v w E]; cbn [app loop4]; unfold a100_body.
  - rewrite !a100_sm7 by (unfold signed_byte in *; lia). closedb. eqs.
  - rewrite !a100_sm7 by (unfold signed_byte in *; lia). destruct (Z.eqb_spec k 0x61); [contradiction|]. rewrite flag_odd, O. eqs.
  - destruct (Z.eqb_spec k 0x61) as [->|]; [discriminate E|]. rewrite flag_odd, <- Z.negb_even, E. reflexivity.
Qed.
Theorem read_100 l bytes : stores rec_100 stops_100 tt 0 0 l bytes -> a100_read bytes = Ok (closed l).
Proof. apply (stores_ended (loop4 a100_body)); [intros; apply loop4_short; assumption|exact a100_step]. Qed.

(** 10O *)
Ltac abs_eq := cbn [negb andb orb]; eqs.
Lemma a10o_step s steps b s' r : rec_10o s steps b s' -> loop3 a10o_body s (b ++ r) = calls_then steps (loop3 a10o_body s' r).
Proof.
  intros [h dx dy T A B|h dx dy T A B|u v|u v|u v|u v]; apply step3; unfold a10o_body;
    [destruct T; subst h; signs dx dy; closedb; abs_eq|destruct T; subst h; signs dx dy; closedb; abs_eq|closedb; reflexivity|reflexivity..].
Qed.
Lemma a10o_stop s tail : stops_10o tail -> loop3 a10o_body s tail = Ok [].
Proof. intros [H|[r ->]]; [apply loop3_short; exact H|]. destruct r as [|a [|b r]]; reflexivity. Qed.
Theorem read_10o l bytes : stores rec_10o stops_10o tt 0 0 l bytes -> a10o_read bytes = Ok (closed l).
Proof. apply (stores_ended (loop3 a10o_body)); [exact a10o_stop|exact a10o_step]. Qed.

(** DSB *)
Lemma dsb_step s steps b s' r : rec_dsb s steps b s' -> loop3 dsb_body s (b ++ r) = calls_then steps (loop3 dsb_body s' r).
Proof.
  intros [h dx dy T A B|h dx dy T A B|u v|u v|n u v N]; apply step3; unfold dsb_body;
    [destruct T; subst h; signs dx dy; closedb; abs_eq|destruct T; subst h; signs dx dy; closedb; abs_eq|reflexivity..|].
  assert (K : In n [1; 2; 3; 4; 5; 6; 7; 8; 9; 10; 11; 12; 13; 14; 15]) by (cbn [In]; lia).
  cbn [In] in K. repeat (destruct K as [<-|K]; [reflexivity|]). contradiction.
Qed.
Lemma dsb_stop s tail : stops_dsb tail -> loop3 dsb_body s tail = Ok [].
Proof. intros [H|[r ->]]; [apply loop3_short; exact H|]. destruct r as [|a [|b r]]; reflexivity. Qed.
Theorem stitches_dsb l bytes : stores rec_dsb stops_dsb tt 0 0 l bytes -> dsb_stitches bytes = Ok (closed l).
Proof. apply (stores_ended (loop3 dsb_body)); [exact dsb_stop|exact dsb_step]. Qed.

(** DSZ *)
Lemma dsz_step s steps b s' r : rec_dsz s steps b s' -> loop3 dsz_body s (b ++ r) = calls_then steps (loop3 dsz_body s' r).
Proof.
  intros [h dx dy T A B|h dx dy T A B|u v|u v|n e u v N E]; apply step3; unfold dsz_body;
    [destruct T; subst h; signs dx dy; closedb; abs_eq|destruct T; subst h; signs dx dy; closedb; abs_eq|reflexivity..|].
  assert (K : In n [0; 1; 2; 3; 4; 5; 6; 7; 8; 9; 10; 11]) by (cbn [In]; lia).
  cbn [In] in K. destruct E as [-> | ->]; repeat (destruct K as [<-|K]; [reflexivity|]); contradiction.
Qed.
Lemma dsz_stop s tail : stops_dsz tail -> loop3 dsz_body s tail = Ok [].
Proof. intros [H|(u & v & r & ->)]; [apply loop3_short; exact H|]. reflexivity. Qed.
Theorem stitches_dsz l bytes : stores rec_dsz stops_dsz tt 0 0 l bytes -> dsz_stitches bytes = Ok (closed l).
Proof. apply (stores_ended (loop3 dsz_body)); [exact dsz_stop|exact dsz_step]. Qed.

(** Barudan *)
Lemma also_eq dx dy dx' dy' c : dx = dx' -> dy = dy' ->
  (if negb (dx =? 0) || negb (dy =? 0) then [mkS dx dy c] else []) = also dx' dy' c.
Proof. intros <- <-. unfold also. destruct (dx =? 0), (dy =? 0); reflexivity. Qed.
Definition bar (bytes : list Z) : res (list rel) := do '(l, ok) <- barudan_loop bytes; Ok l.
Lemma barudan_step steps b r s s' : rec_barudan s steps b s' -> forall ev, barudan_loop r = Ok (ev, true) ->
  barudan_loop (b ++ r) = Ok (steps ++ ev, true).
Proof.
  intros [k st dx dy A B K] ev E. cbn [In] in K. cbn [app barudan_loop]. rewrite E. cbn [bindr]. clear E.
  unfold mag8 in *.
  repeat (destruct K as [K|K]; [injection K as <- <-; signs dx dy; closedb; cbv zeta; rewrite ?(also_eq _ _ dx dy) by lia; cbn [app]; eqs|]).
  contradiction.
Qed.
Theorem read_barudan l bytes : stores rec_barudan stops_barudan tt 0 0 l bytes -> dat_read bytes = Ok (closed l).
Proof.
  assert (G : forall s px py, stores rec_barudan stops_barudan s px py l bytes ->
    exists ev, barudan_loop bytes = Ok (ev ++ [mkS 0 0 END], true) /\ apply_rel px py ev = l).
  { intros s px py H. induction H as [s px py tail Ht|s s' px py steps b l bytes Hb here H IH].
    - exists []. split; [|reflexivity]. destruct Ht as [Ht|[r ->]].
      + destruct tail as [|a [|b [|c r]]]; try reflexivity. shorts Ht. lia.
      + destruct r as [|b [|c r]]; reflexivity.
    - destruct IH as (ev & E & <-). exists (steps ++ ev). rewrite (barudan_step _ _ _ _ _ Hb _ E), app_assoc. split; [reflexivity|].
      rewrite apply_rel_app. unfold here. destruct (needle_after px py (apply_rel px py steps)). reflexivity. }
  intros H. destruct (G _ _ _ H) as (ev & E & <-). unfold dat_read. rewrite E. cbn [bindr]. rewrite apply_rel_end. reflexivity.
Qed.

(** Sunstar *)
Lemma sm7_byte v : signed_byte v -> 0 <= sm7 v < 256 /\ (if flag (sm7 v) 0x80 then - Z.land (sm7 v) 0x7F else Z.land (sm7 v) 0x7F) = v.
Proof.
  intros H. unfold signed_byte in H. change 0x7F with (Z.ones 7). rewrite !Z.land_ones by lia. change (2 ^ 7) with 128.
  assert (F : flag (sm7 v) 128 = (128 <=? sm7 v)).
  { assert (K : 0 <= sm7 v < 256) by (unfold sm7, neg; destruct (v <? 0); lia).
    generalize dependent (sm7 v). intros z K. unfold flag.
    assert (E : Z.land z 128 = Z.shiftl ((z / 128) mod 2) 7).
    { apply Z.bits_inj'. intros n Hn. rewrite Z.land_spec, Z.shiftl_spec by lia. change 128 with (2 ^ 7) at 1. rewrite Z.pow2_bits_eqb by lia.
      change 2 with (2 ^ 1). change 128 with (2 ^ 7). rewrite <- Z.shiftr_div_pow2 by lia.
      destruct (Z.eqb_spec 7 n) as [<-|N].
      - rewrite Z.sub_diag, Z.mod_pow2_bits_low, Z.shiftr_spec by lia. rewrite andb_true_r. reflexivity.
      - rewrite andb_false_r. destruct (Z.ltb_spec n 7); [rewrite Z.testbit_neg_r by lia; reflexivity|].
        rewrite Z.mod_pow2_bits_high by lia. reflexivity. }
    rewrite E, Z.shiftl_mul_pow2 by lia. change (2 ^ 7) with 128.
    destruct (128 <=? z) eqn:Z1; destruct (_ =? 0) eqn:Z2; cbn [negb]; try reflexivity; exfalso; lia. }
  rewrite F. unfold sm7, neg in *. destruct (Z.ltb_spec v 0); destruct (128 <=? _) eqn:E; split; lia.
Qed.
Lemma sunstar_step s steps b s' r : rec_sunstar s steps b s' -> loop3 sunstar_body s (b ++ r) = calls_then steps (loop3 sunstar_body s' r).
Proof.
  intros [k st dx dy A B K]. cbn [In] in K. apply step3. unfold sunstar_body.
  assert (B' : signed_byte (- dy)) by (unfold signed_byte in *; lia).
  destruct (sm7_byte dx A) as [_ E1]. destruct (sm7_byte (- dy) B') as [_ E2].
  cbv zeta. rewrite E1, E2. rewrite !Z.opp_involutive.
  repeat (destruct K as [K|K]; [injection K as <- <-; closedb; rewrite ?(also_eq _ _ dx dy) by lia; eqs|]). contradiction.
Qed.
Lemma sunstar_stop s tail : stops_sunstar tail -> loop3 sunstar_body s tail = Ok [].
Proof. intros [H|(u & v & r & ->)]; [apply loop3_short; exact H|]. reflexivity. Qed.
(** Sunstar files whose first byte has its top bit clear. *)
Theorem read_sunstar l header bytes b0 b1 b2 rest :
  header = b0 :: b1 :: b2 :: rest -> List.length header = 256%nat -> flag b0 0x80 = false ->
  stores rec_sunstar stops_sunstar tt 0 0 l bytes -> dat_read (header ++ bytes) = Ok (closed l).
Proof.
  intros Eh Hl Hb H.
  destruct (stores_loop (loop3 sunstar_body) _ _ sunstar_stop sunstar_step _ _ _ _ _ H) as (ev & E & <-).
  unfold dat_read. assert (F : barudan_loop (header ++ bytes) = Ok ([], false)).
  { rewrite Eh. cbn [app barudan_loop]. rewrite Hb. reflexivity. }
  rewrite F. cbn [bindr]. change 256%nat with 256%nat. rewrite skipn_app, skipn_all2 by lia. rewrite Hl, Nat.sub_diag. cbn [skipn app].
  rewrite E. cbn [bindr]. rewrite apply_rel_end. reflexivity.
Qed.

(** EMD *)
Lemma emd_step s steps b s' r : rec_emd s steps b s' -> loop2 emd_body false (b ++ r) = calls_then steps (loop2 emd_body false r).
Proof.
  intros [dx dy A B|dx dy A B| | | |]; try (apply step2; reflexivity).
  - apply step2. unfold emd_body. rewrite two8_not_80, !two8_signed by (unfold signed_byte in *; lia). cbn [negb]. eqs.
  - apply (step22 _ _ _ _ _ _ true); [reflexivity|]. unfold emd_body. rewrite !two8_signed by (unfold signed_byte in *; lia). eqs.
Qed.
Lemma emd_stop tail : stops_emd tail -> loop2 emd_body false tail = Ok [].
Proof. intros [H|(r & ->)]; [apply loop2_short; exact H|]. reflexivity. Qed.
Theorem read_emd l header bytes : List.length header = 0x30%nat -> stores rec_emd stops_emd tt 0 0 l bytes ->
  emd_read (header ++ bytes) = Ok (closed l).
Proof.
  intros Hl H. unfold emd_read. rewrite skipn_app, skipn_all2 by lia. rewrite Hl, Nat.sub_diag. cbn [skipn app].
  revert H. apply (stores_ended (fun _ => loop2 emd_body false)); [intros _; exact emd_stop|exact emd_step].
Qed.

(** INB *)
Lemma inb_step s steps b s' r : rec_inb s steps b s' -> loop3 inb_body s (b ++ r) = calls_then steps (loop3 inb_body s' r).
Proof.
  intros [k c h dx dy T A B K]; apply step3; unfold inb_body. cbn [In] in K. unfold mag8 in *.
  repeat (destruct K as [K|K]; [injection K as <- <-; destruct T; subst h; signs dx dy; closedb; abs_eq|]). contradiction.
Qed.
Lemma inb_stop s tail : stops_inb tail -> loop3 inb_body s tail = Ok [].
Proof. intros [H|(u & v & r & ->)]; [apply loop3_short; exact H|]. reflexivity. Qed.
Lemma skip_header {A} n (header bytes : list A) : List.length header = n -> skipn n (header ++ bytes) = bytes.
Proof. intros <-. rewrite skipn_app, skipn_all, Nat.sub_diag. reflexivity. Qed.
Theorem read_inb l header bytes : zlen header = 0x2000 -> stores rec_inb stops_inb tt 0 0 l bytes ->
  inb_read (header ++ bytes) = Ok (closed l).
Proof.
  intros Hl H. unfold inb_read. rewrite skip_header by (unfold zlen in Hl; lia).
  revert H. apply (stores_ended (loop3 inb_body)); [exact inb_stop|exact inb_step].
Qed.

(** JPX *)
Lemma two8_0 v : signed_byte v -> v <> 0 -> (v =? 0) = false.
Proof. intros _ H. apply Z.eqb_neq. exact H. Qed.
Lemma jpx_step s steps b s' r : rec_jpx s steps b s' -> loop2 jpx_body None (b ++ r) = calls_then steps (loop2 jpx_body None r).
Proof.
  intros [dx dy A B|dx dy A B| |dx dy A B C D].
  - apply step2. unfold jpx_body. rewrite two8_not_80, !two8_signed by (unfold signed_byte in *; lia). cbn [negb]. eqs.
  - apply (step22 _ _ _ _ _ _ (Some 2)); [reflexivity|]. unfold jpx_body. rewrite !two8_signed by (unfold signed_byte in *; lia). closedb. eqs.
  - apply (step22 _ _ _ _ _ _ (Some 1)); reflexivity.
  - apply (step22 _ _ _ _ _ _ (Some 1)); [reflexivity|]. unfold jpx_body. rewrite !two8_signed by (unfold signed_byte in *; lia). cbv zeta.
    destruct (Z.eqb_spec dx 0); [contradiction|]. destruct (Z.eqb_spec (- - dy) 0); [lia|]. closedb. eqs.
Qed.
Lemma jpx_stop tail : stops_jpx tail -> loop2 jpx_body None tail = Ok [].
Proof. intros [H|(r & ->)]; [apply loop2_short; exact H|]. destruct r as [|a [|b r]]; reflexivity. Qed.
Theorem stitches_jpx l bytes : stores rec_jpx stops_jpx tt 0 0 l bytes -> ended (loop2 jpx_body None bytes) = Ok (closed l).
Proof. apply (stores_ended (fun _ => loop2 jpx_body None)); [intros _; exact jpx_stop|exact jpx_step]. Qed.

(** KSM *)
Lemma ksm_flags h dx dy k : top h -> 0 <= k < 32 ->
  let c := h + neg dx 0x40 + pos dy 0x20 + k in
  Z.land c 31 = k /\ flag c 0x40 = (dx <? 0) /\ flag c 0x20 = (0 <? dy).
Proof.
  intros T K c. assert (I : In k (map Z.of_nat (seq 0 32))) by (apply in_map_iff; exists (Z.to_nat k); split; [lia|apply in_seq; lia]).
  unfold c, neg, pos. clear c K. destruct (dx <? 0), (0 <? dy), T; subst h; cbn [seq map In] in I;
  repeat (destruct I as [<-|I]; [vm_compute; auto|]); contradiction.
Qed.
Lemma ksm_step s steps b s' r : rec_ksm s steps b s' -> loop3 ksm_body s (b ++ r) = calls_then steps (loop3 ksm_body s' r).
Proof.
  intros [t w dx dy h k st t' T A B C]. apply step3.
  assert (K : 0 <= k < 32) by (destruct C; cbn [In] in *; lia).
  unfold ksm_body. destruct (ksm_flags h dx dy k T K) as (E1 & E2 & E3). rewrite E1, E2, E3. clear E1 E2 E3.
  assert (Ex : (if dx <? 0 then - Z.abs dx else Z.abs dx) = dx) by (destruct (Z.ltb_spec dx 0); lia).
  assert (Ey : (if 0 <? dy then - - Z.abs dy else - Z.abs dy) = dy) by (destruct (Z.ltb_spec 0 dy); lia).
  rewrite Ex, Ey. cbv zeta.
  assert (Em : (if negb (dx =? 0) || negb (dy =? 0) then [mkS dx dy (if t then JUMP else STITCH)] else []) = ksm_move t dx dy)
    by (apply also_eq; reflexivity).
  assert (Es : (if (negb (dx =? 0) || negb (dy =? 0)) && negb t then true else w) = ksm_sewn t w dx dy).
  { unfold ksm_sewn. destruct (dx =? 0), (dy =? 0), t, w; reflexivity. }
  rewrite Em, Es. destruct C as [t s0|t k I|t k I|t s0 k I|t s0 n N|t s0]; cbn [In] in *.
  - closedb. rewrite app_nil_r. reflexivity.
  - repeat (destruct I as [<-|I]; [closedb; reflexivity|]). contradiction.
  - repeat (destruct I as [<-|I]; [closedb; reflexivity|]). contradiction.
  - rewrite app_nil_r. repeat (destruct I as [<-|I]; [closedb; reflexivity|]). contradiction.
  - assert (I : In n [1; 2; 3; 4; 5; 6; 7; 8]) by (cbn [In]; lia). cbn [In] in I.
    repeat (destruct I as [<-|I]; [closedb; reflexivity|]). contradiction.
  - closedb. reflexivity.
Qed.
Lemma ksm_stop s tail : stops_ksm tail -> loop3 ksm_body s tail = Ok [].
Proof. intros [H|(r & ->)]; [apply loop3_short; exact H|]. destruct s as [[] []]; reflexivity. Qed.
Theorem read_ksm l header bytes : List.length header = 0x200%nat -> stores rec_ksm stops_ksm (false, false) 0 0 l bytes ->
  ksm_read (header ++ bytes) = Ok (closed l).
Proof.
  intros Hl H. unfold ksm_read. rewrite skip_header by exact Hl.
  revert H. apply (stores_ended (loop3 ksm_body)); [exact ksm_stop|exact ksm_step].
Qed.
