(** C220-C223: a pattern used as a sequence and as a dictionary of its metadata, and printed.  The statements
    use only the meaning of Python's brackets: the position an index stands for is the index modulo the
    length, and the value found is the one of the latest assignment. *)
From Coq Require Import Ascii String Decimal ZArith Bool List Lia.
From Verif Require Import BitLemmas PyBase ThreadModel TextModel TextProofs PatternModel DstFileModel DstHeaderProofs ValueModel FilesProofs ItemModel.
Import ListNotations.
Open Scope Z_scope.

(** * Specification *)
Section Spec.
  Context {S0 T V : Type}.
  (** What the latest of the assignments that concern something gave it; [start] if there is none. *)
  Fixpoint latest {A} (about : assignment S0 V -> option A) (h : list (assignment S0 V)) (start : option A) : option A :=
    match h with
    | [] => start
    | a :: h => latest about h (match about a with Some v => Some v | None => start end)
    end.
  (** The assignment of a stitch to the place that index [i] stands for in a pattern of [n] stitches. *)
  Definition to_place (n i : Z) (a : assignment S0 V) : option S0 :=
    match a with
    | SetAt j s => if (- n <=? j) && (j <? n) && ((i - j) mod n =? 0) then Some s else None
    | _ => None
    end.
  Definition to_name (m : text) (a : assignment S0 V) : option V :=
    match a with SetName k v => if list_eq_dec Z.eq_dec m k then Some v else None | _ => None end.
  Definition single (a : assignment S0 V) : Prop := match a with SetRange _ _ _ => False | _ => True end.
  Definition named (m : text) (d : list (text * V)) : option V :=
    option_map snd (find (fun e => if list_eq_dec Z.eq_dec m (fst e) then true else false) d).

  (** Where an end of a slice stands in a pattern of [n] stitches. *)
  Definition bound (n i : Z) : Z :=
    if i <? - n then 0 else if i <? 0 then n + i else if i <=? n then i else n.
  Definition start_at (n : Z) (o : option Z) : Z := match o with Some i => bound n i | None => 0 end.
  Definition stop_at (n : Z) (o : option Z) : Z := match o with Some i => bound n i | None => n end.
End Spec.

(** * Proofs *)
Section Proofs.
  Context {S0 T V : Type}.
  Implicit Types p q : ipattern S0 T V.

  Lemma zlen_nonneg {A} (l : list A) : 0 <= zlen l. Proof. unfold zlen. lia. Qed.
  Lemma position_ok n i : - n <= i < n -> position n i = Ok (Z.to_nat (i mod n)).
  Proof.
    intros H. unfold position.
    assert (E : (if i <? 0 then i + n else i) = i mod n).
    { destruct (Z.ltb_spec i 0).
      - apply (Zmod_unique i n (-1)); lia.
      - symmetry. apply Z.mod_small. lia. }
    cbv zeta. rewrite E. pose proof (Z.mod_pos_bound i n ltac:(lia)) as B.
    destruct (Z.leb_spec 0 (i mod n)); [|lia]. destruct (Z.ltb_spec (i mod n) n); [|lia]. reflexivity.
  Qed.
  Lemma position_err n i : 0 <= n -> ~ (- n <= i < n) -> position n i = Err IndexError.
  Proof.
    intros Hn H. unfold position. cbv zeta. destruct (Z.ltb_spec i 0);
    match goal with |- context [(?a <=? ?b) && (?c <? ?d)] => destruct (Z.leb_spec a b); destruct (Z.ltb_spec c d) end; cbn [andb]; try reflexivity; lia.
  Qed.
  Lemma nth_put {A} (l : list A) k v j : (k < List.length l)%nat ->
    nth_error (firstn k l ++ v :: skipn (S k) l) j = if Nat.eqb j k then Some v else nth_error l j.
  Proof.
    intros H. assert (L : List.length (firstn k l) = k) by (rewrite firstn_length; lia).
    destruct (Nat.eqb_spec j k) as [-> | N].
    - rewrite nth_error_app2, L, Nat.sub_diag by lia. reflexivity.
    - destruct (Nat.lt_ge_cases j k).
      + rewrite nth_error_app1 by lia. rewrite <- (firstn_skipn k l) at 2. rewrite nth_error_app1 by lia. reflexivity.
      + rewrite nth_error_app2, L by lia. rewrite <- (firstn_skipn (S k) l) at 2.
        assert (L2 : List.length (firstn (S k) l) = S k) by (rewrite firstn_length; lia).
        rewrite nth_error_app2, L2 by lia. replace (j - k)%nat with (S (j - S k)) by lia. reflexivity.
  Qed.
  Lemma put_length {A} (l : list A) k v : (k < List.length l)%nat -> List.length (firstn k l ++ v :: skipn (S k) l) = List.length l.
  Proof. intros H. rewrite app_length, firstn_length. cbn [List.length]. rewrite skipn_length. lia. Qed.

  Lemma named_set m k v (d : list (text * V)) : named m (set_name k v d) = if list_eq_dec Z.eq_dec m k then Some v else named m d.
  Proof.
    unfold named. induction d as [|[k' w] d IH]; cbn [set_name find fst].
    - destruct (list_eq_dec Z.eq_dec m k); reflexivity.
    - destruct (text_eqb k k') eqn:E.
      + apply text_eqb_spec in E. subst k'. cbn [find fst]. destruct (list_eq_dec Z.eq_dec m k); reflexivity.
      + cbn [find fst]. destruct (list_eq_dec Z.eq_dec m k') as [-> |]; [|exact IH].
        destruct (list_eq_dec Z.eq_dec k' k) as [-> |]; [|reflexivity].
        rewrite text_eqb_same in E. discriminate.
  Qed.
  Lemma lookup_named m (d : list (text * V)) : lookup m d = named m d.
  Proof.
    unfold named. induction d as [|[k w] d IH]; cbn [lookup find fst]; [reflexivity|].
    destruct (text_eqb m k) eqn:E; destruct (list_eq_dec Z.eq_dec m k) as [N | N]; try reflexivity; try exact IH.
    - apply text_eqb_spec in E. contradiction.
    - subst. rewrite text_eqb_same in E. discriminate.
  Qed.

  Lemma near_equal n u v : (u - v) mod n = 0 -> 0 <= u < n -> 0 <= v < n -> u = v.
  Proof.
    intros W Bu Bv. pose proof (Z.div_mod (u - v) n ltac:(lia)) as D. rewrite W in D. revert D. generalize ((u - v) / n) as q. intros q D.
    assert (q < 1) by nia. assert (-1 < q) by nia. assert (q = 0) by lia. subst q. lia.
  Qed.
  Lemma assign_step p a i m : single a -> - len p <= i < len p ->
    let p' := assign p a in
    len p' = len p /\ ip_threads p' = ip_threads p /\
    nth_error (ip_stitches p') (Z.to_nat (i mod len p)) =
      match to_place (len p) i a with Some s => Some s | None => nth_error (ip_stitches p) (Z.to_nat (i mod len p)) end /\
    named m (ip_extras p') = match to_name m a with Some v => Some v | None => named m (ip_extras p) end.
  Proof.
    intros Hs Hi. destruct a as [k v | j s | ? ? ?]; [| |contradiction]; unfold assign; cbn [setitem to_place to_name].
    - cbn [ip_stitches ip_threads ip_extras]. unfold len. cbn [ip_stitches]. repeat split. rewrite named_set.
      destruct (list_eq_dec Z.eq_dec m k); reflexivity.
    - destruct (Z.leb_spec (- len p) j) as [A | A], (Z.ltb_spec j (len p)) as [B | B]; cbn [andb];
        try (rewrite position_err by (unfold len in *; try apply zlen_nonneg; lia); cbn [bindr]; repeat split; reflexivity).
      rewrite position_ok by lia. cbn [bindr ip_stitches ip_threads ip_extras].
      pose proof (Z.mod_pos_bound j (len p) ltac:(lia)) as Bj. pose proof (Z.mod_pos_bound i (len p) ltac:(lia)) as Bi.
      assert (K : (Z.to_nat (j mod len p) < List.length (ip_stitches p))%nat) by (unfold len, zlen in *; lia).
      repeat split.
      + unfold len. cbn [ip_stitches]. unfold zlen. rewrite put_length by exact K. reflexivity.
      + rewrite nth_put by exact K.
        assert (E : (Z.to_nat (i mod len p) =? Z.to_nat (j mod len p))%nat = ((i - j) mod len p =? 0)).
        { assert (X : (i - j) mod len p = (i mod len p - j mod len p) mod len p) by apply Zminus_mod.
          destruct (Nat.eqb_spec (Z.to_nat (i mod len p)) (Z.to_nat (j mod len p))) as [Y | Y].
          - assert (Y' : i mod len p = j mod len p) by (apply Z2Nat.inj; [apply Bi|apply Bj|exact Y]). rewrite X, Y', Z.sub_diag, Z.mod_0_l; [reflexivity|]. clear - Hi. lia.
          - symmetry. apply Z.eqb_neq. rewrite X. intros W. apply Y. f_equal.
            exact (near_equal _ _ _ W Bi Bj). }
        rewrite E. destruct ((i - j) mod len p =? 0); reflexivity.
  Qed.
  Lemma assign_shape p a : single a -> len (assign p a) = len p /\ ip_threads (assign p a) = ip_threads p /\
    forall m, named m (ip_extras (assign p a)) = match to_name m a with Some v => Some v | None => named m (ip_extras p) end.
  Proof.
    intros Hs. destruct (Z.eq_dec (len p) 0) as [E | N].
    - destruct a as [k v | j s | ? ? ?]; [| |contradiction]; unfold assign; cbn [setitem to_name].
      + unfold len. cbn [ip_stitches ip_threads ip_extras]. repeat split. intros m. rewrite named_set.
        destruct (list_eq_dec Z.eq_dec m k); reflexivity.
      + rewrite position_err by lia. repeat split; reflexivity.
    - assert (P : 0 <= len p) by apply zlen_nonneg.
      repeat split; try apply (assign_step p a 0 [] Hs); try lia.
      intros m. apply (assign_step p a 0 m Hs). lia.
  Qed.

  Theorem C220_assigned : forall p h, Forall single h ->
    let p' := assign_all p h in let n := len p in
    len p' = n /\ ip_threads p' = ip_threads p /\
    (forall i, - n <= i < n ->
       exists s, getitem p' (KAt i) = Ok (IStitch s) /\
         latest (to_place n i) h (nth_error (ip_stitches p) (Z.to_nat (i mod n))) = Some s) /\
    (forall i, ~ (- n <= i < n) -> getitem p' (KAt i) = Err IndexError) /\
    (forall m, getitem p' (KName m) =
       match latest (to_name m) h (named m (ip_extras p)) with Some v => Ok (INamed v) | None => Err KeyError end).
  Proof.
    intros p h H. cbv zeta. revert p. induction H as [|a h Ha H IH]; intros p; cbn [assign_all fold_left latest].
    - split; [reflexivity|]. split; [reflexivity|]. split; [|split].
      + intros i Hi. cbn [getitem]. rewrite position_ok by exact Hi. cbn [bindr].
        pose proof (Z.mod_pos_bound i (len p) ltac:(lia)) as B.
        destruct (nth_error (ip_stitches p) (Z.to_nat (i mod len p))) as [s|] eqn:E; [exists s; split; reflexivity|].
        apply nth_error_None in E. unfold len, zlen in *. lia.
      + intros i Hi. cbn [getitem]. rewrite position_err; [reflexivity|apply zlen_nonneg|exact Hi].
      + intros m. cbn [getitem]. rewrite lookup_named. reflexivity.
    - destruct (assign_shape p a Ha) as (L & Th & Nm). specialize (IH (assign p a)). rewrite L in IH.
      destruct IH as (I1 & I2 & I3 & I4 & I5). unfold assign_all in *.
      split; [exact I1|]. split; [congruence|]. split; [|split; [exact I4|]].
      + intros i Hi. destruct (I3 i Hi) as (s & G & E). exists s. split; [exact G|].
        destruct (assign_step p a i [] Ha Hi) as (_ & _ & W & _). rewrite W in E. exact E.
      + intros m. rewrite I5, Nm. reflexivity.
  Qed.

  (** ** Slices *)
  Lemma limit_bound n i : 0 <= n -> limit n i = bound n i.
  Proof.
    intros H. unfold limit, bound. destruct (Z.ltb_spec i 0), (Z.ltb_spec i (- n)); try lia; destruct (Z.leb_spec i n); lia.
  Qed.
  Lemma from_start n o : 0 <= n -> from_of n o = start_at n o /\ 0 <= from_of n o <= n.
  Proof. intros H. destruct o as [i|]; cbn [from_of start_at]; [rewrite limit_bound by exact H; rewrite <- limit_bound by exact H; unfold limit; split; [reflexivity|lia]|lia]. Qed.
  Lemma to_stop n o : 0 <= n -> to_of n o = stop_at n o /\ 0 <= to_of n o <= n.
  Proof. intros H. destruct o as [i|]; cbn [to_of stop_at]; [rewrite limit_bound by exact H; rewrite <- limit_bound by exact H; unfold limit; split; [reflexivity|lia]|lia]. Qed.
  Lemma skipn_nth {A} (l : list A) k j : nth_error (skipn k l) j = nth_error l (k + j).
  Proof. revert l. induction k as [|k IH]; intros [|a l]; cbn [skipn Nat.add nth_error]; try reflexivity; [destruct j; reflexivity|apply IH]. Qed.
  Lemma firstn_nth {A} (l : list A) k j : nth_error (firstn k l) j = if (j <? k)%nat then nth_error l j else None.
  Proof.
    revert l j. induction k as [|k IH]; intros l j; [destruct j; reflexivity|].
    destruct l as [|a l]; [cbn [firstn]; destruct j, (_ <? _)%nat; reflexivity|]. destruct j as [|j]; [reflexivity|]. exact (IH l j).
  Qed.

  (** Reading p[a:b]: its j-th stitch is the one at the start of the range plus j, up to the end. *)
  Theorem C221_read : forall p a b, let n := len p in
    exists l, getitem p (KRange a b) = Ok (IStitches l) /\
      forall j s, nth_error l j = Some s <->
        (start_at n a + Z.of_nat j < stop_at n b /\ nth_error (ip_stitches p) (Z.to_nat (start_at n a) + j) = Some s).
  Proof.
    intros p a b n. unfold n. cbn [getitem]. eexists. split; [reflexivity|]. intros j s.
    destruct (from_start (len p) a (zlen_nonneg _)) as [<- A]. destruct (to_stop (len p) b (zlen_nonneg _)) as [<- B].
    unfold py_slice. rewrite firstn_nth, skipn_nth.
    destruct (Nat.ltb_spec j (Z.to_nat (to_of (len p) b - from_of (len p) a))).
    - split; [intros H0; split; [lia|exact H0]|intros [_ H0]; exact H0].
    - split; [discriminate|intros [H0 _]; lia].
  Qed.
  (** Cutting at any index, inside the pattern or not, gives two parts that are the whole. *)
  Theorem C221_cut : forall p k l r,
    getitem p (KRange None (Some k)) = Ok (IStitches l) -> getitem p (KRange (Some k) None) = Ok (IStitches r) ->
    l ++ r = ip_stitches p.
  Proof.
    intros p k l r. cbn [getitem from_of to_of]. intros [= <-] [= <-]. unfold py_slice.
    rewrite Z.sub_0_r. cbn [Z.to_nat skipn].
    rewrite (firstn_all2 (n := Z.to_nat (len p - limit (len p) k))); [apply firstn_skipn|].
    rewrite skipn_length. unfold limit, len, zlen. lia.
  Qed.
  (** Writing p[a:b] = l: what is before the range, the new stitches, what is after the range. *)
  Theorem C221_write : forall p a b l, let n := len p in
    exists p' before after, setitem p (SetRange a b l) = Ok p' /\ ip_stitches p' = before ++ l ++ after /\
      ip_threads p' = ip_threads p /\ ip_extras p' = ip_extras p /\
      getitem p (KRange None (Some (start_at n a))) = Ok (IStitches before) /\
      getitem p (KRange (Some (Z.max (start_at n a) (stop_at n b))) None) = Ok (IStitches after).
  Proof.
    intros p a b l n. unfold n. cbn [setitem getitem from_of to_of]. eexists _, _, _. split; [reflexivity|]. cbn [ip_stitches ip_threads ip_extras].
    destruct (from_start (len p) a (zlen_nonneg _)) as [<- A]. destruct (to_stop (len p) b (zlen_nonneg _)) as [<- B].
    set (x := from_of (len p) a) in *. set (y := Z.max x (to_of (len p) b)).
    split; [reflexivity|]. split; [reflexivity|]. split; [reflexivity|].
    assert (X : limit (len p) x = x) by (unfold limit; destruct (Z.ltb_spec x 0); lia).
    assert (Y : limit (len p) y = y) by (unfold y, limit; destruct (Z.ltb_spec (Z.max x (to_of (len p) b)) 0); lia).
    rewrite X, Y. unfold py_slice. rewrite Z.sub_0_r. split; [reflexivity|].
    do 2 f_equal. apply firstn_all2. rewrite skipn_length. unfold y, len, zlen in *. lia.
  Qed.

  (** ** Iteration *)
  Lemma at_index p k : getitem p (KAt (Z.of_nat k)) = match nth_error (ip_stitches p) k with Some s => Ok (IStitch s) | None => Err IndexError end.
  Proof.
    cbn [getitem]. destruct (Nat.lt_ge_cases k (List.length (ip_stitches p))) as [H | H].
    - rewrite position_ok by (unfold len, zlen; lia). cbn [bindr]. rewrite Z.mod_small by (unfold len, zlen; lia). rewrite Nat2Z.id. reflexivity.
    - rewrite position_err by (unfold len, zlen; lia). cbn [bindr]. apply nth_error_None in H. rewrite H. reflexivity.
  Qed.
  Lemma skipn_step {A} (l : list A) k s : nth_error l k = Some s -> skipn k l = s :: skipn (S k) l.
  Proof. revert l. induction k as [|k IH]; intros [|a l] H; try discriminate; [injection H as ->; reflexivity|]. apply (IH l H). Qed.
  Lemma iterate_from p : forall fuel k, (List.length (ip_stitches p) - k < fuel)%nat ->
    iterate fuel p (Z.of_nat k) = Ok (skipn k (ip_stitches p)).
  Proof.
    induction fuel as [|fuel IH]; intros k H; [lia|]. cbn [iterate]. rewrite at_index.
    destruct (nth_error (ip_stitches p) k) as [s|] eqn:E.
    - assert (K : (k < List.length (ip_stitches p))%nat) by (apply nth_error_Some; congruence).
      replace (Z.of_nat k + 1) with (Z.of_nat (S k)) by lia. rewrite IH by lia. cbn [bindr]. rewrite (skipn_step _ _ _ E). reflexivity.
    - apply nth_error_None in E. rewrite skipn_all2 by exact E. reflexivity.
  Qed.
  Lemma firstn_step {A} (l : list A) k s : nth_error l k = Some s -> firstn (S k) l = firstn k l ++ [s].
  Proof. revert l. induction k as [|k IH]; intros [|a l] H; try discriminate; [injection H as ->; reflexivity|]. change (a :: firstn (S k) l = a :: (firstn k l ++ [s])). f_equal. apply (IH l H). Qed.
  Lemma backwards_from p : forall k, (k <= List.length (ip_stitches p))%nat -> backwards k p = Ok (rev (firstn k (ip_stitches p))).
  Proof.
    induction k as [|k IH]; intros H; [reflexivity|]. cbn [backwards]. rewrite at_index.
    destruct (nth_error (ip_stitches p) k) as [s|] eqn:E; [|apply nth_error_None in E; lia].
    rewrite IH by lia. cbn [bindr]. rewrite (firstn_step _ _ _ E), rev_app_distr. reflexivity.
  Qed.

  (** Iterating over a pattern comes to an end after its last stitch and gives all stitches in order, and
      backwards in the opposite order. *)
  Theorem C222_iteration : forall p,
    (forall fuel, len p < Z.of_nat fuel -> iterate fuel p 0 = Ok (ip_stitches p)) /\
    backwards (Z.to_nat (len p)) p = Ok (rev (ip_stitches p)).
  Proof.
    intros p. split.
    - intros fuel H. apply (iterate_from p fuel 0). unfold len, zlen in H. lia.
    - unfold len, zlen. rewrite Nat2Z.id, backwards_from by lia. rewrite firstn_all. reflexivity.
  Qed.

  (** ** Printing *)
  Definition plain (c : Z) : Prop := c = 32 \/ number_char c.
  Lemma pad_plain w v : Forall plain (pad_left w (str_of_int v)).
  Proof.
    unfold pad_left. apply Forall_app. split.
    - apply Forall_forall. intros c H. apply repeat_spec in H. left. exact H.
    - eapply Forall_impl; [|apply str_of_int_chars]. intros c H. right. exact H.
  Qed.
  Lemma int_pad w v : int_of_text (pad_left w (str_of_int v)) = Ok v.
  Proof.
    assert (E : strip (str_of_int v) = str_of_int v) by (apply strip_number; [apply str_of_int_nonnil|apply str_of_int_chars]).
    rewrite <- (int_of_str_0 v). unfold int_of_text. rewrite strip_pad_left, E. reflexivity.
  Qed.
  (** Two texts of plain characters, each after a character that is not. *)
  Lemma same_end c a : ~ plain c -> Forall plain a -> forall b x y, Forall plain b -> x ++ c :: a = y ++ c :: b -> x = y /\ a = b.
  Proof.
    intros Hc Fa b x y Fb E.
    assert (R : rev a ++ c :: rev x = rev b ++ c :: rev y).
    { apply (f_equal (@rev Z)) in E. rewrite !rev_app_distr in E. cbn [rev] in E. rewrite <- !app_assoc in E. exact E. }
    apply Forall_rev in Fa. apply Forall_rev in Fb.
    assert (Q : rev a = rev b /\ rev x = rev y).
    { clear E. revert Fa Fb R. generalize (rev a) as u, (rev b) as v. induction u as [|s u IH]; intros v Fu Fv R; destruct v as [|t v].
      - injection R as R. split; [reflexivity|exact R].
      - injection R as -> R. inversion Fv; subst. contradiction.
      - injection R as <- R. inversion Fu; subst. contradiction.
      - injection R as <- R. inversion Fu; inversion Fv; subst. destruct (IH v) as [-> W]; auto. }
    destruct Q as [Q1 Q2]. apply (f_equal (@rev Z)) in Q1, Q2. rewrite !rev_involutive in Q1, Q2. split; congruence.
  Qed.
  Lemma not_plain_colon : ~ plain 58. Proof. unfold plain, number_char, TextProofs.digit. lia. Qed.

  (** The text a pattern prints as holds the number of its stitches and of its threads as numbers; whatever
      the name is, two patterns that print the same have as many of each. *)
  Theorem C223_printed : forall (show : V -> text) p,
    (exists start a b, printed show p = start ++ text_of ": " ++ a ++ text_of ", threads: " ++ b ++ text_of ")" /\
       int_of_text a = Ok (zlen (ip_stitches p)) /\ int_of_text b = Ok (zlen (ip_threads p))) /\
    (forall q, printed show p = printed show q ->
       zlen (ip_stitches p) = zlen (ip_stitches q) /\ zlen (ip_threads p) = zlen (ip_threads q)).
  Proof.
    intros show p.
    assert (F : forall q, exists start, printed show q = start ++ text_of ": " ++ pad_left 3 (str_of_int (zlen (ip_stitches q)))
        ++ text_of ", threads: " ++ pad_left 3 (str_of_int (zlen (ip_threads q))) ++ text_of ")").
    { intros q. unfold printed. generalize (match lookup (text_of "name") (ip_extras q) with Some v => show v ++ text_of " " | None => [] end) as u. intros u.
      exists (text_of "EmbPattern " ++ u ++ text_of "(commands"). rewrite <- !app_assoc. do 2 f_equal. }
    split.
    - destruct (F p) as [start E]. exists start. eexists _, _. split; [exact E|]. split; apply int_pad.
    - intros q H. destruct (F p) as [x E]. destruct (F q) as [y E']. rewrite E, E' in H. clear E E' F.
      set (a := pad_left 3 (str_of_int (zlen (ip_stitches p)))) in *. set (b := pad_left 3 (str_of_int (zlen (ip_threads p)))) in *.
      set (a' := pad_left 3 (str_of_int (zlen (ip_stitches q)))) in *. set (b' := pad_left 3 (str_of_int (zlen (ip_threads q)))) in *.
      rewrite !app_assoc in H. apply app_inj_tail in H as [H _].
      assert (Sp : plain 32) by (left; reflexivity).
      change (text_of ", threads: ") with (text_of ", threads" ++ [58] ++ [32]) in H. change (text_of ": ") with ([58] ++ [32]) in H.
      rewrite <- !app_assoc in H. cbn [app] in H.
      assert (B : b = b' /\ x ++ 58 :: 32 :: a = y ++ 58 :: 32 :: a').
      { destruct (same_end 58 (32 :: b) not_plain_colon) with (b := 32 :: b') (x := (x ++ 58 :: 32 :: a) ++ text_of ", threads")
          (y := (y ++ 58 :: 32 :: a') ++ text_of ", threads") as [X Y].
        - constructor; [exact Sp|apply pad_plain].
        - constructor; [exact Sp|apply pad_plain].
        - rewrite <- !app_assoc. cbn [app]. exact H.
        - apply app_inv_tail in X. injection Y as Y. split; [exact Y|exact X]. }
      destruct B as [B A].
      destruct (same_end 58 (32 :: a) not_plain_colon ltac:(constructor; [exact Sp|apply pad_plain]) (32 :: a') x y) as [_ Y];
        [constructor; [exact Sp|apply pad_plain]|exact A|]. injection Y as Y.
      apply (f_equal int_of_text) in B. apply (f_equal int_of_text) in Y. unfold a, a', b, b' in *. rewrite !int_pad in B, Y.
      split; congruence.
  Qed.
End Proofs.

(** * A case *)
Definition case_pattern : ipattern Z Z Z := mkIP [10; 20; 30] [1; 2] [(text_of "name", 7)].
Definition case_history : list (assignment Z Z) :=
  [SetAt (-1) 33; SetName (text_of "author") 8; SetAt 3 99; SetAt 0 11; SetName (text_of "name") 9; SetAt (-3) 12].
Example C220_case : Forall single case_history /\
  assign_all case_pattern case_history = mkIP [12; 20; 33] [1; 2] [(text_of "name", 9); (text_of "author", 8)] /\
  getitem (assign_all case_pattern case_history) (KAt (-1)) = Ok (IStitch 33).
Proof. split; [repeat constructor|]. split; vm_compute; reflexivity. Qed.
Example C221_case :
  getitem case_pattern (KRange (Some (-2)) (Some 9)) = Ok (IStitches [20; 30]) /\
  setitem case_pattern (SetRange (Some 2) (Some 1) [5; 6]) = Ok (mkIP [10; 20; 5; 6; 30] [1; 2] [(text_of "name", 7)]).
Proof. split; vm_compute; reflexivity. Qed.
Example C222_case : iterate 4 case_pattern 0 = Ok [10; 20; 30] /\ backwards 3 case_pattern = Ok [30; 20; 10].
Proof. split; vm_compute; reflexivity. Qed.
Example C223_case : printed (fun _ => text_of "rose") case_pattern = text_of "EmbPattern rose (commands:   3, threads:   2)".
Proof. vm_compute. reflexivity. Qed.

Print Assumptions C220_assigned.
Print Assumptions C221_read.
Print Assumptions C221_cut.
Print Assumptions C221_write.
Print Assumptions C222_iteration.
Print Assumptions C223_printed.
