From Coq Require Import ZArith List Lia.
From Verif Require Import PyBase EmbConst FunctionsModel BitLemmas.
Import ListNotations.
Open Scope Z_scope.

Lemma encode_sum : forall c t n o,
  0 <= enc_field t <= 255 -> 0 <= enc_field n <= 255 -> 0 <= enc_field o ->
  encode_thread_change c t n o =
  c mod 256 + enc_field t * 2 ^ 8 + enc_field n * 2 ^ 16 + enc_field o * 2 ^ 24.
Proof.
  intros c t n o Ht Hn Ho. unfold encode_thread_change.
  set (T := enc_field t) in *. set (N := enc_field n) in *. set (O := enc_field o) in *.
  unfold COMMAND_MASK. rewrite land_ff.
  assert (Hc : 0 <= c mod 256 < 256) by (apply Z.mod_pos_bound; lia).
  set (C := c mod 256) in *.
  replace (Z.lor (Z.lor (Z.lor C (Z.shiftl O 24)) (Z.shiftl N 16)) (Z.shiftl T 8))
    with (Z.lor (Z.lor (Z.lor C (Z.shiftl T 8)) (Z.shiftl N 16)) (Z.shiftl O 24)).
  2:{ apply Z.bits_inj'. intros i Hi. rewrite !Z.lor_spec.
      destruct (Z.testbit C i), (Z.testbit (Z.shiftl T 8) i), (Z.testbit (Z.shiftl N 16) i),
        (Z.testbit (Z.shiftl O 24) i); reflexivity. }
  rewrite (lor_shiftl_add C T 8) by lia.
  rewrite (lor_shiftl_add (C + T * 2 ^ 8) N 16) by lia.
  rewrite (lor_shiftl_add _ O 24) by lia.
  reflexivity.
Qed.

Lemma enc_field_range : forall v, 0 <= enc_field v <= 256.
Proof.
  intros [v|]; cbn [enc_field]; [|lia].
  rewrite land_ff. pose proof (Z.mod_pos_bound v 256 ltac:(lia)). lia.
Qed.

(** A field that fits: absent, or its low byte is not 255. *)
Definition field_fits (v : option Z) : Prop :=
  match v with None => True | Some v => v mod 256 <> 255 end.
Definition field_low (v : option Z) : option Z := option_map (fun v => v mod 256) v.

Lemma enc_field_fits : forall v, field_fits v -> 0 <= enc_field v <= 255.
Proof.
  intros [v|] H; cbn in *; [|lia].
  rewrite land_ff. pose proof (Z.mod_pos_bound v 256 ltac:(lia)). lia.
Qed.

Lemma dec_field_spec : forall c k v, 0 <= k -> field_fits v ->
  (c / 2 ^ k) mod 256 = enc_field v ->
  dec_field c (Z.shiftl 0xFF k) k = field_low v.
Proof.
  intros c k v Hk Hf H. unfold dec_field. rewrite shiftr_mask by lia. rewrite H.
  destruct v as [v|]; cbn [enc_field field_low option_map].
  - rewrite land_ff. pose proof (Z.mod_pos_bound v 256 ltac:(lia)).
    destruct (Z.eqb_spec (v mod 256 + 1 - 1) (-1)); [lia|]. f_equal. lia.
  - reflexivity.
Qed.

Lemma decode_encode : forall c t n o, field_fits t -> field_fits n -> field_fits o ->
  decode_embroidery_command (encode_thread_change c t n o)
  = (c mod 256, field_low t, field_low n, field_low o).
Proof.
  intros c t n o Ht Hn Ho.
  pose proof (enc_field_fits t Ht) as Rt. pose proof (enc_field_fits n Hn) as Rn.
  pose proof (enc_field_fits o Ho) as Ro.
  unfold decode_embroidery_command.
  rewrite encode_sum by lia.
  pose proof (Z.mod_pos_bound c 256 ltac:(lia)) as Rc.
  set (e := c mod 256 + _ + _ + _).
  assert (E0 : Z.land e COMMAND_MASK = c mod 256).
  { unfold COMMAND_MASK. rewrite land_ff. unfold e. lia. }
  rewrite E0.
  change THREAD_MASK with (Z.shiftl 0xFF 8). change NEEDLE_MASK with (Z.shiftl 0xFF 16).
  change ORDER_MASK with (Z.shiftl 0xFF 24).
  rewrite (dec_field_spec e 8 t), (dec_field_spec e 16 n), (dec_field_spec e 24 o);
    [reflexivity|lia|assumption| |lia|assumption| |lia|assumption| ]; unfold e; lia.
Qed.
