(** Further lemmas about channel values: bit frame of a setter, wrapping of values, layout, and
    counterexamples. *)
From Verif Require Import Base ChannelModel ChannelSpec BitProofs ChannelProofs SetProofs HistProofs
  VlsdProofs.
Local Open Scope N_scope.

(** Only the bits of the field matter. *)
Lemma field_le_bits : forall r1 r2 start len,
  bytes_ok r1 -> bytes_ok r2 ->
  (forall k, start <= k < start + len -> buf_bit r1 k = buf_bit r2 k) ->
  field_le r1 start len = field_le r2 start len.
Proof.
  intros r1 r2 start len H1 H2 H. unfold field_le. apply N.bits_inj. intros i.
  destruct (N.lt_ge_cases i len).
  - rewrite !N.mod_pow2_bits_low, !N.div_pow2_bits by auto.
    rewrite !le_num_testbit by auto. apply (H (i + start)). lia.
  - rewrite !N.mod_pow2_bits_high by auto. reflexivity.
Qed.

(** Every bit of the buffer after a setter call, outside the element. *)
Lemma set_channel_bits : forall double_to_float c buf v valid idx buf' k,
  bytes_ok buf -> placed c (N.of_nat (length buf)) -> idx < elems c ->
  value_fits double_to_float c v ->
  set_channel double_to_float c buf v valid idx = Ok buf' ->
  (k < 8 * (ch_byte c + data_bytes c * idx) \/
   8 * (ch_byte c + data_bytes c * idx + data_bytes c) <= k) ->
  buf_bit buf' k =
  if ch_invalid c && (k =? inv_bit c idx) then negb valid else buf_bit buf k.
Proof.
  intros d2f c buf v valid idx buf' k Hok P Hi Hf Hset Hk.
  destruct (fits_stored d2f c v Hf) as [raw Hs].
  rewrite (set_channel_eq d2f d2f d2f c buf v raw valid idx P Hi Hs) in Hset.
  inversion Hset as [Hb]. clear Hset.
  destruct (placed_elem _ _ _ P Hi) as [A1 A2]. rewrite Nat2N.id in A2.
  unfold buf_bit at 1. rewrite nth_splice_out.
  - fold (buf_bit (set_valid c buf valid idx) k).
    destruct (ch_invalid c) eqn:E; cbn [andb].
    + apply set_valid_bits; auto; [|apply (pl_len _ _ P)]. apply placed_inv; auto.
    + unfold set_valid. rewrite E. reflexivity.
  - rewrite enc_length, set_valid_length. lia.
  - rewrite enc_length. unfold elem_off, elem_size in *. lia.
Qed.

(** A value that does not fit is stored modulo the width of the channel. *)
Lemma set_unsigned_wraps : forall h2d f2d d2f c buf u valid idx,
  bytes_ok buf -> placed c (N.of_nat (length buf)) -> idx < elems c ->
  ch_dtype c = UnsignedLe \/ ch_dtype c = UnsignedBe ->
  exists buf', set_channel d2f c buf (VU u) valid idx = Ok buf' /\
    get_channel h2d f2d c buf' idx
    = Ok (VU (u mod 2 ^ ch_bits c), if ch_invalid c then valid else true).
Proof.
  intros h2d f2d d2f c buf u valid idx Hok P Hi Hd.
  destruct (set_get h2d f2d d2f c buf (VU (u mod 2 ^ ch_bits c)) valid idx Hok P Hi)
    as (b & Hb & _ & _ & Hg).
  { unfold value_fits. destruct Hd as [->| ->]; apply N.mod_lt, N.pow_nonzero; lia. }
  exists b. split.
  - assert (S1: stored d2f c (VU u) = Some u) by (unfold stored; destruct Hd as [->| ->]; auto).
    assert (S2: stored d2f c (VU (u mod 2 ^ ch_bits c)) = Some (u mod 2 ^ ch_bits c))
      by (unfold stored; destruct Hd as [->| ->]; auto).
    rewrite (set_channel_eq d2f d2f d2f _ _ _ _ _ _ P Hi S1).
    rewrite (set_channel_eq d2f d2f d2f _ _ _ _ _ _ P Hi S2) in Hb. rewrite <- Hb.
    destruct (num_size_bytes c (pl_size _ _ P)) as [Hbits _].
    assert (Hb2: ch_bits c = 8 * N.of_nat (elem_size c)) by (unfold elem_size; lia).
    f_equal. f_equal.
    assert (E: le_bytes (elem_size c) u = le_bytes (elem_size c) (u mod 2 ^ ch_bits c)).
    { rewrite Hb2, <- pow256. 
      rewrite <- (le_bytes_num (le_bytes (elem_size c) u)) by apply le_bytes_ok.
      rewrite le_num_bytes, le_bytes_length. reflexivity. }
    unfold enc, be_bytes. rewrite <- E. reflexivity.
  - rewrite Hg. unfold as_stored. destruct Hd as [->| ->]; reflexivity.
Qed.

(** Layout of a prepared group, seen from outside. *)
Lemma layout_all : forall l l' nd ni, record_bytes l < 2 ^ 28 -> prepare_group l = (l', nd, ni) ->
  length l' = length l /\ nd = sum_of space_of l /\
  8 * ni >= sum_of invals_of l /\ 8 * ni < sum_of invals_of l + 8 /\
  (forall k c0 c, nth_error l k = Some c0 -> nth_error l' k = Some c ->
     ch_byte c = sum_of space_of (firstn k l) /\ ch_bit c = 0 /\
     ch_byte c + data_bytes c * elems c <= nd /\
     data_bytes c * elems c = space_of c0 /\
     (ch_invalid c = true ->
      ch_inval_pos c = sum_of invals_of (firstn k l) /\ ch_inval_pos c + elems c <= 8 * ni)) /\
  (forall j k cj ck, nth_error l' j = Some cj -> nth_error l' k = Some ck -> (j < k)%nat ->
     ch_byte cj + data_bytes cj * elems cj <= ch_byte ck /\
     (ch_invalid cj = true -> ch_invalid ck = true ->
      ch_inval_pos cj + elems cj <= ch_inval_pos ck)).
Proof.
  intros l l' nd ni Hsz Hp.
  destruct (prepare_group_eq l Hsz) as (l2 & Hp2 & Hlen & Hnth).
  rewrite Hp in Hp2. inversion Hp2; subst l2 nd ni; clear Hp2 Hp.
  split; [auto|]. split; [auto|].
  assert (X: forall x, 8 * ((x + 7) / 8) >= x /\ 8 * ((x + 7) / 8) < x + 8) by (clear; intros; lia).
  destruct (X (sum_of invals_of l)) as [X1 X2]. split; [auto|]. split; [auto|].
  split.
  - intros k c0 c H0 Hc. rewrite (Hnth _ _ H0) in Hc. inversion Hc; subst c; clear Hc.
    destruct (placed_chan_fields l k c0 H0 Hsz) as (F1 & F2 & F3 & F4 & F5 & F6).
    pose proof (sum_of_firstn space_of _ _ _ H0) as S1.
    pose proof (sum_of_firstn invals_of _ _ _ H0) as S2.
    split; [auto|]. split.
    { apply (prepare_channel_fields c0 (sum_of space_of (firstn k l)) (sum_of invals_of (firstn k l))). }
    rewrite F2, F1. split; [auto|]. split; [auto|].
    intros Hi. destruct (F5 Hi) as [G1 G2]. split; [auto|]. rewrite G1, G2. lia.
  - intros j k cj ck Hj Hk Hlt.
    assert (Ej: exists c0, nth_error l j = Some c0).
    { destruct (nth_error l j) eqn:E; eauto. apply nth_error_None in E. rewrite <- Hlen in E.
      apply nth_error_None in E. congruence. }
    assert (Ek: exists c0, nth_error l k = Some c0).
    { destruct (nth_error l k) eqn:E; eauto. apply nth_error_None in E. rewrite <- Hlen in E.
      apply nth_error_None in E. congruence. }
    destruct Ej as [c1 E1]. destruct Ek as [c2 E2].
    rewrite (Hnth _ _ E1) in Hj. rewrite (Hnth _ _ E2) in Hk. inversion Hj; inversion Hk; subst cj ck.
    destruct (placed_chan_fields l j c1 E1 Hsz) as (F1 & F2 & F3 & F4 & F5 & F6).
    destruct (placed_chan_fields l k c2 E2 Hsz) as (G1 & G2 & G3 & G4 & G5 & G6).
    pose proof (sum_of_firstn_lt space_of l j k c1 E1 Hlt) as S1.
    pose proof (sum_of_firstn_lt invals_of l j k c1 E1 Hlt) as S2.
    split; [rewrite F1, F2, G1; auto|].
    intros I1 I2. destruct (F5 I1) as [A1 A2]. destruct (G5 I2) as [B1 B2]. rewrite A1, A2, B1. auto.
Qed.

(** Flags: set one, read any. *)
Lemma valid_independent : forall c1 i1 c2 i2 buf v,
  ch_invalid c1 = true -> ch_invalid c2 = true ->
  inv_bit c1 i1 < 8 * N.of_nat (length buf) -> inv_bit c2 i2 < 8 * N.of_nat (length buf) ->
  N.of_nat (length buf) < 2 ^ 28 ->
  get_valid c2 (set_valid c1 buf v i1) i2 =
  if inv_bit c2 i2 =? inv_bit c1 i1 then v else get_valid c2 buf i2.
Proof.
  intros c1 i1 c2 i2 buf v H1 H2 B1 B2 Hl.
  rewrite !get_valid_eq; auto; rewrite ?set_valid_length; auto.
  fold (buf_bit (set_valid c1 buf v i1) (inv_bit c2 i2)). fold (buf_bit buf (inv_bit c2 i2)).
  rewrite set_valid_bits by auto.
  destruct (inv_bit c2 i2 =? inv_bit c1 i1); auto. apply negb_involutive.
Qed.

Lemma raw_loop_none : forall le raw n first byte bit v, rd raw byte = None ->
  raw_loop le raw (S n) first byte bit v = None.
Proof. intros le raw n first byte bit v H. cbn [raw_loop]. rewrite H. reflexivity. Qed.

(** A record of 256 MiB and more: the bit position does not fit an int. *)
Lemma big_record_ub : forall rec, 2 ^ 28 < N.of_nat (length rec) ->
  get_unsigned (mkChan FixedLength UnsignedLe (2 ^ 28) 0 8 1 false 0 (2 ^ 28 + 1) 0) rec 0 = UB.
Proof.
  intros rec H. unfold get_unsigned.
  assert (R: range_ok (mkChan FixedLength UnsignedLe (2 ^ 28) 0 8 1 false 0 (2 ^ 28 + 1) 0) rec 0
             = true).
  { unfold range_ok. apply N.leb_le. cbv zeta.
    match goal with |- ?x <= _ => replace x with (2 ^ 28 + 1) by (vm_compute; reflexivity) end. lia. }
  rewrite R. cbn [ch_type is_vlsd ch_dtype ch_bits].
  set (off := bit_offset _ _).
  assert (E: off = 2 ^ 31) by (vm_compute; reflexivity). rewrite E.
  unfold raw_to_unsigned. change (N.to_nat 8) with (S 7).
  rewrite raw_loop_none; [reflexivity|].
  set (by_ := Z.quot _ 8).
  assert (Eb: by_ = (-268435455)%Z) by (vm_compute; reflexivity).
  unfold rd. rewrite Eb. reflexivity.
Qed.
