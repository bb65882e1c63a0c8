(** Layout of a channel group and histories of writes into its sample buffer. *)
From Verif Require Import Base ChannelModel ChannelSpec BitProofs ChannelProofs SetProofs.
Local Open Scope N_scope.

(* ------------------------------------------------------------------ *)
(** ** Round trip and frame of one setter call *)
Lemma placed_inv : forall c len idx, placed c len -> idx < elems c ->
  ch_invalid c = true -> inv_bit c idx < 8 * len.
Proof. intros c len idx P Hi He. pose proof (pl_inv _ _ P He). unfold inv_bit. lia. Qed.

Lemma same_chan_disjoint : forall c len i j, placed c len ->
  i < elems c -> j < elems c -> i <> j -> elem_disjoint c i c j.
Proof.
  intros c len i j P Hi Hj Hn.
  destruct (num_size_bytes c (pl_size _ _ P)) as [_ Hs].
  unfold elem_disjoint, elem_off, elem_size, inv_bit. repeat split; try lia.
Qed.
Section F.
Variable half_to_double float_to_double double_to_float : N -> N.
Local Notation value_fits := (ChannelSpec.value_fits double_to_float).
Local Notation as_stored := (ChannelSpec.as_stored float_to_double double_to_float).
Notation getc := (get_channel half_to_double float_to_double).
Notation setc := (set_channel double_to_float).

Lemma fits_stored : forall c v, value_fits c v -> exists raw, stored double_to_float c v = Some raw.
Proof.
  intros c v H. unfold value_fits, stored in *.
  destruct (ch_dtype c), v; try contradiction; eauto.
Qed.

Lemma decode_stored : forall c v raw, num_size c -> value_fits c v ->
  stored double_to_float c v = Some raw ->
  decode_value float_to_double c (enc (is_le c) (elem_size c) raw) = as_stored c v.
Proof.
  intros c v raw Hn Hf Hs. unfold decode_value. rewrite dec_enc.
  destruct (num_size_bytes c Hn) as [Hb _].
  assert (Hb2: 8 * N.of_nat (elem_size c) = ch_bits c) by (unfold elem_size; lia).
  rewrite Hb2. unfold value_fits, stored, as_stored, num_size in *. clear Hb Hb2.
  destruct (ch_dtype c) eqn:Ed, v; try contradiction; try discriminate;
    inversion Hs; subst raw; clear Hs; cbv zeta.
  - rewrite N.mod_small by auto. reflexivity.
  - rewrite N.mod_small by auto. reflexivity.
  - rewrite twos_of_signed; auto. lia.
  - rewrite twos_of_signed; auto. lia.
  - destruct Hn as [Hn|Hn]; rewrite Hn in *; cbn [N.eqb Pos.eqb] in *;
      rewrite N.mod_small by auto; reflexivity.
  - destruct Hn as [Hn|Hn]; rewrite Hn in *; cbn [N.eqb Pos.eqb] in *;
      rewrite N.mod_small by auto; reflexivity.
Qed.

Lemma set_get : forall c buf v valid idx,
  bytes_ok buf -> placed c (N.of_nat (length buf)) -> idx < elems c -> value_fits c v ->
  exists buf', setc c buf v valid idx = Ok buf' /\
    length buf' = length buf /\ bytes_ok buf' /\
    getc c buf' idx = Ok (as_stored c v, if ch_invalid c then valid else true).
Proof.
  intros c buf v valid idx Hok P Hi Hf.
  destruct (fits_stored c v Hf) as [raw Hs].
  rewrite (set_channel_eq half_to_double float_to_double double_to_float c buf v raw valid idx P Hi Hs).
  destruct (placed_elem _ _ _ P Hi) as [H1 H2]. rewrite Nat2N.id in H2.
  set (buf1 := set_valid c buf valid idx).
  assert (Hl1: length buf1 = length buf) by apply set_valid_length.
  set (e := enc (is_le c) (elem_size c) raw).
  assert (He: length e = elem_size c) by apply enc_length.
  set (buf2 := splice (elem_off c idx) e buf1).
  assert (Hl2: length buf2 = length buf).
  { unfold buf2. rewrite splice_length; lia. }
  assert (Hok2: bytes_ok buf2).
  { apply bytes_ok_splice; [apply enc_ok | apply set_valid_ok; auto]. }
  exists buf2. repeat split; auto.
  rewrite get_channel_eq; auto; [|rewrite Hl2; auto].
  unfold buf2 at 1. rewrite <- He, slice_splice_same by lia.
  unfold e. rewrite (decode_stored c v raw (pl_size _ _ P) Hf Hs). repeat f_equal.
  destruct (ch_invalid c) eqn:Ei; [|unfold get_valid; rewrite Ei; reflexivity].
  pose proof (placed_inv _ _ _ P Hi Ei) as Hiv.
  rewrite get_valid_eq; auto; try (rewrite Hl2; auto).
  2: apply (pl_len _ _ P).
  assert (Hge: ch_cg_bytes c <= inv_bit c idx / 8) by (unfold inv_bit; clear; lia).
  unfold buf2. rewrite nth_splice_out by lia.
  fold (buf_bit buf1 (inv_bit c idx)). unfold buf1.
  rewrite set_valid_bits; auto; [|apply (pl_len _ _ P)].
  rewrite N.eqb_refl. apply negb_involutive.
Qed.

Lemma set_frame : forall c1 i1 c2 i2 buf v valid buf',
  bytes_ok buf -> placed c1 (N.of_nat (length buf)) -> placed c2 (N.of_nat (length buf)) ->
  i1 < elems c1 -> i2 < elems c2 -> elem_disjoint c1 i1 c2 i2 -> value_fits c1 v ->
  setc c1 buf v valid i1 = Ok buf' ->
  getc c2 buf' i2 = getc c2 buf i2.
Proof.
  intros c1 i1 c2 i2 buf v valid buf' Hok P1 P2 Hi1 Hi2 (Hd & Hv & Hcg) Hf Hset.
  destruct (set_get c1 buf v valid i1 Hok P1 Hi1 Hf) as (b & Hb & Hl & Hok' & _).
  rewrite Hset in Hb. inversion Hb; subst b; clear Hb.
  rewrite !get_channel_eq; auto; [|rewrite Hl; auto].
  destruct (fits_stored c1 v Hf) as [raw Hs].
  rewrite (set_channel_eq half_to_double float_to_double double_to_float c1 buf v raw valid i1 P1 Hi1 Hs) in Hset.
  inversion Hset as [Hb]. clear Hset.
  destruct (placed_elem _ _ _ P1 Hi1) as [A1 A2]. rewrite Nat2N.id in A2.
  destruct (placed_elem _ _ _ P2 Hi2) as [B1 B2]. rewrite Nat2N.id in B2.
  pose proof (set_valid_length c1 buf valid i1) as Hlv.
  pose proof (pl_len _ _ P1) as Hlen.
  f_equal. f_equal.
  - f_equal.
    rewrite slice_splice_out; rewrite ?enc_length; try lia.
    apply set_valid_data; auto; try lia.
    intros. apply placed_inv; auto.
  - destruct (ch_invalid c2) eqn:E2; [|unfold get_valid; rewrite E2; reflexivity].
    pose proof (placed_inv _ _ _ P2 Hi2 E2) as Hiv2.
    assert (Hge: ch_cg_bytes c2 <= inv_bit c2 i2 / 8) by (unfold inv_bit; clear; lia).
    rewrite !get_valid_eq; auto; try (rewrite splice_length, Hlv; rewrite ?enc_length; auto; lia).
    f_equal. rewrite nth_splice_out; rewrite ?enc_length; try lia.
    fold (buf_bit (set_valid c1 buf valid i1) (inv_bit c2 i2)). fold (buf_bit buf (inv_bit c2 i2)).
    destruct (ch_invalid c1) eqn:E1.
    + rewrite set_valid_bits; auto.
      * destruct (N.eqb_spec (inv_bit c2 i2) (inv_bit c1 i1)) as [E|E]; auto.
        exfalso. apply Hv; auto.
      * apply placed_inv; auto.
    + unfold set_valid. rewrite E1. reflexivity.
Qed.

End F.

(* ------------------------------------------------------------------ *)
(** ** Layout *)

Lemma sum_of_firstn : forall f l k c, nth_error l k = Some c ->
  sum_of f (firstn k l) + f c <= sum_of f l.
Proof.
  induction l as [|x l IH]; intros [|k] c H; try discriminate; cbn [nth_error firstn sum_of] in *.
  - inversion H; subst. lia.
  - specialize (IH k c H). lia.
Qed.

Lemma sum_of_firstn_lt : forall f l j k c, nth_error l j = Some c -> (j < k)%nat ->
  sum_of f (firstn j l) + f c <= sum_of f (firstn k l).
Proof.
  induction l as [|x l IH]; intros [|j] [|k] c H Hlt; try lia; try discriminate;
    cbn [nth_error firstn sum_of] in *.
  - inversion H; subst. lia.
  - specialize (IH j k c H). lia.
Qed.

Lemma prepare_channel_fields : forall c b i,
  data_bytes (prepare_channel c b i) = data_bytes (prepare_channel c 0 0) /\
  ch_array (prepare_channel c b i) = ch_array c /\
  ch_invalid (prepare_channel c b i) = ch_invalid (prepare_channel c 0 0) /\
  ch_bits (prepare_channel c b i) = ch_bits (prepare_channel c 0 0) /\
  ch_type (prepare_channel c b i) = ch_type (prepare_channel c 0 0) /\
  ch_dtype (prepare_channel c b i) = ch_dtype c /\
  ch_bit (prepare_channel c b i) = 0 /\
  ch_byte (prepare_channel c b i) = w32 b.
Proof.
  intros. unfold prepare_channel. destruct (prepare_bits c) as [[t inv] bits].
  repeat split; reflexivity.
Qed.

Lemma prepare_inval_pos : forall c b i, ch_invalid (prepare_channel c b i) = true ->
  ch_inval_pos (prepare_channel c b i) = w32 i.
Proof.
  intros c b i. unfold prepare_channel. destruct (prepare_bits c) as [[t inv] bits].
  cbn [ch_invalid ch_inval_pos]. intros ->. reflexivity.
Qed.

Lemma w32_small : forall x, x < 2 ^ 32 -> w32 x = x.
Proof. intros. unfold w32. apply N.mod_small; auto. Qed.

Lemma chan_space_eq : forall c b i, space_of c < 2 ^ 28 ->
  chan_space (prepare_channel c b i) = space_of c.
Proof.
  intros c b i H. unfold chan_space, space_of, elems in *. cbv zeta.
  destruct (prepare_channel_fields c b i) as (-> & -> & _).
  set (d := data_bytes (prepare_channel c 0 0)) in *. clearbody d.
  destruct pow_consts as (E32 & E64 & _ & E28). rewrite E28 in H.
  assert (Hd: d < 268435456) by nia.
  rewrite (w32_small d) by (rewrite E32; lia).
  destruct (N.ltb_spec 1 (ch_array c)).
  - rewrite N.max_r in H by lia. rewrite N.max_r by lia.
    unfold w64. rewrite E64, N.mod_small by lia. rewrite w32_small by (rewrite E32; lia). reflexivity.
  - rewrite N.max_l by lia. lia.
Qed.

Lemma chan_inval_eq : forall c b i,
  chan_inval_bits (prepare_channel c b i) = invals_of c.
Proof.
  intros. unfold chan_inval_bits, invals_of, elems.
  destruct (prepare_channel_fields c b i) as (_ & -> & -> & _).
  destruct (ch_invalid (prepare_channel c 0 0)); auto.
  destruct (N.ltb_spec 1 (ch_array c)); lia.
Qed.

Lemma prepare_loop_eq : forall l b i,
  b + sum_of space_of l < 2 ^ 28 -> i + sum_of invals_of l < 2 ^ 31 ->
  exists l1, prepare_loop l b i = (l1, b + sum_of space_of l, i + sum_of invals_of l) /\
    length l1 = length l /\
    (forall k c, nth_error l k = Some c ->
       nth_error l1 k = Some (prepare_channel c (b + sum_of space_of (firstn k l))
                                (i + sum_of invals_of (firstn k l)))).
Proof.
  induction l as [|c l IH]; intros b i Hb Hi; cbn [sum_of prepare_loop] in *.
  - exists []. rewrite !N.add_0_r. repeat split; auto. intros [|k] c H; discriminate.
  - cbv zeta. rewrite chan_space_eq by lia. rewrite chan_inval_eq.
    unfold w64.
    assert (E: 2 ^ 28 < 2 ^ 64) by reflexivity. assert (E': 2 ^ 31 < 2 ^ 64) by reflexivity.
    rewrite !N.mod_small by lia.
    destruct (IH (b + space_of c) (i + invals_of c)) as (l1 & H1 & H2 & H3); [lia|lia|].
    rewrite H1. eexists. split; [|split].
    + rewrite !N.add_assoc. reflexivity.
    + cbn [length]. congruence.
    + intros [|k] c' H; cbn [nth_error firstn sum_of] in *.
      * inversion H; subst. rewrite !N.add_0_r. reflexivity.
      * rewrite (H3 k c' H), !N.add_assoc. reflexivity.
Qed.

(** Channel [k] of the prepared group, in closed form. *)
Definition placed_chan (l : list chan) (k : nat) (c : chan) : chan :=
  let p := prepare_channel c (sum_of space_of (firstn k l)) (sum_of invals_of (firstn k l)) in
  mkChan (ch_type p) (ch_dtype p) (ch_byte p) (ch_bit p) (ch_bits p) (ch_array p)
         (ch_invalid p) (ch_inval_pos p) (sum_of space_of l) (ch_vlsd_id p).

Lemma prepare_group_eq : forall l, record_bytes l < 2 ^ 28 ->
  exists l', prepare_group l = (l', sum_of space_of l, (sum_of invals_of l + 7) / 8) /\
    length l' = length l /\
    forall k c, nth_error l k = Some c -> nth_error l' k = Some (placed_chan l k c).
Proof.
  intros l H. unfold record_bytes in H. destruct pow_consts as (E32 & E64 & E31 & E28).
  rewrite E28 in H.
  destruct (prepare_loop_eq l 0 0) as (l1 & H1 & H2 & H3); [rewrite E28; lia|rewrite E31; lia|].
  unfold prepare_group. rewrite H1. rewrite !N.add_0_l.
  eexists. split; [|split].
  - rewrite w32_small by (rewrite E32; lia).
    assert (E: w32 (if sum_of invals_of l =? 0 then 0
                   else if 0 <? sum_of invals_of l mod 8 then sum_of invals_of l / 8 + 1
                        else sum_of invals_of l / 8) = (sum_of invals_of l + 7) / 8).
    { set (x := sum_of invals_of l) in *. clearbody x.
      destruct (N.eqb_spec x 0); [subst; reflexivity|].
      destruct (N.ltb_spec 0 (x mod 8)); rewrite w32_small; rewrite ?E32; lia. }
    rewrite E. reflexivity.
  - rewrite map_length; auto.
  - intros k c Hk. rewrite nth_error_map, (H3 k c Hk). cbn [option_map].
    rewrite !N.add_0_l. reflexivity.
Qed.

Lemma prepared_size : forall c b i, numeric c ->
  num_size (prepare_channel c b i) /\ is_vlsd (ch_type (prepare_channel c b i)) = false.
Proof.
  intros c b i [Ht Hd]. unfold num_size, prepare_channel, prepare_bits.
  destruct Ht as [Ht|[Ht|[Ht|Ht]]]; rewrite Ht; destruct (ch_dtype c) eqn:Ed; try contradiction;
    cbn [ch_dtype ch_bits ch_type is_vlsd];
    (split; [|reflexivity]);
    repeat match goal with
           | |- context [ ?a =? ?b ] => destruct (N.eqb_spec a b); cbn [orb]
           end; auto; lia.
Qed.

Lemma placed_chan_fields : forall l k c, nth_error l k = Some c -> record_bytes l < 2 ^ 28 ->
  let p := placed_chan l k c in
  ch_byte p = sum_of space_of (firstn k l) /\
  data_bytes p * elems p = space_of c /\
  elems p = elems c /\
  ch_invalid p = ch_invalid (prepare_channel c 0 0) /\
  (ch_invalid p = true -> ch_inval_pos p = sum_of invals_of (firstn k l) /\ elems p = invals_of c) /\
  ch_cg_bytes p = sum_of space_of l.
Proof.
  intros l k c Hk H p. unfold record_bytes in H.
  destruct pow_consts as (E32 & E64 & E31 & E28). rewrite E28 in H.
  pose proof (sum_of_firstn space_of _ _ _ Hk) as S1.
  pose proof (sum_of_firstn invals_of _ _ _ Hk) as S2.
  unfold p, placed_chan. cbv zeta.
  destruct (prepare_channel_fields c (sum_of space_of (firstn k l)) (sum_of invals_of (firstn k l)))
    as (F1 & F2 & F3 & F4 & F5 & F6 & F7 & F8).
  repeat split; cbn [ch_byte ch_array ch_invalid ch_inval_pos ch_cg_bytes ch_bits].
  - rewrite F8. apply w32_small. rewrite E32; lia.
  - revert F2 F4. generalize (sum_of space_of (firstn k l)) (sum_of invals_of (firstn k l)).
    intros a b F2 F4. unfold elems, space_of, data_bytes. cbn [ch_array ch_bits].
    rewrite F4, F2. reflexivity.
  - unfold elems. cbn [ch_array]. rewrite F2. reflexivity.
  - exact F3.
  - rewrite prepare_inval_pos by auto. apply w32_small. rewrite E32; lia.
  - cbn [ch_invalid] in H0. assert (Ev: invals_of c = elems c) by (unfold invals_of; rewrite <- F3, H0; reflexivity).
    rewrite Ev. unfold elems. cbn [ch_array]. rewrite F2. reflexivity.
Qed.

Lemma placed_chan_placed : forall l k c, nth_error l k = Some c -> record_bytes l < 2 ^ 28 ->
  numeric c -> placed (placed_chan l k c) (record_bytes l).
Proof.
  intros l k c Hk H Hn.
  destruct (placed_chan_fields l k c Hk H) as (F1 & F2 & F3 & F4 & F5 & F6).
  pose proof (sum_of_firstn space_of _ _ _ Hk) as S1.
  pose proof (sum_of_firstn invals_of _ _ _ Hk) as S2.
  destruct (prepared_size c (sum_of space_of (firstn k l)) (sum_of invals_of (firstn k l)) Hn)
    as [N1 N2].
  constructor; auto.
  - apply (prepare_channel_fields c (sum_of space_of (firstn k l)) (sum_of invals_of (firstn k l))).
  - rewrite F1, F2, F6. auto.
  - rewrite F6. unfold record_bytes. lia.
  - intros Hi. destruct (F5 Hi) as [G1 G2]. rewrite F6, G1, G2. unfold record_bytes.
    set (x := sum_of invals_of l) in *. clearbody x. clear -S2. lia.
Qed.

Lemma placed_chan_disjoint : forall l j k cj ck i1 i2, record_bytes l < 2 ^ 28 ->
  nth_error l j = Some cj -> nth_error l k = Some ck -> j <> k ->
  i1 < elems cj -> i2 < elems ck ->
  elem_disjoint (placed_chan l j cj) i1 (placed_chan l k ck) i2.
Proof.
  assert (L: forall l j k cj ck i1 i2, record_bytes l < 2 ^ 28 ->
    nth_error l j = Some cj -> nth_error l k = Some ck -> (j < k)%nat ->
    i1 < elems cj -> i2 < elems ck ->
    elem_disjoint (placed_chan l j cj) i1 (placed_chan l k ck) i2).
  { intros l j k cj ck i1 i2 H Hj Hk Hlt H1 H2.
    destruct (placed_chan_fields l j cj Hj H) as (F1 & F2 & F3 & F4 & F5 & F6).
    destruct (placed_chan_fields l k ck Hk H) as (G1 & G2 & G3 & G4 & G5 & G6).
    pose proof (sum_of_firstn_lt space_of l j k cj Hj Hlt) as S1.
    pose proof (sum_of_firstn_lt invals_of l j k cj Hj Hlt) as S2.
    unfold elem_disjoint. split; [|split].
    - left. unfold elem_off, elem_size. rewrite F1, G1.
      set (p := placed_chan l j cj) in *. set (q := placed_chan l k ck) in *.
      assert (data_bytes p * (i1 + 1) <= space_of cj)
        by (rewrite <- F2, F3; apply N.mul_le_mono_l; lia).
      lia.
    - intros Hi1 Hi2 E. unfold inv_bit in E.
      destruct (F5 Hi1) as [A1 A2]. destruct (G5 Hi2) as [B1 B2].
      rewrite F6, G6, A1, B1 in E. rewrite F3 in A2. lia.
    - congruence. }
  intros l j k cj ck i1 i2 H Hj Hk Hn H1 H2.
  destruct (Nat.lt_ge_cases j k).
  - apply L; auto.
  - destruct (L l k j ck cj i2 i1) as (A & B & C); auto; [lia|].
    split; [tauto|split]; [|auto]. intros X Y Z. apply (B Y X). auto.
Qed.

(* ------------------------------------------------------------------ *)
(** ** Histories *)
Section H.
Variable half_to_double float_to_double double_to_float : N -> N.
Local Notation run_ops := (ChannelSpec.run_ops double_to_float).
Local Notation op_ok := (ChannelSpec.op_ok double_to_float).
Local Notation zero_value := (ChannelSpec.zero_value float_to_double).
Notation getc := (get_channel half_to_double float_to_double).
Notation setc := (set_channel double_to_float).

Lemma run_ops_inv : forall l l' nd ni, record_bytes l < 2 ^ 28 -> prepare_group l = (l', nd, ni) ->
  forall ops buf, Forall (op_ok l l') ops ->
  bytes_ok buf -> N.of_nat (length buf) = record_bytes l ->
  exists buf', run_ops l' ops buf = Ok buf' /\ bytes_ok buf' /\
    N.of_nat (length buf') = record_bytes l /\
    forall k c0 c idx, nth_error l k = Some c0 -> nth_error l' k = Some c ->
      numeric c0 -> idx < elems c ->
      getc c buf' idx =
      match last_write ops k idx with
      | Some (v, valid) =>
          Ok (as_stored float_to_double double_to_float c v, if ch_invalid c then valid else true)
      | None => getc c buf idx
      end.
Proof.
  intros l l' nd ni Hsz Hp.
  destruct (prepare_group_eq l Hsz) as (l2 & Hp2 & Hlen & Hnth).
  rewrite Hp in Hp2. inversion Hp2; subst l2; clear Hp2.
  induction ops as [|o ops IH]; intros buf Hops Hok Hl; cbn [run_ops last_write].
  - exists buf. repeat split; auto.
  - inversion Hops as [|? ? Ho Hr]; subst. destruct Ho as (c0 & c & Hc0 & Hc & Hnum & Hi & Hf).
    rewrite Hc. pose proof (Hnth _ _ Hc0) as Hc'. rewrite Hc in Hc'. inversion Hc'; subst c; clear Hc'.
    set (p := placed_chan l (op_chan o) c0) in *.
    assert (P: placed p (N.of_nat (length buf)))
      by (rewrite Hl; apply placed_chan_placed; auto).
    destruct (set_get half_to_double float_to_double double_to_float p buf (op_value o) (op_valid o)
                (op_idx o) Hok P Hi Hf) as (b1 & Hset & Hl1 & Hok1 & Hget).
    rewrite Hset. cbn [bind].
    destruct (IH b1 Hr Hok1) as (b2 & Hrun & Hok2 & Hl2 & Hall); [lia|].
    exists b2. repeat split; auto.
    intros k ck0 ck idx Hk0 Hk Hnk Hik.
    rewrite (Hall k ck0 ck idx Hk0 Hk Hnk Hik).
    destruct (last_write ops k idx) as [[v va]|]; auto.
    pose proof (Hnth _ _ Hk0) as Hk'. rewrite Hk in Hk'. inversion Hk'; subst ck; clear Hk'.
    destruct (Nat.eqb_spec (op_chan o) k) as [Ek|Ek]; cbn [andb].
    + subst k. rewrite Hc0 in Hk0. inversion Hk0; subst ck0. fold p in Hik. fold p.
      destruct (N.eqb_spec (op_idx o) idx) as [Ei|Ei].
      * subst idx. exact Hget.
      * eapply (set_frame half_to_double float_to_double double_to_float p (op_idx o) p idx); eauto.
        eapply same_chan_disjoint; eauto.
    + set (q := placed_chan l k ck0) in *.
      assert (Q: placed q (N.of_nat (length buf)))
        by (rewrite Hl; apply placed_chan_placed; auto).
      eapply (set_frame half_to_double float_to_double double_to_float p (op_idx o) q idx); eauto.
      apply placed_chan_disjoint; auto.
      * destruct (placed_chan_fields l (op_chan o) c0 Hc0 Hsz) as (_ & _ & <- & _). exact Hi.
      * destruct (placed_chan_fields l k ck0 Hk0 Hsz) as (_ & _ & <- & _). exact Hik.
Qed.

Lemma slice_repeat0 : forall n o m, (o + m <= n)%nat -> slice o m (repeat 0 n) = repeat 0 m.
Proof.
  intros. apply list_eq_nth.
  - rewrite slice_length; rewrite ?repeat_length; auto.
  - intros i Hi. rewrite slice_length in Hi by (rewrite repeat_length; auto).
    rewrite nth_slice by auto. rewrite !nth_repeat. reflexivity.
Qed.

Lemma dec_zero : forall le n, dec le (repeat 0 n) = 0.
Proof.
  assert (E: forall n, le_num (repeat 0 n) = 0).
  { induction n as [|n IH]; cbn [repeat le_num]; [reflexivity|]. rewrite IH. reflexivity. }
  assert (R: forall n, rev (repeat 0 n) = repeat 0 n).
  { intros n. apply list_eq_nth; rewrite ?rev_length; auto.
    intros i Hi. rewrite rev_nth, !nth_repeat; auto. }
  intros [] n; unfold dec, be_num; rewrite ?R; apply E.
Qed.

Lemma fresh_get : forall c n idx, placed c (N.of_nat n) -> idx < elems c ->
  getc c (repeat 0 n) idx = Ok (zero_value c, true).
Proof.
  intros c n idx P Hi.
  destruct (placed_elem _ _ _ P Hi) as [H1 H2]. rewrite Nat2N.id in H2.
  rewrite get_channel_eq; auto.
  - rewrite slice_repeat0 by lia.
    assert (E: decode_value float_to_double c (repeat 0 (elem_size c)) = zero_value c).
    { unfold decode_value, zero_value. rewrite dec_zero.
      pose proof (pl_size _ _ P) as Hs. unfold num_size in Hs.
      destruct (ch_dtype c); auto; try contradiction;
        destruct Hs as [->|[->|[->| ->]]]; reflexivity. }
    rewrite E. repeat f_equal.
    unfold get_valid. destruct (ch_invalid c); auto. cbv zeta.
    match goal with |- (if ?b then _ else _) = true => destruct b; auto end.
    rewrite nth_repeat. rewrite N.bits_0. reflexivity.
  - apply Forall_forall. intros x Hx. apply repeat_spec in Hx. subst. unfold byte_ok. lia.
  - rewrite repeat_length. auto.
Qed.

Lemma history : forall l l' nd ni ops,
  record_bytes l < 2 ^ 28 -> prepare_group l = (l', nd, ni) -> Forall (op_ok l l') ops ->
  exists buf, run_ops l' ops (fresh_buffer nd ni) = Ok buf /\
    length buf = length (fresh_buffer nd ni) /\
    forall k c0 c idx, nth_error l k = Some c0 -> nth_error l' k = Some c ->
      numeric c0 -> idx < elems c ->
      getc c buf idx =
      Ok (match last_write ops k idx with
          | Some (v, valid) =>
              (as_stored float_to_double double_to_float c v, if ch_invalid c then valid else true)
          | None => (zero_value c, true)
          end).
Proof.
  intros l l' nd ni ops Hsz Hp Hops.
  destruct (prepare_group_eq l Hsz) as (l2 & Hp2 & Hlen & Hnth).
  pose proof Hp2 as Hp3. rewrite Hp in Hp3. inversion Hp3; subst l2 nd ni; clear Hp3.
  assert (E: fresh_buffer (sum_of space_of l) ((sum_of invals_of l + 7) / 8)
             = repeat 0 (N.to_nat (record_bytes l))).
  { unfold fresh_buffer. rewrite w32_small; [reflexivity|].
    fold (record_bytes l). assert (2 ^ 28 < 2 ^ 32) by reflexivity. lia. }
  rewrite E.
  destruct (run_ops_inv l l' _ _ Hsz Hp ops (repeat 0 (N.to_nat (record_bytes l))) Hops)
    as (buf & Hr & Hok & Hl & Hall).
  - apply Forall_forall. intros x Hx. apply repeat_spec in Hx. subst. unfold byte_ok. lia.
  - rewrite repeat_length, N2Nat.id. reflexivity.
  - exists buf. split; [auto|split].
    + rewrite repeat_length. lia.
    + intros k c0 c idx Hk0 Hk Hn Hi. rewrite (Hall k c0 c idx Hk0 Hk Hn Hi).
      destruct (last_write ops k idx) as [[v va]|]; auto.
      pose proof (Hnth _ _ Hk0) as Hk'. rewrite Hk in Hk'. inversion Hk'; subst c; clear Hk'.
      apply fresh_get; auto. rewrite N2Nat.id. apply placed_chan_placed; auto.
Qed.
End H.
