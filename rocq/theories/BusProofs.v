(** Lemmas on record assembly and on reading the channels of bus records. *)
From Verif Require Import Base ChannelModel ChannelSpec BitProofs ChannelProofs QueueModel BusModel BusSpec.
Local Open Scope N_scope.

Lemma lor_shift : forall a b k, a < 2 ^ k -> N.lor a (N.shiftl b k) = a + 2 ^ k * b.
Proof.
  intros a b k H. rewrite <- N.lxor_lor, <- N.add_nocarry_lxor.
  - rewrite N.shiftl_mul_pow2. lia.
  - apply N.bits_inj_0; intros i. rewrite N.land_spec.
    destruct (N.ltb_spec i k).
    + rewrite N.shiftl_spec_low by auto. apply andb_false_r.
    + rewrite (testbit_small a i k) by auto. reflexivity.
  - apply N.bits_inj_0; intros i. rewrite N.land_spec.
    destruct (N.ltb_spec i k).
    + rewrite N.shiftl_spec_low by auto. apply andb_false_r.
    + rewrite (testbit_small a i k) by auto. reflexivity.
Qed.

Lemma land_mask : forall a k, N.land a (2 ^ k - 1) = a mod 2 ^ k.
Proof. intros. rewrite <- N.land_ones. f_equal. rewrite N.ones_equiv. lia. Qed.

Lemma land_lt : forall a k, N.land a (2 ^ k - 1) < 2 ^ k.
Proof. intros. rewrite land_mask. apply N.mod_lt. pose proof (pow2_pos k). lia. Qed.

(** The place of a field in the bytes that hold it. *)
Lemma field_le_slice : forall rec o m bit n, bytes_ok rec ->
  bit + n <= 8 * N.of_nat m -> (o + m <= length rec)%nat ->
  field_le rec (8 * N.of_nat o + bit) n = (le_num (slice o m rec) / 2 ^ bit) mod 2 ^ n.
Proof.
  intros rec o m bit n Hok Hb Hl. unfold field_le.
  apply N.bits_inj; intros i.
  destruct (N.ltb_spec i n) as [Hi|Hi].
  - rewrite !N.mod_pow2_bits_low, !N.div_pow2_bits by auto.
    rewrite !le_num_testbit by (auto using bytes_ok_slice).
    replace (i + (8 * N.of_nat o + bit)) with ((i + bit) + N.of_nat o * 8) by lia.
    rewrite N.div_add, N.mod_add by lia.
    assert (Hk: (i + bit) / 8 < N.of_nat m) by (apply N.div_lt_upper_bound; lia).
    rewrite nth_slice by lia. f_equal. f_equal. lia.
  - rewrite !N.mod_pow2_bits_high by auto. reflexivity.
Qed.

Lemma read_bits : forall f2d data rec byte bit n o m,
  bytes_ok rec -> N.of_nat (length rec) < 2 ^ 28 -> 1 <= n <= 64 ->
  byte = N.of_nat o -> bit + n <= 8 * N.of_nat m -> (o + m <= length rec)%nat ->
  read_content f2d data (bits_channel byte bit n) rec
  = Ok (num ((le_num (slice o m rec) / 2 ^ bit) mod 2 ^ n)).
Proof.
  intros f2d data rec byte bit n o m Hok Hl Hn -> Hb Hm.
  unfold read_content, get_channel. cbn [ch_dtype bits_channel].
  rewrite get_unsigned_field with (le := true); auto.
  - cbn [bind fst snd]. unfold get_valid. cbn [ch_invalid bits_channel].
    unfold num, field, start_of, field_start. cbn [ch_byte ch_bit ch_bits bits_channel].
    rewrite N.mul_0_l, N.add_0_r, (field_le_slice rec o m) by auto. reflexivity.
  - unfold field_inside, start_of, field_start. cbn [ch_byte ch_bit ch_bits bits_channel]. lia.
Qed.

Lemma read_signed : forall f2d data rec byte bit n o m,
  bytes_ok rec -> N.of_nat (length rec) < 2 ^ 28 -> 1 <= n <= 64 ->
  byte = N.of_nat o -> bit + n <= 8 * N.of_nat m -> (o + m <= length rec)%nat ->
  read_content f2d data (signed_channel byte bit n) rec
  = Ok (Num (VS (twos n ((le_num (slice o m rec) / 2 ^ bit) mod 2 ^ n)))).
Proof.
  intros f2d data rec byte bit n o m Hok Hl Hn -> Hb Hm.
  unfold read_content, get_channel. cbn [ch_dtype signed_channel].
  rewrite get_signed_field; auto.
  - cbn [bind fst snd]. unfold get_valid. cbn [ch_invalid ch_dtype signed_channel].
    unfold field, start_of, field_start. cbn [ch_byte ch_bit ch_bits signed_channel].
    rewrite N.mul_0_l, N.add_0_r, (field_le_slice rec o m) by auto. reflexivity.
  - unfold field_inside, start_of, field_start. cbn [ch_byte ch_bit ch_bits signed_channel]. lia.
Qed.

(** A float channel reads the raw bits like an unsigned channel. *)
Lemma get_float_bits : forall h2d f2d byte rec,
  get_float h2d f2d (float_channel byte 0 32) rec 0
  = bind (get_unsigned (bits_channel byte 0 32) rec 0) (fun u => Ok (f2d u)).
Proof.
  intros. unfold get_float, get_unsigned, range_ok, bit_offset.
  cbn [ch_dtype ch_byte ch_bit ch_bits ch_type float_channel bits_channel is_vlsd].
  destruct (_ <=? _); reflexivity.
Qed.

Lemma read_float : forall f2d data rec byte o,
  bytes_ok rec -> N.of_nat (length rec) < 2 ^ 28 ->
  byte = N.of_nat o -> (o + 4 <= length rec)%nat ->
  read_content f2d data (float_channel byte 0 32) rec
  = Ok (Num (VF (f2d (le_num (slice o 4 rec))))).
Proof.
  intros f2d data rec byte o Hok Hl -> Hm.
  assert (H := read_bits f2d data rec (N.of_nat o) 0 32 o 4 Hok Hl).
  unfold read_content, get_channel in *. cbn [ch_dtype float_channel bits_channel] in *.
  rewrite get_float_bits.
  destruct (get_unsigned (bits_channel (N.of_nat o) 0 32) rec 0) as [u| |];
    cbn [bind fst snd] in *; unfold get_valid in *;
    cbn [ch_invalid float_channel bits_channel] in *;
    specialize (H ltac:(lia) eq_refl ltac:(lia) Hm); [|discriminate H|discriminate H].
  unfold num in H. assert (Hu: u = (le_num (slice o 4 rec) / 2 ^ 0) mod 2 ^ 32) by congruence.
  rewrite Hu, N.pow_0_r, N.div_1_r, N.mod_small; [reflexivity|].
  apply (le_num_lt_pow _ 4); [apply bytes_ok_slice; auto | apply slice_length; auto].
Qed.

(** Byte arrays. *)
Lemma read_bytes : forall f2d data rec c byte n o m,
  c = bytes_channel byte n \/ c = mlsd_channel byte n ->
  N.of_nat (length rec) < 2 ^ 28 ->
  byte = N.of_nat o -> n = N.of_nat m -> (o + m <= length rec)%nat ->
  read_content f2d data c rec = Ok (Bytes (slice o m rec)).
Proof.
  intros f2d data rec c byte n o m Hc Hl -> -> Hm.
  assert (E: w64 (N.of_nat o + N.of_nat m) = N.of_nat o + N.of_nat m).
  { unfold w64. apply N.mod_small. change (2 ^ 64) with 18446744073709551616.
    change (2 ^ 28) with 268435456 in Hl. lia. }
  assert (E8: 8 * N.of_nat m / 8 = N.of_nat m).
  { rewrite N.mul_comm. apply N.div_mul. lia. }
  destruct Hc as [-> | ->]; unfold read_content, get_bytes;
    cbn [ch_dtype ch_type ch_bits ch_byte bytes_channel mlsd_channel is_vlsd bind];
    rewrite E8, E; cbn [bind]; unfold rd_block;
    rewrite (proj2 (N.leb_le _ _)) by lia; cbn [lift bind];
    rewrite !Nat2N.id; reflexivity.
Qed.

(** A VLSD channel whose index bytes hold [idx]. *)
Lemma sd_lookup_holds : forall data idx p, sd_holds data idx p -> sd_lookup data idx = Ok p.
Proof.
  intros data idx p (b & a & -> & -> & Hl & Hp).
  rewrite !app_length, le_bytes_length in Hl.
  assert (W: forall x, x < 2 ^ 63 -> w64 x = x).
  { intros x Hx. unfold w64. apply N.mod_small. change (2 ^ 63) with 9223372036854775808 in Hx.
    change (2 ^ 64) with 18446744073709551616. lia. }
  unfold sd_lookup. rewrite W by lia.
  rewrite !app_length, le_bytes_length.
  destruct (N.ltb_spec (N.of_nat (length b + (4 + (length p + length a)))) (N.of_nat (length b) + 4));
    [lia|].
  unfold rd_block at 1. rewrite !app_length, le_bytes_length.
  rewrite (proj2 (N.leb_le _ _)) by lia.
  rewrite Nat2N.id. change (N.to_nat 4) with 4%nat.
  rewrite slice_app_r, Nat.sub_diag by lia.
  rewrite slice_app_l by (rewrite le_bytes_length; lia).
  replace (slice 0 4 (le_bytes 4 (N.of_nat (length p)))) with (le_bytes 4 (N.of_nat (length p)))
    by (symmetry; rewrite <- (le_bytes_length 4 (N.of_nat (length p))) at 1; apply slice_full).
  rewrite le_num_bytes.
  assert (Em: N.of_nat (length p) mod 256 ^ N.of_nat 4 = N.of_nat (length p)).
  { apply N.mod_small. exact Hp. }
  rewrite Em. rewrite W by lia.
  rewrite (proj2 (N.leb_le _ _)) by lia.
  unfold rd_block. rewrite !app_length, le_bytes_length.
  rewrite (proj2 (N.leb_le _ _)) by lia.
  cbn [lift].
  replace (N.to_nat (N.of_nat (length b) + 4)) with (length b + 4)%nat by lia.
  rewrite Nat2N.id. rewrite slice_app_r by lia.
  replace (length b + 4 - length b)%nat with 4%nat by lia.
  rewrite slice_app_r by (rewrite le_bytes_length; lia).
  rewrite le_bytes_length, Nat.sub_diag, slice_app_l by lia.
  rewrite slice_full. reflexivity.
Qed.

Lemma read_vlsd : forall f2d data rec byte o idx p,
  bytes_ok rec -> N.of_nat (length rec) < 2 ^ 28 ->
  byte = N.of_nat o -> (o + 8 <= length rec)%nat ->
  slice o 8 rec = le_bytes 8 (w64 idx) -> sd_holds data idx p ->
  read_content f2d data (vlsd_channel byte) rec = Ok (Bytes p).
Proof.
  intros f2d data rec byte o idx p Hok Hl -> Hm Hs Hd.
  unfold read_content, get_bytes. cbn [ch_dtype ch_type vlsd_channel is_vlsd ch_vlsd_id].
  change (0 <? 0) with false. cbv iota.
  rewrite get_unsigned_field with (le := true); auto.
  - cbn [bind]. unfold field, start_of, field_start. cbn [ch_byte ch_bit ch_bits vlsd_channel].
    rewrite N.mul_0_l, N.add_0_r, (field_le_slice rec o 8) by (auto; lia).
    rewrite Hs, le_num_bytes, N.pow_0_r, N.div_1_r.
    assert (Hi: idx < 2 ^ 63).
    { destruct Hd as (b & a & -> & -> & Hl' & _). rewrite app_length in Hl'. lia. }
    assert (E: w64 idx = idx).
    { unfold w64. apply N.mod_small. change (2 ^ 63) with 9223372036854775808 in Hi.
      change (2 ^ 64) with 18446744073709551616. lia. }
    rewrite E. change (256 ^ N.of_nat 8) with (2 ^ 64). fold (w64 idx). rewrite E.
    fold (w64 idx). rewrite E.
    rewrite (sd_lookup_holds _ _ _ Hd). reflexivity.
  - cbn [ch_bits vlsd_channel]. lia.
  - unfold field_inside, start_of, field_start. cbn [ch_byte ch_bit ch_bits vlsd_channel]. lia.
Qed.

(* ------------------------------------------------------------------ *)
(** ** Records *)

Lemma resize_length : forall n rec, length (resize n rec) = n.
Proof. intros. unfold resize. rewrite app_length, firstn_length, repeat_length. lia. Qed.

Lemma resize_ok : forall n rec, bytes_ok rec -> bytes_ok (resize n rec).
Proof.
  intros. unfold resize. apply bytes_ok_app; [apply bytes_ok_firstn; auto|].
  apply Forall_forall. intros x Hx. apply repeat_spec in Hx. subst. reflexivity.
Qed.

Lemma resize_first : forall n k rec, (k <= n)%nat -> (k <= length rec)%nat ->
  firstn k (resize n rec) = firstn k rec.
Proof.
  intros. unfold resize. rewrite firstn_app, firstn_firstn, firstn_length, Nat.min_l by lia.
  replace (k - Nat.min n (length rec))%nat with O by lia. cbn [firstn]. apply app_nil_r.
Qed.

Lemma padded_length : forall v n l, length (padded v n l) = n.
Proof. intros. unfold padded. rewrite firstn_length, app_length, repeat_length. lia. Qed.

Lemma padded_ok : forall v n l, v < 256 -> bytes_ok l -> bytes_ok (padded v n l).
Proof.
  intros. unfold padded. apply bytes_ok_firstn, bytes_ok_app; auto.
  apply Forall_forall. intros x Hx. apply repeat_spec in Hx. subst. auto.
Qed.

Lemma copy_at_app : forall a b i rec,
  bind (copy_at i a rec) (copy_at (i + length a) b) = copy_at i (a ++ b) rec.
Proof.
  induction a as [|x a IH]; intros b i rec.
  - cbn [copy_at length app bind]. rewrite Nat.add_0_r. reflexivity.
  - cbn [copy_at length app]. destruct (poke i x rec) as [r| |]; cbn [bind]; auto.
    replace (i + S (length a))%nat with (S i + length a)%nat by lia. apply IH.
Qed.

Lemma poke_splice : forall rec i v, (i < length rec)%nat -> poke i v rec = Ok (splice i [v] rec).
Proof.
  induction rec as [|x rec IH]; intros i v H; cbn [length] in H; [lia|].
  destruct i as [|i]; [reflexivity|].
  cbn [poke]. rewrite IH by lia. cbn [bind]. reflexivity.
Qed.

Lemma splice_app : forall a b i rec, (i + length (a ++ b) <= length rec)%nat ->
  splice (i + length a) b (splice i a rec) = splice i (a ++ b) rec.
Proof.
  intros a b i rec H. rewrite app_length in H. unfold splice.
  rewrite firstn_app, firstn_length, Nat.min_l by lia.
  rewrite firstn_all2 by (rewrite firstn_length; lia).
  replace (i + length a - i)%nat with (length a) by lia.
  rewrite firstn_app, firstn_all, Nat.sub_diag. cbn [firstn]. rewrite app_nil_r, <- !app_assoc.
  f_equal. f_equal. f_equal.
  rewrite app_assoc, skipn_app, app_length, firstn_length, Nat.min_l by lia.
  rewrite skipn_all2 by (rewrite app_length, firstn_length; lia).
  rewrite skipn_plus, app_length. cbn [app]. f_equal. lia.
Qed.

Lemma copy_at_splice : forall src rec i, (i + length src <= length rec)%nat ->
  copy_at i src rec = Ok (splice i src rec).
Proof.
  induction src as [|b src IH]; intros rec i H.
  - cbn [copy_at]. unfold splice. cbn [length app]. rewrite Nat.add_0_r, firstn_skipn. reflexivity.
  - cbn [length] in H. cbn [copy_at]. rewrite poke_splice by lia. cbn [bind].
    rewrite IH by (rewrite splice_length; cbn [length]; lia).
    f_equal. rewrite <- (Nat.add_1_r i). change 1%nat with (length [b]).
    rewrite splice_app by (cbn [app length]; lia). reflexivity.
Qed.

(* ------------------------------------------------------------------ *)
(** ** Reading whole numbers and parts of one byte *)

Lemma read_num : forall f2d data rec byte n o m v,
  bytes_ok rec -> N.of_nat (length rec) < 2 ^ 28 ->
  byte = N.of_nat o -> n = 8 * N.of_nat m -> 1 <= n <= 64 -> (o + m <= length rec)%nat ->
  slice o m rec = le_bytes m v -> v < 2 ^ n ->
  read_content f2d data (bits_channel byte 0 n) rec = Ok (num v).
Proof.
  intros f2d data rec byte n o m v Hok Hl Hb Hn Hr Hm Hs Hv.
  rewrite (read_bits f2d data rec byte 0 n o m) by (auto; lia).
  rewrite Hs, le_num_bytes, N.pow_0_r, N.div_1_r, pow256, <- Hn.
  rewrite !(N.mod_small v) by auto. reflexivity.
Qed.

Lemma read_float_num : forall f2d data rec byte o v,
  bytes_ok rec -> N.of_nat (length rec) < 2 ^ 28 ->
  byte = N.of_nat o -> (o + 4 <= length rec)%nat ->
  slice o 4 rec = le_bytes 4 v -> v < 2 ^ 32 ->
  read_content f2d data (float_channel byte 0 32) rec = Ok (Num (VF (f2d v))).
Proof.
  intros f2d data rec byte o v Hok Hl Hb Hm Hs Hv.
  rewrite (read_float f2d data rec byte o) by auto.
  rewrite Hs, le_num_bytes. change (256 ^ N.of_nat 4) with (2 ^ 32).
  rewrite N.mod_small by auto. reflexivity.
Qed.

Lemma read_part : forall f2d data rec byte bit n o x v,
  bytes_ok rec -> N.of_nat (length rec) < 2 ^ 28 ->
  byte = N.of_nat o -> bit + n <= 8 -> 1 <= n -> (o + 1 <= length rec)%nat ->
  slice o 1 rec = [x] -> (x / 2 ^ bit) mod 2 ^ n = v ->
  read_content f2d data (bits_channel byte bit n) rec = Ok (num v).
Proof.
  intros f2d data rec byte bit n o x v Hok Hl Hb Hbn Hn Hm Hs Hv.
  rewrite (read_bits f2d data rec byte bit n o 1) by (auto; lia).
  rewrite Hs. cbn [le_num]. rewrite N.mul_0_r, N.add_0_r, Hv. reflexivity.
Qed.

Lemma read_signed_part : forall f2d data rec byte bit n o x v,
  bytes_ok rec -> N.of_nat (length rec) < 2 ^ 28 ->
  byte = N.of_nat o -> bit + n <= 8 -> 1 <= n -> (o + 1 <= length rec)%nat ->
  slice o 1 rec = [x] -> twos n ((x / 2 ^ bit) mod 2 ^ n) = v ->
  read_content f2d data (signed_channel byte bit n) rec = Ok (Num (VS v)).
Proof.
  intros f2d data rec byte bit n o x v Hok Hl Hb Hbn Hn Hm Hs Hv.
  rewrite (read_signed f2d data rec byte bit n o 1) by (auto; lia).
  rewrite Hs. cbn [le_num]. rewrite N.mul_0_r, N.add_0_r, Hv. reflexivity.
Qed.

(** The unsigned number in one byte field, with its value as a bool. *)
Lemma flag_num : forall b, flag b = num (b2n b).
Proof. intros []; reflexivity. Qed.

(* ------------------------------------------------------------------ *)
(** ** Tactics for records with a known layout *)

(** A list of known length as its elements. *)
Ltac explode l H :=
  repeat (destruct l as [|? l]; [discriminate H|]; cbn [length] in H; apply eq_add_S in H);
  destruct l; [clear H | discriminate H].

Lemma w8_ok : forall x, byte_ok (w8 x).
Proof. intros. unfold byte_ok, w8. apply N.mod_lt. discriminate. Qed.
Lemma mod_ok : forall x, byte_ok (x mod 256).
Proof. intros. unfold byte_ok. apply N.mod_lt. discriminate. Qed.
Lemma b2n_lt : forall b, b2n b < 2.
Proof. intros []; reflexivity. Qed.

(** Two fields packed in one byte. *)
Lemma pack : forall k a b, k <= 8 -> a < 2 ^ k -> b < 2 ^ (8 - k) ->
  w8 (N.lor a (N.shiftl b k)) = a + 2 ^ k * b.
Proof.
  intros k a b Hk Ha Hb. rewrite lor_shift by assumption. apply N.mod_small.
  assert (E: 2 ^ 8 = 2 ^ k * 2 ^ (8 - k)) by (rewrite <- N.pow_add_r; f_equal; lia).
  rewrite E. nia.
Qed.
