(** Proofs about channel getters and setters. *)
From Verif Require Import Base ChannelModel ChannelSpec BitProofs.
Local Open Scope N_scope.

Lemma pow_consts : 2 ^ 32 = 4294967296 /\ 2 ^ 64 = 18446744073709551616 /\ 2 ^ 31 = 2147483648
  /\ 2 ^ 28 = 268435456.
Proof. repeat split; reflexivity. Qed.

Lemma bit_offset_eq : forall c idx, geom_ok c idx -> bit_offset c idx = start_of c idx.
Proof.
  intros c idx [H1 H2]. unfold start_of, field_start in *. unfold bit_offset, w32, w64.
  destruct pow_consts as (E32 & E64 & _). rewrite E32, E64 in *.
  rewrite (N.mod_small (ch_byte c * 8)) by lia.
  rewrite (N.mod_small (ch_byte c * 8 + ch_bit c)) by lia.
  rewrite (N.mod_small (idx * ch_bits c)) by lia.
  rewrite N.mod_small by lia. lia.
Qed.

Lemma range_ok_iff : forall c rec idx, geom_ok c idx ->
  (range_ok c rec idx = true <-> field_inside rec (start_of c idx) (ch_bits c)).
Proof.
  intros c rec idx Hg. unfold range_ok. rewrite bit_offset_eq by auto.
  destruct Hg as [H1 H2]. unfold w64, field_inside.
  rewrite N.mod_small by auto. cbv zeta.
  set (e := start_of c idx + ch_bits c) in *. clearbody e.
  set (n := N.of_nat (length rec)). clearbody n. clear.
  destruct (N.eqb_spec (e mod 8) 0); rewrite N.leb_le; lia.
Qed.

Lemma inside_geom : forall c rec idx,
  N.of_nat (length rec) < 2 ^ 28 ->
  field_inside rec (start_of c idx) (ch_bits c) -> geom_ok c idx.
Proof.
  intros c rec idx Hsz Hin. unfold geom_ok, field_inside, start_of, field_start in *.
  destruct pow_consts as (E32 & E64 & E31 & E28). rewrite E32, E64, E28 in *.
  set (x := idx * ch_bits c) in *. clearbody x. lia.
Qed.

(** The unsigned value of a channel, whatever the kind. *)
Definition uint_le (c : chan) : option bool :=
  if is_vlsd (ch_type c) then Some true
  else match ch_dtype c with
       | StrUtf16Le | StrUtf16Be | StrUtf8 | StrAscii | UnsignedLe => Some true
       | UnsignedBe => Some false
       | _ => None
       end.

Lemma get_unsigned_field : forall c rec idx le,
  bytes_ok rec -> N.of_nat (length rec) < 2 ^ 28 ->
  uint_le c = Some le -> 1 <= ch_bits c <= 64 ->
  field_inside rec (start_of c idx) (ch_bits c) ->
  get_unsigned c rec idx = Ok (field le rec (start_of c idx) (ch_bits c)).
Proof.
  intros c rec idx le Hok Hsz Hle Hb Hin.
  pose proof (inside_geom _ _ _ Hsz Hin) as Hg.
  unfold get_unsigned, uint_le in *.
  rewrite (proj2 (range_ok_iff c rec idx Hg) Hin).
  rewrite bit_offset_eq by auto.
  destruct (is_vlsd (ch_type c)).
  { inversion Hle; subst. rewrite raw_to_unsigned_field; auto. }
  destruct (ch_dtype c); inversion Hle; subst; rewrite raw_to_unsigned_field; auto.
Qed.

Lemma get_signed_field : forall c rec idx,
  bytes_ok rec -> N.of_nat (length rec) < 2 ^ 28 ->
  1 <= ch_bits c <= 64 ->
  field_inside rec (start_of c idx) (ch_bits c) ->
  get_signed c rec idx =
  Ok (twos (ch_bits c)
        (field (match ch_dtype c with SignedLe => true | _ => false end)
               rec (start_of c idx) (ch_bits c))).
Proof.
  intros c rec idx Hok Hsz Hb Hin.
  pose proof (inside_geom _ _ _ Hsz Hin) as Hg.
  unfold get_signed. rewrite (proj2 (range_ok_iff c rec idx Hg) Hin).
  rewrite bit_offset_eq by auto. unfold raw_to_signed.
  rewrite raw_to_unsigned_field by auto. cbv zeta. cbn [lift].
  replace ((1 <=? ch_bits c) && (ch_bits c <=? 64)) with true; [reflexivity|].
  symmetry. apply andb_true_intro. split; apply N.leb_le; lia.
Qed.

Lemma twos_range : forall w u, 1 <= w -> u < 2 ^ w ->
  (- Z.of_N (2 ^ (w - 1)) <= twos w u < Z.of_N (2 ^ (w - 1)))%Z.
Proof.
  intros w u Hw Hu. unfold twos.
  assert (E: 2 ^ w = 2 * 2 ^ (w - 1)).
  { replace w with (N.succ (w - 1)) at 1 by lia. apply N.pow_succ_r'. }
  destruct (N.ltb_spec u (2 ^ (w - 1))); lia.
Qed.

Lemma twos_mod : forall w u, 1 <= w -> u < 2 ^ w ->
  (twos w u mod Z.of_N (2 ^ w))%Z = Z.of_N u.
Proof.
  intros w u Hw Hu. unfold twos. pose proof (pow2_pos w).
  destruct (N.ltb_spec u (2 ^ (w - 1))).
  - apply Z.mod_small. lia.
  - replace (Z.of_N u - Z.of_N (2 ^ w))%Z with (Z.of_N u + (-1) * Z.of_N (2 ^ w))%Z by lia.
    rewrite Z.mod_add by lia. apply Z.mod_small. lia.
Qed.

(** twos inverts the truncation of a signed value in range. *)
Lemma twos_of_signed : forall w z, 1 <= w <= 64 ->
  (- Z.of_N (2 ^ (w - 1)) <= z < Z.of_N (2 ^ (w - 1)))%Z ->
  twos w (to_u64 z mod 2 ^ w) = z.
Proof.
  intros w z Hw Hz.
  assert (E: 2 ^ w = 2 * 2 ^ (w - 1)).
  { replace w with (N.succ (w - 1)) at 1 by lia. apply N.pow_succ_r'. }
  pose proof (pow2_pos (w - 1)) as Hp.
  assert (E64: exists k, (2 ^ 64 = k * Z.of_N (2 ^ w))%Z).
  { exists (Z.of_N (2 ^ (64 - w))). rewrite <- N2Z.inj_mul, <- N.pow_add_r.
    replace (64 - w + w) with 64 by lia. reflexivity. }
  assert (Hu: (Z.of_N (to_u64 z mod 2 ^ w) = z mod Z.of_N (2 ^ w))%Z).
  { unfold to_u64. rewrite N2Z.inj_mod. rewrite Z2N.id by (apply Z.mod_pos_bound; lia).
    symmetry. apply Znumtheory.Zmod_div_mod; [lia|lia|].
    destruct E64 as [k Ek]. exists k. exact Ek. }
  assert (Hlt: to_u64 z mod 2 ^ w < 2 ^ w) by (apply N.mod_lt; lia).
  unfold twos. set (u := to_u64 z mod 2 ^ w) in *. clearbody u.
  rewrite E in *. set (h := 2 ^ (w - 1)) in *. clearbody h. clear E64 E Hw.
  destruct (Z_lt_le_dec z 0).
  - assert (Z.of_N u = z + Z.of_N (2 * h))%Z.
    { rewrite Hu. symmetry. apply Z.mod_unique_pos with (-1)%Z; lia. }
    destruct (N.ltb_spec u h); lia.
  - rewrite Z.mod_small in Hu by lia. destruct (N.ltb_spec u h); lia.
Qed.

(* ------------------------------------------------------------------ *)
(** ** Byte-aligned fields *)

Lemma slice_split : forall (l : list N) o n, (o + n <= length l)%nat ->
  l = firstn o l ++ slice o n l ++ skipn (o + n) l.
Proof.
  intros l o n H. unfold slice.
  rewrite <- (firstn_skipn o l) at 1. f_equal.
  rewrite <- (firstn_skipn n (skipn o l)) at 1. f_equal.
  rewrite skipn_plus. reflexivity.
Qed.

Lemma field_le_aligned : forall rec o n, bytes_ok rec -> (o + n <= length rec)%nat ->
  field_le rec (8 * N.of_nat o) (8 * N.of_nat n) = le_num (slice o n rec).
Proof.
  intros rec o n Hok Hl. unfold field_le.
  rewrite (slice_split rec o n Hl) at 1. rewrite !le_num_app.
  rewrite slice_length by auto. rewrite firstn_length, Nat.min_l by lia.
  rewrite <- !pow256.
  pose proof (le_num_bound (firstn o rec) (bytes_ok_firstn _ _ Hok)) as B1.
  rewrite firstn_length, Nat.min_l in B1 by lia.
  pose proof (le_num_bound (slice o n rec) (bytes_ok_slice _ _ _ Hok)) as B2.
  rewrite slice_length in B2 by auto.
  rewrite (N.mul_comm (256 ^ N.of_nat o)).
  rewrite N.div_add by (pose proof (pow256_pos (N.of_nat o)); lia).
  rewrite (N.div_small _ _ B1), N.add_0_l.
  rewrite (N.mul_comm (256 ^ N.of_nat n)).
  rewrite N.mod_add by (pose proof (pow256_pos (N.of_nat n)); lia).
  apply N.mod_small; auto.
Qed.

Lemma field_be_aligned : forall rec o n, bytes_ok rec -> (o + n <= length rec)%nat ->
  field_be rec (8 * N.of_nat o) (8 * N.of_nat n) = be_num (slice o n rec).
Proof.
  intros rec o n Hok Hl. unfold field_be, field_span.
  replace (8 * N.of_nat o / 8) with (N.of_nat o) by lia.
  replace ((8 * N.of_nat o) mod 8) with 0 by lia.
  replace ((0 + 8 * N.of_nat n + 7) / 8) with (N.of_nat n) by lia.
  rewrite !Nat2N.id, N.pow_0_r, N.div_1_r.
  apply N.mod_small. apply be_num_lt_pow.
  - apply bytes_ok_slice; auto.
  - apply slice_length; auto.
Qed.

Definition dec (le : bool) (l : list N) : N := if le then le_num l else be_num l.

Lemma field_aligned : forall le rec o n, bytes_ok rec -> (o + n <= length rec)%nat ->
  field le rec (8 * N.of_nat o) (8 * N.of_nat n) = dec le (slice o n rec).
Proof. intros [] *; [apply field_le_aligned | apply field_be_aligned]. Qed.

Lemma enc_length : forall le n v, length (enc le n v) = n.
Proof. intros [] *; [apply le_bytes_length | apply be_bytes_length]. Qed.

Lemma enc_ok : forall le n v, bytes_ok (enc le n v).
Proof. intros [] *; [apply le_bytes_ok | apply be_bytes_ok]. Qed.

Lemma dec_enc : forall le n v, dec le (enc le n v) = v mod 2 ^ (8 * N.of_nat n).
Proof.
  intros [] *; unfold dec, enc; rewrite <- pow256; [apply le_num_bytes | apply be_num_bytes].
Qed.
