(** Proofs about channel setters: set/get round trip, frame, histories. *)
From Verif Require Import Base ChannelModel ChannelSpec BitProofs ChannelProofs.
Local Open Scope N_scope.

(* ------------------------------------------------------------------ *)
(** ** Bits of single bytes *)

Lemma testbit_mask : forall k i, N.testbit (N.shiftl 1 k) i = (i =? k).
Proof.
  intros. rewrite N.shiftl_1_l, N.pow2_bits_eqb. apply N.eqb_sym.
Qed.

Lemma mask_byte : forall b k (v : bool), b < 256 -> k < 8 ->
  (if v then N.ldiff b (N.shiftl 1 k) else N.lor b (N.shiftl 1 k)) < 256.
Proof.
  intros b k v Hb Hk.
  assert (H: forall x, (forall i, 8 <= i -> N.testbit x i = false) -> x < 256).
  { intros x Hx. change 256 with (2 ^ 8).
    replace x with (x mod 2 ^ 8); [apply N.mod_lt; lia|].
    apply N.bits_inj. intros i. destruct (N.lt_ge_cases i 8).
    - apply N.mod_pow2_bits_low; auto.
    - rewrite N.mod_pow2_bits_high by auto. symmetry. apply Hx; auto. }
  apply H. intros i Hi.
  assert (N.testbit b i = false) by (apply testbit_small with 8; auto).
  destruct v.
  - rewrite N.ldiff_spec, H0. reflexivity.
  - rewrite N.lor_spec, H0, testbit_mask. cbn [orb]. apply N.eqb_neq. lia.
Qed.

(* ------------------------------------------------------------------ *)
(** ** set_valid *)

Lemma set_byte_length : forall i b buf, (i < length buf)%nat ->
  length (set_byte i b buf) = length buf.
Proof. intros. apply splice_length. cbn [length]. lia. Qed.

Lemma nth_set_byte_same : forall i b buf, (i < length buf)%nat ->
  nth i (set_byte i b buf) 0 = b.
Proof.
  intros. unfold set_byte. replace i with (i + 0)%nat at 1 by lia.
  rewrite nth_splice_in; cbn [length]; auto; lia.
Qed.

Lemma nth_set_byte_other : forall i j b buf, (i < length buf)%nat -> j <> i ->
  nth j (set_byte i b buf) 0 = nth j buf 0.
Proof. intros. unfold set_byte. apply nth_splice_out; cbn [length]; lia. Qed.

Lemma set_valid_length : forall c buf v idx, length (set_valid c buf v idx) = length buf.
Proof.
  intros. unfold set_valid. destruct (ch_invalid c); auto. cbv zeta.
  destruct (N.ltb_spec (w32 (ch_cg_bytes c + w32 (ch_inval_pos c + w32 idx) / 8))
              (N.of_nat (length buf))); auto.
  apply set_byte_length. lia.
Qed.

Lemma set_valid_ok : forall c buf v idx, bytes_ok buf -> bytes_ok (set_valid c buf v idx).
Proof.
  intros. unfold set_valid. destruct (ch_invalid c); auto. cbv zeta.
  destruct (N.ltb_spec (w32 (ch_cg_bytes c + w32 (ch_inval_pos c + w32 idx) / 8))
              (N.of_nat (length buf))); auto.
  apply bytes_ok_splice; auto. constructor; [|constructor].
  apply mask_byte; [apply bytes_ok_nth; auto | apply N.mod_lt; lia].
Qed.

Lemma set_valid_eq : forall c buf v idx,
  ch_invalid c = true -> inv_bit c idx < 8 * N.of_nat (length buf) ->
  N.of_nat (length buf) < 2 ^ 28 ->
  set_valid c buf v idx =
  (let i := N.to_nat (inv_bit c idx / 8) in
   let mask := N.shiftl 1 (inv_bit c idx mod 8) in
   set_byte i (if v then N.ldiff (nth i buf 0) mask else N.lor (nth i buf 0) mask) buf).
Proof.
  intros c buf v idx Hi Hb Hl. unfold set_valid. rewrite Hi. unfold inv_bit in *.
  destruct pow_consts as (E32 & _ & _ & E28). rewrite E28 in Hl.
  assert (E: w32 (ch_inval_pos c + w32 idx) = ch_inval_pos c + idx).
  { unfold w32. rewrite E32. rewrite (N.mod_small idx) by lia. apply N.mod_small. lia. }
  rewrite E. cbv zeta.
  assert (E2: w32 (ch_cg_bytes c + (ch_inval_pos c + idx) / 8)
              = (8 * ch_cg_bytes c + ch_inval_pos c + idx) / 8).
  { unfold w32. rewrite E32, N.mod_small by lia. lia. }
  rewrite E2.
  replace ((ch_inval_pos c + idx) mod 8)
    with ((8 * ch_cg_bytes c + ch_inval_pos c + idx) mod 8) by lia.
  destruct (N.ltb_spec ((8 * ch_cg_bytes c + ch_inval_pos c + idx) / 8)
              (N.of_nat (length buf))); [reflexivity | lia].
Qed.

Lemma get_valid_eq : forall c buf idx,
  ch_invalid c = true -> inv_bit c idx < 8 * N.of_nat (length buf) ->
  N.of_nat (length buf) < 2 ^ 28 ->
  get_valid c buf idx =
  negb (N.testbit (nth (N.to_nat (inv_bit c idx / 8)) buf 0) (inv_bit c idx mod 8)).
Proof.
  intros c buf idx Hi Hb Hl. unfold get_valid. rewrite Hi. unfold inv_bit in *.
  destruct pow_consts as (E32 & E64 & _ & E28). rewrite E28 in Hl.
  assert (E: w64 (ch_inval_pos c + idx) = ch_inval_pos c + idx).
  { unfold w64. rewrite E64. apply N.mod_small. lia. }
  rewrite E. cbv zeta.
  assert (E2: w64 (ch_cg_bytes c + (ch_inval_pos c + idx) / 8)
              = (8 * ch_cg_bytes c + ch_inval_pos c + idx) / 8).
  { unfold w64. rewrite E64, N.mod_small by lia. lia. }
  rewrite E2.
  replace ((ch_inval_pos c + idx) mod 8)
    with ((8 * ch_cg_bytes c + ch_inval_pos c + idx) mod 8) by lia.
  destruct (N.ltb_spec ((8 * ch_cg_bytes c + ch_inval_pos c + idx) / 8)
              (N.of_nat (length buf))); [reflexivity | lia].
Qed.

(** Every bit of the buffer after [set_valid]. *)
Definition buf_bit (buf : list N) (k : N) : bool :=
  N.testbit (nth (N.to_nat (k / 8)) buf 0) (k mod 8).

Lemma set_valid_bits : forall c buf v idx k,
  ch_invalid c = true -> inv_bit c idx < 8 * N.of_nat (length buf) ->
  N.of_nat (length buf) < 2 ^ 28 ->
  buf_bit (set_valid c buf v idx) k =
  if k =? inv_bit c idx then negb v else buf_bit buf k.
Proof.
  intros c buf v idx k Hi Hb Hl. rewrite set_valid_eq by auto. cbv zeta. unfold buf_bit.
  set (p := inv_bit c idx) in *. clearbody p.
  assert (Hlt: (N.to_nat (p / 8) < length buf)%nat) by (clear Hl; lia).
  destruct (N.eqb_spec (k / 8) (p / 8)) as [E|E].
  - rewrite E, nth_set_byte_same by auto.
    destruct (N.eqb_spec k p) as [->|Hn].
    + destruct v; [rewrite N.ldiff_spec | rewrite N.lor_spec]; rewrite testbit_mask, N.eqb_refl.
      * rewrite andb_false_r. reflexivity.
      * rewrite orb_true_r. reflexivity.
    + assert (k mod 8 <> p mod 8) by (clear Hl Hlt Hb; lia).
      destruct v; [rewrite N.ldiff_spec | rewrite N.lor_spec]; rewrite testbit_mask;
        rewrite (proj2 (N.eqb_neq _ _) H); cbn [negb].
      * rewrite andb_true_r. reflexivity.
      * rewrite orb_false_r. reflexivity.
  - assert (N.to_nat (k / 8) <> N.to_nat (p / 8)) by (intro; apply E, N2Nat.inj; auto).
    rewrite nth_set_byte_other by auto.
    destruct (N.eqb_spec k p) as [->|Hn]; [congruence | reflexivity].
Qed.

(** The data bytes are untouched by [set_valid]. *)
Lemma set_valid_data : forall c buf v idx o n,
  (ch_invalid c = true -> inv_bit c idx < 8 * N.of_nat (length buf)) ->
  N.of_nat (length buf) < 2 ^ 28 ->
  N.of_nat (o + n) <= ch_cg_bytes c -> (o + n <= length buf)%nat ->
  slice o n (set_valid c buf v idx) = slice o n buf.
Proof.
  intros c buf v idx o n Hi Hl Hd Hn. destruct (ch_invalid c) eqn:Ei.
  - rewrite set_valid_eq by auto. cbv zeta. unfold set_byte.
    specialize (Hi eq_refl).
    assert (ch_cg_bytes c <= inv_bit c idx / 8) by (unfold inv_bit; clear; lia).
    apply slice_splice_out; cbn [length]; auto.
    + clear Hl. lia.
    + clear Hl. lia.
  - unfold set_valid. rewrite Ei. reflexivity.
Qed.

(* ------------------------------------------------------------------ *)
(** ** Well-placed numeric channels *)

Lemma num_size_bytes : forall c, num_size c ->
  ch_bits c = 8 * data_bytes c /\
  (data_bytes c = 1 \/ data_bytes c = 2 \/ data_bytes c = 4 \/ data_bytes c = 8).
Proof.
  intros c H. unfold num_size, data_bytes in *.
  destruct (ch_dtype c); try contradiction;
    repeat (destruct H as [H|H]); rewrite H; cbv; intuition.
Qed.

(** Byte order of a numeric channel. *)
Definition is_le (c : chan) : bool :=
  match ch_dtype c with UnsignedLe | SignedLe | FloatLe => true | _ => false end.

Lemma placed_elem : forall c len idx, placed c len -> idx < elems c ->
  (elem_off c idx + elem_size c <= N.to_nat (ch_cg_bytes c))%nat /\
  (N.to_nat (ch_cg_bytes c) <= N.to_nat len)%nat.
Proof.
  intros c len idx P Hi. destruct P. unfold elem_off, elem_size.
  assert (data_bytes c * idx + data_bytes c <= data_bytes c * elems c).
  { replace (data_bytes c * idx + data_bytes c) with (data_bytes c * (idx + 1)) by lia.
    apply N.mul_le_mono_l. lia. }
  lia.
Qed.

Lemma get_field_elem : forall c buf idx,
  bytes_ok buf -> placed c (N.of_nat (length buf)) -> idx < elems c ->
  field_inside buf (start_of c idx) (ch_bits c) /\
  field (is_le c) buf (start_of c idx) (ch_bits c)
  = dec (is_le c) (slice (elem_off c idx) (elem_size c) buf).
Proof.
  intros c buf idx Hok P Hi.
  destruct (placed_elem _ _ _ P Hi) as [H1 H2]. rewrite Nat2N.id in H2.
  destruct (num_size_bytes c (pl_size _ _ P)) as [Hb Hs].
  assert (Hst: start_of c idx = 8 * N.of_nat (elem_off c idx)).
  { unfold start_of, field_start, elem_off. rewrite (pl_bit _ _ P), Hb. lia. }
  assert (Hbt: ch_bits c = 8 * N.of_nat (elem_size c)) by (unfold elem_size; lia).
  split.
  - unfold field_inside. rewrite Hst, Hbt. lia.
  - rewrite Hst, Hbt. apply field_aligned; auto. lia.
Qed.

Lemma w64_small : forall x, x < 2 ^ 64 -> w64 x = x.
Proof. intros. unfold w64. apply N.mod_small; auto. Qed.

Lemma no_wrap : forall c len idx, placed c len -> idx < elems c ->
  w64 (ch_byte c + w64 (data_bytes c * w64 (idx + 1)))
    = ch_byte c + data_bytes c * idx + data_bytes c /\
  w64 (ch_byte c + w64 (data_bytes c * idx)) = ch_byte c + data_bytes c * idx /\
  ch_byte c + data_bytes c * idx + data_bytes c <= len.
Proof.
  intros c len idx P Hi. destruct (placed_elem _ _ _ P Hi) as [H1 H2].
  unfold elem_off, elem_size in *. pose proof (pl_len _ _ P) as Hl.
  destruct (num_size_bytes c (pl_size _ _ P)) as [_ Hs].
  destruct pow_consts as (_ & E64 & _ & E28). rewrite E28 in Hl.
  assert (Hle: ch_byte c + data_bytes c * idx + data_bytes c <= len) by lia.
  assert (Hi2: idx <= data_bytes c * idx).
  { rewrite <- (N.mul_1_l idx) at 1. apply N.mul_le_mono_r. lia. }
  rewrite (w64_small (idx + 1)) by (rewrite E64; lia).
  replace (data_bytes c * (idx + 1)) with (data_bytes c * idx + data_bytes c) by lia.
  set (d := data_bytes c * idx) in *. clearbody d.
  rewrite (w64_small d) by (rewrite E64; lia).
  rewrite (w64_small (d + _)) by (rewrite E64; lia).
  rewrite !w64_small by (rewrite E64; lia). lia.
Qed.

Lemma put_eq : forall c le buf n v idx,
  placed c (N.of_nat (length buf)) -> idx < elems c -> n = elem_size c ->
  put c le buf n v idx = Ok (splice (elem_off c idx) (enc le n v) buf).
Proof.
  intros c le buf n v idx P Hi ->. unfold put.
  destruct (no_wrap _ _ _ P Hi) as (_ & E & Hle). rewrite E.
  unfold wr. rewrite enc_length.
  destruct (N.leb_spec (ch_byte c + data_bytes c * idx + N.of_nat (elem_size c))
              (N.of_nat (length buf))); [reflexivity|].
  unfold elem_size in *. lia.
Qed.

Lemma put_int_eq : forall c le buf v idx,
  placed c (N.of_nat (length buf)) -> idx < elems c ->
  put_int c le buf v idx = Ok (splice (elem_off c idx) (enc le (elem_size c) v) buf).
Proof.
  intros c le buf v idx P Hi. unfold put_int.
  destruct (num_size_bytes c (pl_size _ _ P)) as [_ Hs].
  assert (E: elem_size c = N.to_nat (data_bytes c)) by reflexivity.
  repeat (destruct Hs as [Hs|Hs]); rewrite Hs in *;
    (rewrite put_eq by auto; rewrite E; reflexivity).
Qed.

Lemma placed_len : forall c a b, placed c a -> a = b -> placed c b.
Proof. intros; subst; auto. Qed.

Lemma placed_nonempty : forall c (buf : list N), placed c (N.of_nat (length buf)) -> buf <> [].
Proof.
  intros c buf P ->. cbn [length] in P.
  destruct (num_size_bytes c (pl_size _ _ P)) as [_ Hs].
  pose proof (pl_data _ _ P). pose proof (pl_cg _ _ P). unfold elems in *.
  cbn [N.of_nat] in *. nia.
Qed.

Section F.
Variable half_to_double float_to_double double_to_float : N -> N.
Notation getc := (get_channel half_to_double float_to_double).
Notation setc := (set_channel double_to_float).

(** The value an element's bytes mean. *)
Definition decode_value (c : chan) (l : list N) : value :=
  let u := dec (is_le c) l in
  match ch_dtype c with
  | SignedLe | SignedBe => VS (twos (ch_bits c) u)
  | FloatLe | FloatBe => VF (if ch_bits c =? 32 then float_to_double u else u)
  | _ => VU u
  end.

Lemma get_channel_eq : forall c buf idx,
  bytes_ok buf -> placed c (N.of_nat (length buf)) -> idx < elems c ->
  getc c buf idx =
  Ok (decode_value c (slice (elem_off c idx) (elem_size c) buf), get_valid c buf idx).
Proof.
  intros c buf idx Hok P Hi.
  destruct (get_field_elem c buf idx Hok P Hi) as [Hin Hf].
  pose proof (pl_size _ _ P) as Hns. pose proof (pl_novlsd _ _ P) as Hnv.
  pose proof (pl_len _ _ P) as Hlen.
  assert (Hb: 1 <= ch_bits c <= 64).
  { unfold num_size in Hns. destruct (ch_dtype c); try contradiction; lia. }
  unfold get_channel, decode_value, is_le, num_size in *.
  destruct (ch_dtype c) eqn:Ed; try contradiction.
  - rewrite get_unsigned_field with (le := true); auto.
    + cbn [bind]. rewrite Hf. reflexivity.
    + unfold uint_le. rewrite Hnv, Ed. reflexivity.
  - rewrite get_unsigned_field with (le := false); auto.
    + cbn [bind]. rewrite Hf. reflexivity.
    + unfold uint_le. rewrite Hnv, Ed. reflexivity.
  - rewrite get_signed_field by auto. rewrite Ed, Hf. reflexivity.
  - rewrite get_signed_field by auto. rewrite Ed, Hf. reflexivity.
  - unfold get_float. pose proof (inside_geom _ _ _ Hlen Hin) as Hg.
    rewrite (proj2 (range_ok_iff c buf idx Hg) Hin), bit_offset_eq by auto.
    rewrite Ed, raw_to_unsigned_field by auto. cbn [lift bind]. rewrite Hf.
    destruct Hns as [->| ->]; reflexivity.
  - unfold get_float. pose proof (inside_geom _ _ _ Hlen Hin) as Hg.
    rewrite (proj2 (range_ok_iff c buf idx Hg) Hin), bit_offset_eq by auto.
    rewrite Ed, raw_to_unsigned_field by auto. cbn [lift bind]. rewrite Hf.
    destruct Hns as [->| ->]; reflexivity.
Qed.

(** The number whose low bytes are stored for a value of the matching kind. *)
Definition stored (c : chan) (v : value) : option N :=
  match ch_dtype c, v with
  | UnsignedLe, VU u | UnsignedBe, VU u => Some u
  | SignedLe, VS z | SignedBe, VS z => Some (to_u64 z)
  | FloatLe, VF d | FloatBe, VF d =>
      Some (if ch_bits c =? 32 then double_to_float d else d)
  | _, _ => None
  end.

Lemma set_channel_eq : forall c buf v raw valid idx,
  placed c (N.of_nat (length buf)) -> idx < elems c -> stored c v = Some raw ->
  setc c buf v valid idx =
  Ok (splice (elem_off c idx) (enc (is_le c) (elem_size c) raw) (set_valid c buf valid idx)).
Proof.
  intros c buf v raw valid idx P Hi Hs.
  pose proof (placed_nonempty _ _ P) as Hne.
  pose proof (placed_len c _ (N.of_nat (length (set_valid c buf valid idx))) P
               ltac:(rewrite set_valid_length; reflexivity)) as P'.
  assert (T1: too_big c buf idx = false).
  { unfold too_big. destruct (no_wrap _ _ _ P Hi) as (E & _ & Hle). rewrite E.
    apply N.ltb_ge. auto. }
  assert (T2: too_big_be c buf idx = false).
  { unfold too_big_be. destruct (no_wrap _ _ _ P Hi) as (_ & E & Hle). rewrite E.
    apply N.ltb_ge. lia. }
  pose proof (pl_size _ _ P) as Hns.
  assert (Eb: forall T (x y : T), match buf with [] => x | _ :: _ => y end = y)
    by (intros; destruct buf; [congruence|reflexivity]).
  unfold set_channel, stored, is_le, num_size in *.
  destruct (ch_dtype c) eqn:Ed; try contradiction; destruct v; try discriminate;
    inversion Hs; subst raw; clear Hs;
    unfold set_unsigned_le, set_unsigned_be, set_signed, set_float; rewrite Eb, ?T1, ?T2;
    try (apply put_int_eq; auto).
  - cbv zeta. assert (Hd: data_bytes c = 4 \/ data_bytes c = 8)
      by (unfold data_bytes; destruct Hns as [->| ->]; cbv; auto).
    assert (Hb: ch_bits c =? 32 = (data_bytes c =? 4))
      by (unfold data_bytes; destruct Hns as [->| ->]; reflexivity).
    rewrite Hb. destruct Hd as [Hd|Hd]; rewrite Hd;
    (rewrite put_eq; auto; unfold elem_size; rewrite Hd; reflexivity).
  - cbv zeta. assert (Hd: data_bytes c = 4 \/ data_bytes c = 8)
      by (unfold data_bytes; destruct Hns as [->| ->]; cbv; auto).
    assert (Hb: ch_bits c =? 32 = (data_bytes c =? 4))
      by (unfold data_bytes; destruct Hns as [->| ->]; reflexivity).
    rewrite Hb. destruct Hd as [Hd|Hd]; rewrite Hd;
    (rewrite put_eq; auto; unfold elem_size; rewrite Hd; reflexivity).
Qed.
End F.
