(** Proofs about bit extraction (ChannelModel.raw_to_unsigned). *)
From Verif Require Import Base ChannelModel ChannelSpec.
Local Open Scope N_scope.

Lemma rd_some : forall buf i, (0 <= i < Z.of_nat (length buf))%Z ->
  rd buf i = Some (nth (Z.to_nat i) buf 0).
Proof.
  intros. unfold rd.
  replace ((0 <=? i) && (i <? Z.of_nat (length buf)))%Z with true; auto.
  symmetry. apply andb_true_intro. split; lia.
Qed.

(** One step appends a bit at the low end. *)
Lemma push_bit : forall v (b : bool), v < 2 ^ 63 ->
  (if b then N.lor (w64 (N.shiftl v 1)) 1 else w64 (N.shiftl v 1)) = 2 * v + N.b2n b.
Proof.
  intros v b Hv. unfold w64. rewrite N.shiftl_mul_pow2. change (2^1) with 2.
  rewrite N.mod_small. 2:{ change (2^64) with (2^63*2). lia. }
  destruct b; cbn [N.b2n].
  - rewrite N.mul_comm. destruct v; reflexivity.
  - lia.
Qed.

Lemma push_bit_first : forall (b : bool),
  (if b then N.lor 0 1 else 0) = N.b2n b.
Proof. destruct b; reflexivity. Qed.

(** The walk visits the bits of a number [X] from position [q] downwards. *)
Definition walks (le : bool) (raw : list N) (X : N) (n : nat) (byte bit : Z) (q : N) : Prop :=
  forall k, (k < n)%nat ->
    let t := (7 - bit + Z.of_nat k)%Z in
    let by_ := (if le then byte - t / 8 else byte + t / 8)%Z in
    let bi := (7 - t mod 8)%Z in
    exists b, rd raw by_ = Some b /\
      N.testbit b (Z.to_N bi) = N.testbit X (q - N.of_nat k).

Lemma walks_step : forall le raw X n byte bit q,
  (0 <= bit <= 7)%Z ->
  walks le raw X (S n) byte bit q ->
  exists b, rd raw byte = Some b /\ N.testbit b (Z.to_N bit) = N.testbit X q /\
  (if (bit - 1 <? 0)%Z
   then walks le raw X n (if le then byte - 1 else byte + 1)%Z 7 (q - 1)
   else walks le raw X n byte (bit - 1) (q - 1)).
Proof.
  intros le raw X n byte bit q Hbit H.
  destruct (H 0%nat ltac:(lia)) as (b & Hb & Ht).
  exists b.
  assert (E1: ((7 - bit + Z.of_nat 0) / 8 = 0)%Z) by lia.
  assert (E2: ((7 - bit + Z.of_nat 0) mod 8 = 7 - bit)%Z) by lia.
  cbv zeta in Hb, Ht. rewrite E1 in Hb. rewrite E2 in Ht.
  split; [destruct le; rewrite ?Z.sub_0_r, ?Z.add_0_r in Hb; auto|].
  split.
  { replace (7 - (7 - bit))%Z with bit in Ht by lia.
    rewrite Ht. f_equal. lia. }
  destruct (Z.ltb_spec (bit - 1) 0) as [Hlt|Hge].
  - intros k Hk. destruct (H (S k) ltac:(lia)) as (b' & Hb' & Ht').
    cbv zeta in *. exists b'.
    assert (bit = 0)%Z by lia. subst bit.
    replace (7 - 0 + Z.of_nat (S k))%Z with ((7 - 7 + Z.of_nat k) + 1*8)%Z in * by lia.
    rewrite Z.div_add in Hb' by lia. rewrite Z.mod_add in Ht' by lia.
    split.
    + destruct le; rewrite <- Hb'; f_equal; lia.
    + rewrite Ht'. f_equal. lia.
  - intros k Hk. destruct (H (S k) ltac:(lia)) as (b' & Hb' & Ht').
    cbv zeta in *. exists b'.
    replace (7 - (bit - 1) + Z.of_nat k)%Z with (7 - bit + Z.of_nat (S k))%Z by lia.
    split; auto. rewrite Ht'. f_equal. lia.
Qed.

Lemma div_pow2_step : forall X q, X / 2 ^ q = 2 * (X / 2 ^ (q + 1)) + N.b2n (N.testbit X q).
Proof.
  intros. rewrite N.add_1_r, N.pow_succ_r', (N.mul_comm 2 (2 ^ q)).
  rewrite <- N.div_div by (try apply N.pow_nonzero; lia).
  rewrite N.testbit_spec'. apply N.div_mod'.
Qed.

(** The accumulator after one more bit. *)
Definition acc_step (first : bool) (v : N) (b : bool) : N :=
  let value1 := if first then v else w64 (N.shiftl v 1) in
  if b then N.lor value1 1 else value1.

Lemma acc_step_eq : forall first v b a, (first = true -> v = 0) -> v < 2 ^ a -> a <= 63 ->
  acc_step first v b = 2 * v + N.b2n b.
Proof.
  intros first v b a Hf Hv Ha. unfold acc_step. cbv zeta. destruct first.
  - rewrite Hf by reflexivity. rewrite push_bit_first. lia.
  - apply push_bit. eapply N.lt_le_trans; [exact Hv|]. apply N.pow_le_mono_r; lia.
Qed.

Lemma field_step : forall X q n,
  N.of_nat (S n) <= q + 1 ->
  (X / 2 ^ (q + 1 - N.of_nat (S n))) mod 2 ^ N.of_nat (S n)
  = N.b2n (N.testbit X q) * 2 ^ N.of_nat n
    + (X / 2 ^ (q - N.of_nat n)) mod 2 ^ N.of_nat n.
Proof.
  intros X q n Hq.
  replace (q + 1 - N.of_nat (S n)) with (q - N.of_nat n) by lia.
  set (Y := X / 2 ^ (q - N.of_nat n)).
  rewrite Nat2N.inj_succ, N.pow_succ_r', (N.mul_comm 2).
  rewrite N.mod_mul_r by (try apply N.pow_nonzero; lia).
  replace ((Y / 2 ^ N.of_nat n) mod 2) with (N.b2n (N.testbit X q)); [lia|].
  unfold Y. rewrite N.div_div by (apply N.pow_nonzero; lia).
  rewrite <- N.pow_add_r.
  replace (q - N.of_nat n + N.of_nat n) with q by lia.
  apply N.testbit_spec'.
Qed.

Lemma raw_loop_S : forall le raw n first byte bit v b,
  rd raw byte = Some b ->
  raw_loop le raw (S n) first byte bit v =
  if (bit - 1 <? 0)%Z
  then raw_loop le raw n false (if le then byte - 1 else byte + 1)%Z 7%Z
         (acc_step first v (N.testbit b (Z.to_N bit)))
  else raw_loop le raw n false byte (bit - 1)%Z
         (acc_step first v (N.testbit b (Z.to_N bit))).
Proof. intros. cbn [raw_loop]. rewrite H. reflexivity. Qed.

(** Loop invariant: after the walk the accumulator holds the next [n] bits below the ones already read. *)
Lemma raw_loop_walk : forall n le raw X first byte bit q v a,
  (0 <= bit <= 7)%Z ->
  walks le raw X n byte bit q ->
  N.of_nat n <= q + 1 ->
  (first = true -> v = 0) ->
  v < 2 ^ a -> a + N.of_nat n <= 64 ->
  raw_loop le raw n first byte bit v
  = Some (v * 2 ^ N.of_nat n + (X / 2 ^ (q + 1 - N.of_nat n)) mod 2 ^ N.of_nat n).
Proof.
  induction n; intros le raw X first byte bit q v a Hbit Hw Hq Hf Hv Ha.
  - cbn [raw_loop]. change (N.of_nat 0) with 0. rewrite N.pow_0_r, N.mod_1_r. f_equal. lia.
  - destruct (walks_step _ _ _ _ _ _ _ Hbit Hw) as (b & Hrd & Htb & Hnext).
    rewrite (raw_loop_S _ _ _ _ _ _ _ _ Hrd), Htb.
    rewrite (acc_step_eq first v _ a) by (auto; lia).
    rewrite field_step by exact Hq.
    set (bb := N.b2n (N.testbit X q)).
    assert (Hbb: bb <= 1) by (unfold bb; destruct (N.testbit X q); cbn; lia).
    clearbody bb.
    assert (Hv2: 2 * v + bb < 2 ^ (a + 1)).
    { rewrite N.add_1_r, N.pow_succ_r'. lia. }
    assert (E: v * 2 ^ N.of_nat (S n) +
       (bb * 2 ^ N.of_nat n + (X / 2 ^ (q - N.of_nat n)) mod 2 ^ N.of_nat n) =
       (2 * v + bb) * 2 ^ N.of_nat n + (X / 2 ^ (q - N.of_nat n)) mod 2 ^ N.of_nat n).
    { rewrite Nat2N.inj_succ, N.pow_succ_r'. lia. }
    rewrite E. clear E.
    assert (Hcase: n = 0%nat \/ (q - 1 + 1 = q /\ N.of_nat n <= q - 1 + 1)) by lia.
    destruct Hcase as [->|[Hq1 Hq2]].
    { destruct (bit - 1 <? 0)%Z; cbn [raw_loop]; change (N.of_nat 0) with 0;
        rewrite N.pow_0_r, N.mod_1_r, N.mul_1_r, N.add_0_r; reflexivity. }
    replace (q - N.of_nat n) with (q - 1 + 1 - N.of_nat n) by lia.
    destruct (Z.ltb_spec (bit - 1) 0) as [Hlt|Hge].
    + apply IHn with (a := a + 1); auto; try lia; discriminate.
    + apply IHn with (a := a + 1); auto; try lia; discriminate.
Qed.

Lemma to_int32_small : forall x, x < 2 ^ 31 -> to_int32 x = Z.of_N x.
Proof.
  intros x H. unfold to_int32. cbv zeta.
  rewrite N.mod_small by (change (2^32) with (2^31*2); lia).
  destruct (N.ltb_spec x (2^31)); [reflexivity|lia].
Qed.

Lemma last_bit_eq : forall s l, 1 <= l -> s + l <= 2 ^ 31 -> last_bit s l = s + l - 1.
Proof.
  intros s l Hl H. unfold last_bit, w64.
  replace (s + l + (2^64 - 1)) with ((s + l - 1) + 1 * 2^64).
  2:{ change (2^64) with (2^63*2). lia. }
  rewrite N.mod_add by (apply N.pow_nonzero; lia).
  apply N.mod_small. change (2^64) with (2^31*2^33). change (2^33) with (2*2^32). lia.
Qed.

Lemma quot8 : forall x, Z.quot (Z.of_N x) 8 = Z.of_N (x / 8).
Proof. intros. rewrite Z.quot_div_nonneg by lia. rewrite N2Z.inj_div. reflexivity. Qed.

Lemma walks_le : forall raw start len,
  bytes_ok raw -> 1 <= len -> start + len <= 8 * N.of_nat (length raw) ->
  walks true raw (le_num raw) (N.to_nat len) (Z.of_N ((start + len - 1) / 8))
        (Z.of_N ((start + len - 1) mod 8)) (start + len - 1).
Proof.
  intros raw start len Hok Hl Hin k Hk. cbv zeta.
  set (p := start + len - 1) in *.
  set (t := (7 - Z.of_N (p mod 8) + Z.of_nat k)%Z).
  assert (Hp: Z.of_N p = (8 * Z.of_N (p/8) + Z.of_N (p mod 8))%Z) by lia.
  assert (Hby: (Z.of_N (p / 8) - t / 8 = Z.of_N ((p - N.of_nat k) / 8))%Z) by (unfold t; lia).
  assert (Hbi: (7 - t mod 8 = Z.of_N ((p - N.of_nat k) mod 8))%Z) by (unfold t; lia).
  rewrite Hby, Hbi.
  eexists. split.
  - apply rd_some. lia.
  - rewrite le_num_testbit by auto. rewrite N2Z.id.
    f_equal. f_equal. lia.
Qed.

Lemma walks_be : forall raw start len,
  bytes_ok raw -> 1 <= len -> start + len <= 8 * N.of_nat (length raw) ->
  walks false raw
    (be_num (slice (N.to_nat (start / 8)) (N.to_nat (field_span start len)) raw))
    (N.to_nat len) (Z.of_N (start / 8))
    (Z.of_N ((start + len - 1) mod 8)) (start mod 8 + len - 1).
Proof.
  intros raw start len Hok Hl Hin k Hk. cbv zeta.
  set (span := field_span start len).
  assert (Hspan: span = (start mod 8 + len + 7) / 8) by reflexivity.
  assert (Hfit: (N.to_nat (start / 8) + N.to_nat span <= length raw)%nat) by lia.
  set (p := start + len - 1) in *.
  set (t := (7 - Z.of_N (p mod 8) + Z.of_nat k)%Z).
  set (q := start mod 8 + len - 1).
  assert (Hq: q mod 8 = p mod 8) by (unfold q, p; lia).
  assert (Hqs: q / 8 = span - 1) by (unfold q; lia).
  assert (Hbi: (7 - t mod 8 = Z.of_N ((q - N.of_nat k) mod 8))%Z) by (unfold t; lia).
  assert (Hby: (Z.of_N (start / 8) + t / 8 =
                Z.of_N (start / 8 + (span - 1 - (q - N.of_nat k) / 8)))%Z) by (unfold t; lia).
  rewrite Hby, Hbi.
  assert (Hr: (0 <= Z.of_N (start / 8 + (span - 1 - (q - N.of_nat k) / 8))
               < Z.of_nat (length raw))%Z) by (clear - Hfit Hqs Hl Hspan; lia).
  assert (Hi: (N.to_nat ((q - N.of_nat k) / 8) < N.to_nat span)%nat).
  { clear - Hqs Hspan Hl Hk. assert ((q - N.of_nat k) / 8 <= q / 8) by (apply N.div_le_mono; lia). lia. }
  clearbody span t q. clear Hby Hbi Hspan Hq t p Hin.
  eexists. split.
  - apply rd_some. exact Hr.
  - unfold be_num. rewrite le_num_testbit by (apply bytes_ok_rev, bytes_ok_slice; auto).
    rewrite N2Z.id.
    rewrite rev_nth by (rewrite slice_length by auto; exact Hi).
    rewrite slice_length by auto. rewrite nth_slice by lia.
    f_equal. f_equal. clear - Hi Hfit. set (x := (q - N.of_nat k) / 8) in *. clearbody x. lia.
Qed.

(** RawToUnsigned returns the specified bit field. *)
Lemma raw_to_unsigned_field : forall le raw start len,
  bytes_ok raw -> 1 <= len <= 64 ->
  field_inside raw start len -> N.of_nat (length raw) < 2 ^ 28 ->
  raw_to_unsigned le start len raw = Some (field le raw start len).
Proof.
  intros le raw start len Hok [Hl1 Hl2] Hin Hsz. unfold field_inside in Hin.
  assert (Hs31: start + len <= 2 ^ 31).
  { change (2^31) with (8 * 2^28). lia. }
  unfold raw_to_unsigned. rewrite last_bit_eq by auto.
  rewrite (to_int32_small ((start + len - 1) mod 8)).
  2:{ assert ((start + len - 1) mod 8 < 8) by (apply N.mod_lt; lia).
      eapply N.lt_trans; [eassumption|reflexivity]. }
  assert (Hb7: (0 <= Z.of_N ((start + len - 1) mod 8) <= 7)%Z).
  { assert ((start + len - 1) mod 8 < 8) by (apply N.mod_lt; lia). lia. }
  assert (Hn64: 0 + N.of_nat (N.to_nat len) <= 64) by lia.
  assert (H01: 0 < 2 ^ 0) by (cbn; lia).
  destruct le; cbn [field].
  - rewrite to_int32_small by lia. rewrite quot8.
    rewrite (raw_loop_walk _ _ _ _ _ _ _ _ 0 0 Hb7
               (walks_le raw start len Hok Hl1 Hin)
               ltac:(lia) (fun _ => eq_refl) H01 Hn64).
    rewrite N2Nat.id, N.mul_0_l, N.add_0_l. unfold field_le. f_equal. f_equal. f_equal.
    f_equal. lia.
  - rewrite to_int32_small by lia. rewrite quot8.
    rewrite (raw_loop_walk _ _ _ _ _ _ _ _ 0 0 Hb7
               (walks_be raw start len Hok Hl1 Hin)
               ltac:(lia) (fun _ => eq_refl) H01 Hn64).
    rewrite N2Nat.id, N.mul_0_l, N.add_0_l. unfold field_be. f_equal. f_equal. f_equal.
    f_equal. lia.
Qed.

Lemma field_bound : forall le raw start len, field le raw start len < 2 ^ len.
Proof.
  intros. destruct le; unfold field, field_le, field_be;
    apply N.mod_lt, N.pow_nonzero; lia.
Qed.
