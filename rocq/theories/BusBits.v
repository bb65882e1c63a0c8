(** MdfHelper::UnsignedToRaw, little endian: it stores the low bits of the value in the bit field and
    leaves all other bits. *)
From Verif Require Import Base ChannelModel ChannelSpec BitProofs ChannelProofs SetProofs BusModel BusSpec
  BusProofs.
Local Open Scope N_scope.

Lemma list_bits_eq : forall a b, bytes_ok a -> bytes_ok b -> length a = length b ->
  (forall k, k < 8 * N.of_nat (length a) -> buf_bit a k = buf_bit b k) -> a = b.
Proof.
  intros a b Ha Hb Hl H. apply list_eq_nth; auto. intros i Hi.
  apply N.bits_inj; intros j. destruct (N.ltb_spec j 8).
  - specialize (H (8 * N.of_nat i + j) ltac:(lia)). unfold buf_bit in H.
    rewrite (N.add_comm (8 * _)), (N.mul_comm 8), N.div_add, N.mod_add in H by lia.
    rewrite (N.div_small j 8), (N.mod_small j 8) in H by lia.
    rewrite N.add_0_l, Nat2N.id in H. exact H.
  - rewrite !(testbit_small _ j 8); auto; apply bytes_ok_nth; auto.
Qed.

Lemma mask_bit : forall v n, (N.land v (2 ^ n) =? 0) = negb (N.testbit v n).
Proof.
  intros. destruct (N.testbit v n) eqn:E; cbn [negb].
  - apply N.eqb_neq. intro H. assert (T: N.testbit (N.land v (2 ^ n)) n = false)
      by (rewrite H; apply N.bits_0).
    rewrite N.land_spec, E, N.pow2_bits_true in T. discriminate.
  - apply N.eqb_eq, N.bits_inj_0. intros i. rewrite N.land_spec, N.pow2_bits_eqb.
    destruct (N.eqb_spec n i) as [<-|]; [rewrite E|]; cbn [andb]; auto. apply andb_false_r.
Qed.

Lemma mask_lt : forall b n (s : bool), b < 256 -> n < 8 ->
  (if s then N.ldiff b (N.shiftl 1 n) else N.lor b (N.shiftl 1 n)) < 256.
Proof.
  intros b n s Hb Hn.
  assert (H: forall x, (forall i, 8 <= i -> N.testbit x i = false) -> x < 256).
  { intros x Hx. destruct (N.eq_dec x 0) as [->|Hnz]; [lia|].
    change 256 with (2 ^ 8). apply N.log2_lt_pow2; [lia|].
    destruct (N.lt_ge_cases (N.log2 x) 8) as [|Hge]; auto.
    specialize (Hx _ Hge). rewrite N.bit_log2 in Hx by auto. discriminate. }
  apply H. intros i Hi. rewrite N.shiftl_1_l.
  destruct s; [rewrite N.ldiff_spec | rewrite N.lor_spec];
    rewrite (testbit_small b i 8), ?N.pow2_bits_eqb by auto; auto.
  destruct (N.eqb_spec n i); [lia | reflexivity].
Qed.

Lemma bits_loop_spec : forall n value p base rec,
  N.of_nat n <= p + 1 -> (base + N.to_nat (p / 8) < length rec)%nat -> bytes_ok rec ->
  exists rec', bits_loop true n value (2 ^ (N.of_nat n - 1)) (Z.of_N (p / 8)) (Z.of_N (p mod 8)) base rec
               = Ok rec' /\
    length rec' = length rec /\ bytes_ok rec' /\
    forall k, buf_bit rec' k =
      if (8 * N.of_nat base + p + 1 - N.of_nat n <=? k) && (k <=? 8 * N.of_nat base + p)
      then N.testbit value (k + N.of_nat n - (8 * N.of_nat base + p + 1))
      else buf_bit rec k.
Proof.
  induction n as [|n IH]; intros value p base rec Hn Hl Hok.
  - exists rec. repeat split; auto. intros k.
    destruct (N.leb_spec (8 * N.of_nat base + p + 1 - N.of_nat 0) k); cbn [andb]; auto.
    destruct (N.leb_spec k (8 * N.of_nat base + p)); auto. lia.
  - set (i := (base + N.to_nat (p / 8))%nat) in *.
    assert (Hi: (Z.of_nat base + Z.of_N (p / 8))%Z = Z.of_nat i) by (unfold i; lia).
    cbn [bits_loop]. rewrite Hi.
    rewrite (proj2 (Z.ltb_ge _ _)) by lia. rewrite Nat2Z.id.
    unfold peek. rewrite (nth_error_nth' rec 0) by exact Hl. cbn [bind].
    rewrite N2Z.id.
    assert (Hn1: N.of_nat (S n) - 1 = N.of_nat n) by lia. rewrite Hn1.
    rewrite mask_bit.
    rewrite poke_splice by exact Hl. cbn [bind].
    set (b := nth i rec 0).
    set (nb := if negb (N.testbit value (N.of_nat n)) then N.ldiff b (N.shiftl 1 (p mod 8))
               else N.lor b (N.shiftl 1 (p mod 8))).
    assert (Hp8: p mod 8 < 8) by (apply N.mod_lt; lia).
    assert (Hnb: nb < 256) by (apply mask_lt; auto; apply bytes_ok_nth; auto).
    set (rec1 := splice i [nb] rec).
    assert (Hl1: length rec1 = length rec) by (apply splice_length; cbn [length]; lia).
    assert (Hok1: bytes_ok rec1) by (apply bytes_ok_splice; auto; constructor; auto).
    assert (Hbits: forall k, buf_bit rec1 k =
      if k =? 8 * N.of_nat base + p then N.testbit value (N.of_nat n) else buf_bit rec k).
    { intros k. unfold buf_bit.
      assert (Hd: (8 * N.of_nat base + p) / 8 = N.of_nat i).
      { rewrite N.mul_comm, N.add_comm, N.div_add by lia. unfold i. lia. }
      assert (Hm: (8 * N.of_nat base + p) mod 8 = p mod 8).
      { rewrite N.mul_comm, N.add_comm, N.mod_add by lia. reflexivity. }
      destruct (N.eqb_spec (k / 8) (N.of_nat i)) as [E|E].
      - rewrite E, Nat2N.id.
        replace (nth i rec1 0) with nb.
        2:{ unfold rec1. rewrite <- (Nat.add_0_r i) at 1.
            rewrite (nth_splice_in i [nb] rec 0) by (cbn [length]; lia). reflexivity. }
        fold b. unfold nb. destruct (N.eqb_spec k (8 * N.of_nat base + p)) as [->|Hne].
        + rewrite Hm. destruct (N.testbit value (N.of_nat n)); cbn [negb];
            [rewrite N.lor_spec | rewrite N.ldiff_spec];
            rewrite N.shiftl_1_l, N.pow2_bits_true; [apply orb_true_r | apply andb_false_r].
        + assert (Hkm: k mod 8 <> p mod 8).
          { intro Ek. apply Hne. rewrite (N.div_mod k 8), (N.div_mod (8 * N.of_nat base + p) 8) by lia.
            rewrite Hd, Hm, E, Ek. reflexivity. }
          destruct (N.testbit value (N.of_nat n)); cbn [negb];
            [rewrite N.lor_spec | rewrite N.ldiff_spec];
            rewrite N.shiftl_1_l, N.pow2_bits_false by auto; [apply orb_false_r | apply andb_true_r].
      - destruct (N.eqb_spec k (8 * N.of_nat base + p)) as [->|Hne]; [congruence|].
        unfold rec1. rewrite nth_splice_out by (cbn [length]; lia). reflexivity. }
    destruct n as [|n'].
    + exists rec1. split; [destruct (_ <? 0)%Z; reflexivity|]. repeat split; auto.
      intros k. rewrite Hbits.
      destruct (N.eqb_spec k (8 * N.of_nat base + p)) as [->|Hne].
      * rewrite (proj2 (N.leb_le _ _)), (proj2 (N.leb_le _ _)) by lia. cbn [andb]. f_equal. lia.
      * destruct (N.leb_spec (8 * N.of_nat base + p + 1 - N.of_nat 1) k); cbn [andb]; auto.
        destruct (N.leb_spec k (8 * N.of_nat base + p)); auto. lia.
    + assert (Hp: 1 <= p) by lia.
      assert (Hmask: N.shiftr (2 ^ N.of_nat (S n')) 1 = 2 ^ (N.of_nat (S n') - 1)).
      { rewrite N.shiftr_div_pow2, N.pow_1_r.
        replace (N.of_nat (S n')) with (N.succ (N.of_nat (S n') - 1)) at 1 by lia.
        rewrite N.pow_succ_r', N.mul_comm. apply N.div_mul. lia. }
      rewrite Hmask.
      assert (Hstep: (if (Z.of_N (p mod 8) - 1 <? 0)%Z
         then bits_loop true (S n') value (2 ^ (N.of_nat (S n') - 1)) (Z.of_N (p / 8) - 1) 7 base rec1
         else bits_loop true (S n') value (2 ^ (N.of_nat (S n') - 1)) (Z.of_N (p / 8))
                (Z.of_N (p mod 8) - 1) base rec1)
         = bits_loop true (S n') value (2 ^ (N.of_nat (S n') - 1)) (Z.of_N ((p - 1) / 8))
                (Z.of_N ((p - 1) mod 8)) base rec1).
      { destruct (Z.ltb_spec (Z.of_N (p mod 8) - 1) 0).
        - f_equal; lia.
        - f_equal; lia. }
      rewrite Hstep.
      destruct (IH value (p - 1) base rec1) as (rec' & Hr & Hl' & Hok' & Hb').
      * lia.
      * rewrite Hl1. assert ((p - 1) / 8 <= p / 8) by (apply N.div_le_mono; lia). unfold i in Hl. lia.
      * auto.
      * exists rec'. split; [exact Hr|]. split; [lia|]. split; auto.
        intros k. rewrite Hb', Hbits.
        replace (8 * N.of_nat base + (p - 1) + 1) with (8 * N.of_nat base + p) by lia.
        destruct (N.eqb_spec k (8 * N.of_nat base + p)) as [->|Hne].
        -- rewrite (proj2 (N.leb_gt (8 * N.of_nat base + p) (8 * N.of_nat base + (p - 1)))) by lia.
           rewrite andb_false_r.
           rewrite (proj2 (N.leb_le _ _)), (proj2 (N.leb_le _ _)) by lia. cbn [andb]. f_equal. lia.
        -- destruct (N.leb_spec (8 * N.of_nat base + p - N.of_nat (S n')) k);
             destruct (N.leb_spec k (8 * N.of_nat base + (p - 1)));
             destruct (N.leb_spec (8 * N.of_nat base + p + 1 - N.of_nat (S (S n'))) k);
             destruct (N.leb_spec k (8 * N.of_nat base + p)); cbn [andb]; try lia; auto.
           f_equal. lia.
Qed.

(** The value after the store: low [len] bits of [v], the rest as before. *)
Definition merged (len v old : N) : N := v mod 2 ^ len + 2 ^ len * (old / 2 ^ len).

Lemma merged_bits : forall len v old k,
  N.testbit (merged len v old) k = if k <? len then N.testbit v k else N.testbit old k.
Proof.
  intros. unfold merged. rewrite <- lor_shift by (apply N.mod_lt; pose proof (pow2_pos len); lia).
  rewrite N.lor_spec. destruct (N.ltb_spec k len).
  - rewrite N.mod_pow2_bits_low, N.shiftl_spec_low by auto. apply orb_false_r.
  - rewrite N.mod_pow2_bits_high, N.shiftl_spec_high' by auto. cbn [orb].
    rewrite N.div_pow2_bits. f_equal. lia.
Qed.

Lemma put_num_splice : forall len v base rec m,
  bytes_ok rec -> 1 <= len -> len <= 8 * N.of_nat m -> (base + m <= length rec)%nat ->
  put_num len v base rec
  = Ok (splice base (le_bytes m (merged len v (le_num (slice base m rec)))) rec).
Proof.
  intros len v base rec m Hok H1 Hm Hl. unfold put_num, unsigned_to_raw.
  rewrite (proj2 (N.eqb_neq len 0)) by lia.
  rewrite N.add_0_l.
  assert (Hq: Z.quot (Z.of_N (len - 1)) 8 = Z.of_N ((len - 1) / 8)).
  { change 8%Z with (Z.of_N 8). rewrite <- N2Z.inj_quot. reflexivity. }
  assert (Hr: Z.rem (Z.of_N (len - 1)) 8 = Z.of_N ((len - 1) mod 8)).
  { change 8%Z with (Z.of_N 8). rewrite <- N2Z.inj_rem. reflexivity. }
  cbv zeta. rewrite Hq, Hr.
  assert (Hd: (len - 1) / 8 < N.of_nat m) by (apply N.div_lt_upper_bound; lia).
  destruct (bits_loop_spec (N.to_nat len) v (len - 1) base rec) as (rec' & Hrun & Hl' & Hok' & Hb).
  - lia.
  - lia.
  - auto.
  - rewrite N2Nat.id in *. rewrite Hrun. f_equal.
    assert (Hsl: length (le_bytes m (merged len v (le_num (slice base m rec)))) = m)
      by apply le_bytes_length.
    apply list_bits_eq; auto.
    + apply bytes_ok_splice; auto. apply le_bytes_ok.
    + rewrite splice_length; lia.
    + intros k Hk. rewrite Hb. unfold buf_bit at 2.
      set (L := le_bytes m (merged len v (le_num (slice base m rec)))) in *.
      destruct (N.ltb_spec k (8 * N.of_nat base)) as [Hlo|Hlo].
      * rewrite nth_splice_out by lia. fold (buf_bit rec k).
        destruct (N.leb_spec (8 * N.of_nat base + (len - 1) + 1 - len) k); [lia|]. reflexivity.
      * destruct (N.ltb_spec k (8 * (N.of_nat base + N.of_nat m))) as [Hhi|Hhi].
        -- assert (Ek: N.to_nat (k / 8) = (base + N.to_nat ((k - 8 * N.of_nat base) / 8))%nat).
           { replace k with ((k - 8 * N.of_nat base) + N.of_nat base * 8) at 1 by lia.
             rewrite N.div_add by lia. lia. }
           assert (Ekm: k mod 8 = (k - 8 * N.of_nat base) mod 8).
           { replace k with ((k - 8 * N.of_nat base) + N.of_nat base * 8) at 1 by lia.
             apply N.mod_add. lia. }
           assert (Hj: (k - 8 * N.of_nat base) / 8 < N.of_nat m)
             by (apply N.div_lt_upper_bound; lia).
           rewrite Ek, nth_splice_in by lia. rewrite Ekm.
           set (j := k - 8 * N.of_nat base) in *.
           rewrite <- le_num_testbit by apply le_bytes_ok.
           unfold L. rewrite le_num_bytes, pow256, N.mod_pow2_bits_low by lia.
           rewrite merged_bits.
           destruct (N.ltb_spec j len) as [Hj1|Hj1].
           ++ rewrite (proj2 (N.leb_le _ _)), (proj2 (N.leb_le _ _)) by lia. cbn [andb].
              f_equal. lia.
           ++ rewrite (proj2 (N.leb_gt k _)) by lia. rewrite andb_false_r.
              rewrite le_num_testbit by (apply bytes_ok_slice; auto).
              rewrite nth_slice by lia. unfold buf_bit. rewrite Ek, Ekm. reflexivity.
        -- rewrite nth_splice_out.
           ++ rewrite (proj2 (N.leb_gt k _)) by lia. rewrite andb_false_r. reflexivity.
           ++ lia.
           ++ right. rewrite Hsl.
              assert (N.of_nat base + N.of_nat m <= k / 8) by (apply N.div_le_lower_bound; lia). lia.
Qed.

(** Whole bytes: the little-endian bytes of the value. *)
Lemma put_num_bytes : forall m v base rec,
  bytes_ok rec -> (1 <= m)%nat -> (base + m <= length rec)%nat ->
  put_num (8 * N.of_nat m) v base rec = copy_at base (le_bytes m v) rec.
Proof.
  intros m v base rec Hok Hm Hl.
  rewrite (put_num_splice _ v base rec m) by (auto; lia).
  rewrite copy_at_splice by (rewrite le_bytes_length; lia).
  f_equal. f_equal.
  rewrite <- (le_bytes_num (le_bytes m v)), le_bytes_length, le_num_bytes by apply le_bytes_ok.
  unfold merged. rewrite <- pow256.
  rewrite (N.div_small (le_num _)), N.mul_0_r, N.add_0_r; [reflexivity|].
  rewrite pow256. apply le_num_lt_pow; [apply bytes_ok_slice; auto | apply slice_length; lia].
Qed.
