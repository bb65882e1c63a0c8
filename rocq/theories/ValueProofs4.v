(** SetTimestamp as a call of SetChannelValue. *)
From Coq Require Import Reals Lra Lia.
From Flocq Require Import Core IEEE754.BinarySingleNaN.
From Verif Require Import Base BlockModel ConvModel CcModel CcProofs ConvSpec ConvProofs QueueModel StreamModel ChannelModel ChannelSpec HistProofs MetaModel MeasModel ValueModel ValueSpec.
Local Open Scope N_scope.
Local Open Scope list_scope.

Lemma trunc_sign : forall t : dbl, is_finite t = true ->
  Z.max 0 (Btrunc t) = Btrunc (if flt t fzero then fzero else t).
Proof.
  intros t F. destruct zero_int as [Z1 Z2]. rewrite flt_ok by auto. rewrite Z2.
  pose proof (Btrunc_correct 53 1024 emax1024 t) as C. rewrite round_FIX_IZR in C. apply eq_IZR in C.
  destruct (Rlt_bool_spec (rv t) 0) as [L|L].
  - assert (E : Btrunc fzero = 0%Z) by (vm_compute; reflexivity). rewrite E, C. rewrite Z.max_l; auto.
    rewrite Ztrunc_ceil by (apply Rlt_le; exact L). apply Zceil_glb. apply Rlt_le. exact L.
  - rewrite Z.max_r; [reflexivity|]. rewrite C, Ztrunc_floor by exact L. apply Zfloor_lub. exact L.
Qed.

Lemma put_zero : forall c le buf n v, ch_byte c < 2 ^ 64 -> put c le buf n v 0 = poke c (enc le n v) buf.
Proof.
  intros c le buf n v L. unfold put, poke. rewrite N.mul_0_r. change (w64 0) with 0. rewrite N.add_0_r.
  unfold w64. rewrite N.mod_small by exact L. reflexivity.
Qed.
Lemma fits_zero : forall c buf, placed c (N.of_nat (length buf)) -> 0 < data_bytes c /\ ch_byte c < 2 ^ 64 /\
  too_big c buf 0 = false /\ too_big_be c buf 0 = false /\ buf <> [].
Proof.
  intros c buf P. pose proof (pl_data _ _ P) as D. pose proof (pl_cg _ _ P) as G. pose proof (pl_len _ _ P) as L. pose proof (pl_size _ _ P) as Sz.
  assert (DB : 0 < data_bytes c <= 8).
  { unfold num_size in Sz. unfold data_bytes. destruct (ch_dtype c); try destruct Sz as [->|[->|[->| ->]]]; try destruct Sz as [->| ->]; vm_compute; intuition discriminate. }
  assert (EL : 1 <= elems c) by (unfold elems; lia).
  assert (B : ch_byte c + data_bytes c <= N.of_nat (length buf)).
  { apply (N.le_trans _ (ch_byte c + data_bytes c * elems c)); [|lia]. clear - EL. nia. }
  change (2 ^ 28) with 268435456 in L. change (2 ^ 64) with 18446744073709551616.
  split; [lia|]. split; [lia|]. unfold too_big, too_big_be. change (w64 (0 + 1)) with 1. rewrite N.mul_1_r, N.mul_0_r.
  unfold w64 at 1 2 3 4. change (2 ^ 64) with 18446744073709551616. rewrite (N.mod_small 0) by lia.
  rewrite (N.mod_small (data_bytes c)) by lia. rewrite !N.mod_small by lia.
  split; [apply N.ltb_ge; lia|]. split; [apply N.ltb_ge; lia|]. intros ->. cbn in B. lia.
Qed.

Lemma set_valid_off : forall c buf v i, ch_invalid c = false -> set_valid c buf v i = buf.
Proof. intros c buf v i E. unfold set_valid. rewrite E. reflexivity. Qed.

Lemma be_enc : forall le k x y, x mod 256 ^ N.of_nat k = y mod 256 ^ N.of_nat k -> enc le k x = enc le k y.
Proof.
  assert (L : forall k x y, x mod 256 ^ N.of_nat k = y mod 256 ^ N.of_nat k -> le_bytes k x = le_bytes k y).
  { induction k as [|k IH]; intros x y E; [reflexivity|]. cbn [le_bytes].
    assert (P : 256 ^ N.of_nat (S k) = 256 * 256 ^ N.of_nat k) by (rewrite Nat2N.inj_succ, N.pow_succ_r'; reflexivity).
    assert (Q : 256 ^ N.of_nat k <> 0) by (apply N.pow_nonzero; discriminate).
    rewrite P in E. rewrite !N.mod_mul_r in E by (auto; discriminate).
    assert (A : x mod 256 = y mod 256).
    { apply (f_equal (fun z => z mod 256)) in E. rewrite !(N.mul_comm 256), !N.mod_add, !N.mod_mod in E by discriminate. exact E. }
    f_equal; [unfold w8; exact A|]. apply IH. rewrite A in E. lia. }
  intros [] k x y E; unfold enc; [apply L; exact E|]. unfold be_bytes. f_equal. apply L. exact E.
Qed.

Lemma signed_mod : forall k z, (k <= 8)%nat -> Z.to_N (z mod 256 ^ Z.of_nat k) mod 256 ^ N.of_nat k = to_u64 z mod 256 ^ N.of_nat k.
Proof.
  intros k z K. unfold to_u64. assert (P : (0 < 256 ^ Z.of_nat k)%Z) by (apply Z.pow_pos_nonneg; lia).
  assert (C : Z.of_N (256 ^ N.of_nat k) = (256 ^ Z.of_nat k)%Z) by (rewrite N2Z.inj_pow, nat_N_Z; reflexivity).
  apply N2Z.inj. rewrite !N2Z.inj_mod, C, !Z2N.id by (apply Z.mod_pos_bound; lia || reflexivity).
  rewrite Z.mod_mod by lia.
  replace (2 ^ 64)%Z with (256 ^ Z.of_nat k * 256 ^ Z.of_nat (8 - k))%Z.
  - rewrite Z.rem_mul_r by (try apply Z.pow_pos_nonneg; lia). rewrite Z.mul_comm, Z.mod_add, Z.mod_mod by lia. reflexivity.
  - rewrite <- Z.pow_add_r by lia. replace (Z.of_nat k + Z.of_nat (8 - k))%Z with 8%Z by lia. reflexivity.
Qed.

(** SetTimestamp is SetChannelValue of the time. *)
Lemma set_time : forall d2f c rec t v, (forall x, d2f x < 2 ^ 32) -> placed c (N.of_nat (length rec)) -> ch_invalid c = false ->
  time_value c t = Some v ->
  set_timestamp d2f c None t rec = set_channel d2f c rec v true 0 /\ value_fits d2f c v.
Proof.
  intros d2f c rec t v D P V E. destruct (fits_zero c rec P) as (D0 & BB & TB & TBB & NE). pose proof (pl_size _ _ P) as Sz.
  unfold set_timestamp, set_channel, set_unsigned_le, set_unsigned_be, set_signed, set_float, put_int, value_fits. unfold num_size in Sz.
  unfold time_value in E. destruct rec as [|r0 rec0] eqn:ER; [congruence|]. rewrite <- ER in *. clear ER r0 rec0 NE.
  assert (UNS : forall le k, ch_bits c = 8 * N.of_nat k -> int_bytes k = true -> 
     (let z := Z.max 0 (Btrunc t) in if is_finite t && (z <? 2 ^ Z.of_N (ch_bits c))%Z then Some (VU (Z.to_N z)) else None) = Some v ->
     exists u, v = VU u /\ u < 2 ^ ch_bits c /\ poke_num le k (cast_unsigned k (if flt t fzero then fzero else t)) c rec = put c le rec k u 0).
  { intros le k BK IB X. cbv zeta in X. destruct (is_finite t) eqn:F; [|discriminate X]. cbn [andb] in X.
    destruct (Z.ltb_spec (Z.max 0 (Btrunc t)) (2 ^ Z.of_N (ch_bits c))%Z) as [L|L]; [|discriminate X].
    exists (Z.to_N (Z.max 0 (Btrunc t))). split; [congruence|]. 
    assert (PW : (2 ^ Z.of_N (ch_bits c) = 256 ^ Z.of_nat k)%Z).
    { rewrite BK. change 256%Z with (2 ^ 8)%Z. rewrite <- Z.pow_mul_r by lia. f_equal. lia. }
    split.
    - apply N2Z.inj_lt. rewrite Z2N.id by lia. rewrite N2Z.inj_pow. exact L.
    - unfold poke_num. rewrite IB, put_zero by exact BB. unfold cast_unsigned.
      pose proof (trunc_sign t F) as TS. rewrite <- PW. destruct (flt t fzero).
      + change (is_finite fzero) with true. cbv iota. rewrite <- TS.
        rewrite (proj2 (Z.leb_le 0 (Z.max 0 (Btrunc t)))) by lia. rewrite (proj2 (Z.ltb_lt _ _) L). reflexivity.
      + rewrite F, TS. rewrite TS in L. assert (L0 : (0 <= Btrunc t)%Z) by lia.
        rewrite (proj2 (Z.leb_le _ _) L0). rewrite (proj2 (Z.ltb_lt _ _) L). reflexivity. }
  assert (SIG : forall le k, ch_bits c = 8 * N.of_nat k -> int_bytes k = true ->
     (let z := Btrunc t in let m := (2 ^ (Z.of_N (ch_bits c) - 1))%Z in if is_finite t && (- m <=? z)%Z && (z <? m)%Z then Some (VS z) else None) = Some v ->
     exists z, v = VS z /\ (- Z.of_N (2 ^ (ch_bits c - 1)) <= z < Z.of_N (2 ^ (ch_bits c - 1)))%Z /\
       poke_num le k (cast_signed k t) c rec = put c le rec k (to_u64 z) 0).
  { intros le k BK IB X. cbv zeta in X. destruct (is_finite t) eqn:F; [|discriminate X]. cbn [andb] in X.
    set (m := (2 ^ (Z.of_N (ch_bits c) - 1))%Z) in *.
    destruct (Z.leb_spec (- m) (Btrunc t)) as [L1|L1]; [|discriminate X]. cbn [andb] in X.
    destruct (Z.ltb_spec (Btrunc t) m) as [L2|L2]; [|discriminate X].
    exists (Btrunc t). split; [congruence|].
    assert (K0 : (1 <= k <= 8)%nat) by (destruct k as [|[|[|[|[|[|[|[|[|k]]]]]]]]]; cbn in IB; try discriminate IB; lia).
    assert (PM : m = (256 ^ Z.of_nat k / 2)%Z).
    { unfold m. rewrite BK. change 256%Z with (2 ^ 8)%Z. rewrite <- Z.pow_mul_r by lia.
      replace (8 * Z.of_nat k)%Z with (Z.succ (8 * Z.of_nat k - 1)) by lia. rewrite Z.pow_succ_r by lia.
      rewrite (Z.mul_comm 2), Z.div_mul by lia. f_equal. lia. }
    assert (PN : Z.of_N (2 ^ (ch_bits c - 1)) = m).
    { unfold m. rewrite N2Z.inj_pow. f_equal. rewrite N2Z.inj_sub by lia. reflexivity. }
    rewrite PN. split; [lia|].
    unfold poke_num. rewrite IB, put_zero by exact BB. unfold cast_signed. rewrite F, <- PM.
    rewrite (proj2 (Z.leb_le _ _) L1), (proj2 (Z.ltb_lt _ _) L2). cbn [andb]. f_equal. apply be_enc. apply signed_mod. lia. }
  assert (DB : forall k, ch_bits c = 8 * N.of_nat k -> data_bytes c = N.of_nat k /\ N.to_nat (ch_bits c / 8) = k).
  { intros k BK. unfold data_bytes. rewrite BK. rewrite N.mul_comm, N.mod_mul, N.div_mul by discriminate. cbn [N.ltb]. split; [cbn; lia|lia]. }
  assert (WHICH : exists k, ch_bits c = 8 * N.of_nat k /\ In k [1%nat; 2%nat; 4%nat; 8%nat] /\
            match ch_dtype c with FloatLe | FloatBe => In k [4%nat; 8%nat] | _ => True end).
  { destruct (ch_dtype c); try (exfalso; exact Sz);
      first [ destruct Sz as [->|[->|[->| ->]]] | destruct Sz as [->| ->] ];
      first [ exists 1%nat; split; [reflexivity|split; [cbn; tauto|first [exact Logic.I | cbn; tauto]]]
            | exists 2%nat; split; [reflexivity|split; [cbn; tauto|first [exact Logic.I | cbn; tauto]]]
            | exists 4%nat; split; [reflexivity|split; [cbn; tauto|first [exact Logic.I | cbn; tauto]]]
            | exists 8%nat; split; [reflexivity|split; [cbn; tauto|first [exact Logic.I | cbn; tauto]]] ]. }
  destruct WHICH as (k & BK & IK & FK). destruct (DB k BK) as [DB1 DB2]. rewrite DB2, DB1. clear Sz.
  assert (IB : int_bytes k = true) by (cbn [In] in IK; destruct IK as [<-|[<-|[<-|[<-|[]]]]]; reflexivity).
  rewrite TB, TBB, !set_valid_off by exact V.
  destruct rec as [|r0 rec0] eqn:ER; [exfalso; clear - P D0; pose proof (pl_data _ _ P); pose proof (pl_cg _ _ P); unfold elems in *; cbn [length] in *; nia|].
  rewrite <- ER in *. clear ER.
  destruct (ch_dtype c); try discriminate E.
  - destruct (UNS true k BK IB E) as (u & -> & U1 & U2). rewrite U2. split; [|exact U1].
    cbn [In] in IK. destruct IK as [<-|[<-|[<-|[<-|[]]]]]; reflexivity.
  - destruct (UNS false k BK IB E) as (u & -> & U1 & U2). rewrite U2. split; [|exact U1].
    cbn [In] in IK. destruct IK as [<-|[<-|[<-|[<-|[]]]]]; reflexivity.
  - destruct (SIG true k BK IB E) as (u & -> & U1 & U2). rewrite U2. split; [|exact U1].
    cbn [In] in IK. destruct IK as [<-|[<-|[<-|[<-|[]]]]]; reflexivity.
  - destruct (SIG false k BK IB E) as (u & -> & U1 & U2). rewrite U2. split; [|exact U1].
    cbn [In] in IK. destruct IK as [<-|[<-|[<-|[<-|[]]]]]; reflexivity.
  - assert (v = VF (bits_of_dbl t)) as -> by congruence. cbn [In] in FK. destruct FK as [<-|[<-|[]]]; rewrite BK; cbn [Nat.eqb N.of_nat Pos.of_succ_nat Pos.succ];
      (split; [rewrite put_zero by exact BB; reflexivity|]).
    + exact (D _).
    + exact (bits_small t).
  - assert (v = VF (bits_of_dbl t)) as -> by congruence. cbn [In] in FK. destruct FK as [<-|[<-|[]]]; rewrite BK; cbn [Nat.eqb N.of_nat Pos.of_succ_nat Pos.succ];
      (split; [rewrite put_zero by exact BB; reflexivity|]).
    + exact (D _).
    + exact (bits_small t).
Qed.
