(** The arithmetic of times. *)
From Verif Require Import Base ConvModel ConvSpec ConvProofs ValueSpec.
From Coq Require Import Reals Lra Psatz.
From Flocq Require Import Core.Core IEEE754.BinarySingleNaN Relative.
Local Open Scope R_scope.

Lemma of_Z_round : forall z, (Z.abs z <= 2 ^ 63)%Z -> finite (of_Z z) /\ rv (of_Z z) = Rn (IZR z) /\ Rabs (Rn (IZR z)) <= bpow radix2 63.
Proof.
  intros z H. assert (A : Rabs (IZR z) <= bpow radix2 63).
  { rewrite <- abs_IZR. change (bpow radix2 63) with (IZR (2 ^ 63)). apply IZR_le. exact H. }
  assert (B : Rabs (Rn (IZR z)) <= bpow radix2 63) by (apply rn_abs_le; [apply dbl_bpow; lia|exact A]).
  unfold of_Z. pose proof (binary_normalize_correct 53 1024 prec53 emax1024 mode_NE z 0 false) as C.
  cbv zeta in C. rewrite rn_round in C.
  assert (E : F2R (Float radix2 z 0) = IZR z) by (unfold F2R; cbn [Fnum Fexp bpow]; lra).
  rewrite E in C. rewrite Rlt_bool_true in C.
  2:{ apply Rle_lt_trans with (bpow radix2 63); [exact B|apply bpow_lt; lia]. }
  destruct C as (C1 & C2 & _). split; [exact C2|]. split; [exact C1|exact B].
Qed.

Definition since (T ts : N) : Z := (Z.of_N ts - Z.of_N T)%Z.
Definition giga : Z := 1000000000%Z.
Lemma giga_pos : 0 < IZR giga. Proof. unfold giga. lra. Qed.
Lemma since_small : forall T ts, (T < 2 ^ 63)%N -> (ts < 2 ^ 63)%N -> (Z.abs (since T ts) <= 2 ^ 63)%Z.
Proof. intros T ts A B. unfold since. change (2 ^ 63)%Z with 9223372036854775808%Z. change (2 ^ 63)%N with 9223372036854775808%N in *. lia. Qed.

Lemma div_small : forall x, Rabs x <= bpow radix2 63 -> Rabs (x / IZR giga) <= bpow radix2 63.
Proof.
  intros x H. unfold Rdiv. rewrite Rabs_mult, Rabs_inv, (Rabs_pos_eq (IZR giga)) by (apply Rlt_le, giga_pos).
  apply Rle_trans with (Rabs x * 1); [|rewrite Rmult_1_r; exact H]. apply Rmult_le_compat_l; [apply Rabs_pos|].
  rewrite <- Rinv_1. apply Rinv_le; [lra|unfold giga; lra].
Qed.

Lemma seconds_ok : forall T ts, (T < 2 ^ 63)%N -> (ts < 2 ^ 63)%N ->
  finite (seconds T ts) /\ rv (seconds T ts) = Rn (Rn (IZR (since T ts)) / IZR giga).
Proof.
  intros T ts A B. destruct (of_Z_round _ (since_small _ _ A B)) as (F & E & L).
  destruct (of_Z_ok giga) as [GF GE]; [unfold giga, big; lia|].
  unfold seconds. fold (since T ts). change 1000000000%Z with giga.
  pose proof (div_ok (of_Z (since T ts)) (of_Z giga) F) as D. rewrite E, GE in D. apply D.
  - pose proof giga_pos. lra.
  - apply small_fits. apply Rle_trans with (bpow radix2 63); [apply div_small; exact L|apply bpow_le; lia].
Qed.

Lemma seconds_exact : forall T ts, (T < 2 ^ 63)%N -> (ts < 2 ^ 63)%N -> (Z.abs (since T ts) <= big)%Z ->
  rv (seconds T ts) = Rn (IZR (since T ts) / IZR giga).
Proof.
  intros T ts A B L. destruct (seconds_ok T ts A B) as [_ E]. rewrite E. f_equal. f_equal. apply rn_id, int_double. exact L.
Qed.

Lemma seconds_mono : forall T t1 t2, (T < 2 ^ 63)%N -> (t2 < 2 ^ 63)%N -> (t1 <= t2)%N -> rv (seconds T t1) <= rv (seconds T t2).
Proof.
  intros T t1 t2 A B L. assert (B1 : (t1 < 2 ^ 63)%N) by lia.
  destruct (seconds_ok T t1 A B1) as [_ E1]. destruct (seconds_ok T t2 A B) as [_ E2]. rewrite E1, E2.
  apply rn_le. unfold Rdiv. apply Rmult_le_compat_r; [apply Rlt_le, Rinv_0_lt_compat, giga_pos|]. apply rn_le, IZR_le. unfold since. lia.
Qed.

(** Rounding of times below 2^23 seconds. *)
Definition near : Z := (2 ^ 23 * giga)%Z.
Lemma rn_near : forall x, Rabs x < bpow radix2 23 -> Rabs (Rn x - x) <= bpow radix2 (-31).
Proof.
  intros x H. unfold Rn. apply Rle_trans with (/ 2 * ulp radix2 (FLT_exp (-1074) 53) x).
  - apply error_le_half_ulp; auto with typeclass_instances.
  - apply Rle_trans with (/ 2 * bpow radix2 (-30)).
    + apply Rmult_le_compat_l; [lra|].
      destruct (Req_dec x 0) as [->|N0].
      * rewrite ulp_FLT_0. apply bpow_le. lia. exact prec53.
      * rewrite ulp_neq_0 by exact N0. apply bpow_le. unfold cexp, FLT_exp.
        assert (M : (mag radix2 x <= 23)%Z) by (apply mag_le_bpow; auto). lia.
    + change (bpow radix2 (-30)) with (/ IZR (2 ^ 30)). change (bpow radix2 (-31)) with (/ IZR (2 ^ 31)).
      replace (IZR (2 ^ 31)) with (2 * IZR (2 ^ 30)) by (rewrite <- mult_IZR; reflexivity). rewrite Rinv_mult. lra.
Qed.

Lemma near_real : forall z, (Z.abs z < near)%Z -> Rabs (IZR z / IZR giga) < bpow radix2 23.
Proof.
  intros z H. unfold Rdiv. rewrite Rabs_mult, Rabs_inv, (Rabs_pos_eq (IZR giga)), <- abs_IZR by (apply Rlt_le, giga_pos).
  apply Rmult_lt_reg_r with (IZR giga); [apply giga_pos|]. rewrite Rmult_assoc, Rinv_l, Rmult_1_r by (pose proof giga_pos; lra).
  change (bpow radix2 23) with (IZR (2 ^ 23)). rewrite <- mult_IZR. apply IZR_lt. exact H.
Qed.
Lemma near_big : forall z, (Z.abs z < near)%Z -> (Z.abs z <= big)%Z.
Proof. intros z H. unfold near, giga, big in *. lia. Qed.

Lemma half_small : 2 * bpow radix2 (-31) < / IZR giga.
Proof.
  change (bpow radix2 (-31)) with (/ IZR (2 ^ 31)). unfold giga. change (2 ^ 31)%Z with 2147483648%Z.
  apply Rmult_lt_reg_r with (2147483648 * 1000000000); [lra|]. field_simplify; lra.
Qed.

Lemma seconds_strict : forall T t1 t2, (T < 2 ^ 63)%N -> (t2 < 2 ^ 63)%N -> (t1 < t2)%N ->
  (Z.abs (since T t1) < near)%Z -> (Z.abs (since T t2) < near)%Z -> rv (seconds T t1) < rv (seconds T t2).
Proof.
  intros T t1 t2 A B L N1 N2. assert (B1 : (t1 < 2 ^ 63)%N) by lia.
  rewrite !seconds_exact by (auto using near_big).
  pose proof (rn_near _ (near_real _ N1)) as R1. pose proof (rn_near _ (near_real _ N2)) as R2.
  assert (D : IZR (since T t1) / IZR giga + / IZR giga <= IZR (since T t2) / IZR giga).
  { replace (IZR (since T t1) / IZR giga + / IZR giga) with ((IZR (since T t1) + 1) / IZR giga) by (field; pose proof giga_pos; lra).
    unfold Rdiv. apply Rmult_le_compat_r; [apply Rlt_le, Rinv_0_lt_compat, giga_pos|]. rewrite <- plus_IZR. apply IZR_le. unfold since. lia. }
  pose proof half_small. apply Rabs_le_inv in R1. apply Rabs_le_inv in R2.
  set (a := IZR (since T t1) / IZR giga) in *. set (b := IZR (since T t2) / IZR giga) in *. lra.
Qed.

Lemma seconds_error : forall T ts, (T < 2 ^ 63)%N -> (ts < 2 ^ 63)%N -> (Z.abs (since T ts) <= big)%Z ->
  Rabs (rv (seconds T ts) - IZR (since T ts) / IZR giga) <= bpow radix2 (-53) * Rabs (IZR (since T ts) / IZR giga).
Proof.
  intros T ts A B L. rewrite seconds_exact by auto. set (z := since T ts) in *.
  destruct (Z.eq_dec z 0) as [->|NZ].
  - unfold Rdiv. rewrite Rmult_0_l. unfold Rn. rewrite round_0; auto with typeclass_instances. rewrite Rminus_0_r, Rabs_R0. lra.
  - replace (bpow radix2 (-53)) with (/ 2 * bpow radix2 (- 53 + 1)) by (change (- 53 + 1)%Z with (1 + -53)%Z; rewrite bpow_plus; change (bpow radix2 1) with 2; lra).
    apply (relative_error_N_FLT radix2 (-1074) 53); [exact prec53|].
    apply Rle_trans with (bpow radix2 (-30)).
    + apply bpow_le. lia.
    + unfold Rdiv. rewrite Rabs_mult, Rabs_inv, (Rabs_pos_eq (IZR giga)), <- abs_IZR by (apply Rlt_le, giga_pos).
      apply Rle_trans with (1 * / IZR giga).
      * rewrite Rmult_1_l. change (bpow radix2 (-30)) with (/ IZR (2 ^ 30)). apply Rinv_le; [apply giga_pos|apply IZR_le; unfold giga; lia].
      * apply Rmult_le_compat_r; [apply Rlt_le, Rinv_0_lt_compat, giga_pos|]. apply IZR_le. lia.
Qed.

(** The whole seconds. *)
Lemma whole_pos : forall z, (0 <= z < near)%Z -> Ztrunc (Rn (IZR z / IZR giga)) = (z / giga)%Z.
Proof.
  intros z [H0 H1]. assert (N0 : (Z.abs z < near)%Z) by lia. pose proof (rn_near _ (near_real _ N0)) as R. apply Rabs_le_inv in R.
  assert (DM := Z.div_mod z giga ltac:(discriminate)). assert (MB := Z.mod_pos_bound z giga ltac:(reflexivity)).
  set (q := (z / giga)%Z) in *. set (r := (z mod giga)%Z) in *.
  assert (Q0 : (0 <= q)%Z) by (apply Z.div_pos; [lia|reflexivity]).
  assert (QB : (q <= big)%Z). { unfold big, near, giga in *. nia. }
  assert (EQ : IZR z / IZR giga = IZR q + IZR r / IZR giga).
  { rewrite DM, plus_IZR, mult_IZR. field. pose proof giga_pos. lra. }
  assert (R0 : 0 <= IZR r / IZR giga).
  { apply Rmult_le_pos; [apply IZR_le; lia|apply Rlt_le, Rinv_0_lt_compat, giga_pos]. }
  assert (R1 : IZR r / IZR giga <= 1 - / IZR giga).
  { replace (1 - / IZR giga) with (IZR (giga - 1) / IZR giga) by (rewrite minus_IZR; field; pose proof giga_pos; lra).
    unfold Rdiv. apply Rmult_le_compat_r; [apply Rlt_le, Rinv_0_lt_compat, giga_pos|]. apply IZR_le. lia. }
  assert (LO : IZR q <= Rn (IZR z / IZR giga)).
  { rewrite <- (rn_id (IZR q)) by (apply int_double; lia). apply rn_le. rewrite EQ. lra. }
  assert (HI : Rn (IZR z / IZR giga) < IZR q + 1).
  { pose proof half_small. rewrite EQ in *. assert (0 < bpow radix2 (-31)) by apply bpow_gt_0. lra. }
  rewrite Ztrunc_floor by (apply Rle_trans with (IZR q); [apply IZR_le; lia|exact LO]).
  apply Zfloor_imp. rewrite plus_IZR. split; assumption.
Qed.
Lemma whole : forall z, (Z.abs z < near)%Z -> Ztrunc (Rn (IZR z / IZR giga)) = Z.quot z giga.
Proof.
  intros z H. destruct (Z_le_gt_dec 0 z) as [P|P].
  - rewrite whole_pos by lia. symmetry. apply Z.quot_div_nonneg; [lia|reflexivity].
  - assert (E : z = (- - z)%Z) by lia. rewrite E, opp_IZR. unfold Rdiv. rewrite Ropp_mult_distr_l_reverse. unfold Rn.
    rewrite round_NE_opp. rewrite Ztrunc_opp. fold (Rn (IZR (- z) * / IZR giga)). change (IZR (- z) * / IZR giga) with (IZR (- z) / IZR giga).
    rewrite whole_pos by lia. rewrite Z.quot_opp_l by discriminate. f_equal. symmetry. apply Z.quot_div_nonneg; [lia|reflexivity].
Qed.
Lemma seconds_whole : forall T ts, (T < 2 ^ 63)%N -> (ts < 2 ^ 63)%N -> (Z.abs (since T ts) < near)%Z ->
  Btrunc (seconds T ts) = Z.quot (since T ts) giga.
Proof.
  intros T ts A B L. pose proof (Btrunc_correct 53 1024 emax1024 (seconds T ts)) as C. rewrite round_FIX_IZR in C. apply eq_IZR in C. rewrite C.
  fold (rv (seconds T ts)). rewrite seconds_exact by (auto using near_big). apply whole. exact L.
Qed.
