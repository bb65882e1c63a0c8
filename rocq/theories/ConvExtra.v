(** More about conversions: exponential and logarithmic formulas, setting parameters and
    references. *)
From Verif Require Import Base ConvModel ConvSpec ConvProofs.
From Coq Require Import Reals Lra Lia.
From Flocq Require Import Core.Core IEEE754.BinarySingleNaN.
Local Open Scope R_scope.

Lemma div_by_int : forall a b y, finite a -> Rabs (rv a) <= bpow radix2 1023 -> is_int b y -> y <> 0%Z ->
  finite (fdiv a b) /\ rv (fdiv a b) = Rn (rv a / IZR y).
Proof.
  intros a b y Fa Ba [Fb Eb] N.
  assert (N' : IZR y <> 0) by (intro C; apply N; apply eq_IZR; exact C).
  destruct (div_ok a b Fa) as [F E].
  - rewrite Eb. exact N'.
  - rewrite Eb. apply small_fits. unfold Rdiv. rewrite Rabs_mult, Rabs_inv.
    rewrite <- abs_IZR.
    assert (1 <= IZR (Z.abs y)) by (apply IZR_le; lia).
    assert (0 <= Rabs (rv a)) by apply Rabs_pos.
    apply Rle_trans with (Rabs (rv a) * 1).
    + apply Rmult_le_compat_l; auto. rewrite <- Rinv_1. apply Rinv_le; lra.
    + rewrite Rmult_1_r. exact Ba.
  - split; [exact F|]. rewrite E, Eb. reflexivity.
Qed.

Lemma log_first : forall f p0 p1 p2 p3 p4 p5 p6 rest x a0 a1 a2 a5 a6 z,
  is_int p0 a0 -> is_int p1 a1 -> is_int p2 a2 -> is_int p3 0 -> is_int p5 a5 -> is_int p6 a6 ->
  is_int x z -> (Z.abs (z - a6) <= big)%Z -> (Z.abs ((z - a6) * a5) + Z.abs a2 <= big)%Z ->
  let vals := PD p0 :: PD p1 :: PD p2 :: PD p3 :: PD p4 :: PD p5 :: PD p6 :: rest in
  ((a0 = 0 \/ a1 = 0)%Z -> log_like f vals x = Ok None) /\
  ((a0 <> 0 /\ a1 <> 0)%Z -> exists d, finite d /\ rv d = Rn (IZR ((z - a6) * a5 - a2) / IZR a0) /\
     log_like f vals x = Ok (Some (fdiv (f d) p1))).
Proof.
  intros f p0 p1 p2 p3 p4 p5 p6 rest x a0 a1 a2 a5 a6 z H0 H1 H2 H3 H5 H6 Hx B0 B1 vals.
  assert (E : log_like f vals x =
    if feq p3 fzero then
      if feq p0 fzero then Ok None
      else if feq p1 fzero then Ok None
      else Ok (Some (fdiv (f (fdiv (fsub (fmul (fsub x p6) p5) p2) p0)) p1))
    else if feq p0 fzero then
      if feq (fsub x p6) fzero then Ok None
      else if feq p4 fzero then Ok None
      else Ok (Some (fdiv (f (fdiv (fsub (fdiv p2 (fsub x p6)) p5) p3)) p4))
    else Ok None) by reflexivity.
  rewrite E. rewrite (feq_zero_int _ _ H3), (feq_zero_int _ _ H0), (feq_zero_int _ _ H1). cbn [Z.eqb].
  assert (Ht : is_int (fsub x p6) (z - a6)) by (apply sub_int; auto).
  assert (Hm : is_int (fmul (fsub x p6) p5) ((z - a6) * a5)) by (apply mul_int; auto; lia).
  assert (Hn : is_int (fsub (fmul (fsub x p6) p5) p2) ((z - a6) * a5 - a2)) by (apply sub_int; auto; lia).
  split.
  - intros [-> | ->]; cbn [Z.eqb]; [reflexivity|]. destruct (a0 =? 0)%Z; reflexivity.
  - intros [N0 N1]. destruct (Z.eqb_spec a0 0); [contradiction|]. destruct (Z.eqb_spec a1 0); [contradiction|].
    exists (fdiv (fsub (fmul (fsub x p6) p5) p2) p0).
    destruct (div_int _ _ _ _ Hn H0 ltac:(lia) N0) as [F V]. auto.
Qed.

Lemma log_second : forall f p0 p1 p2 p3 p4 p5 p6 rest x a2 a3 a4 a5 a6 z,
  is_int p0 0 -> is_int p2 a2 -> is_int p3 a3 -> is_int p4 a4 -> is_int p5 a5 -> is_int p6 a6 ->
  a3 <> 0%Z -> is_int x z -> (Z.abs (z - a6) <= big)%Z -> (Z.abs a2 <= big)%Z -> (Z.abs a5 <= big)%Z ->
  let vals := PD p0 :: PD p1 :: PD p2 :: PD p3 :: PD p4 :: PD p5 :: PD p6 :: rest in
  ((z = a6 \/ a4 = 0)%Z -> log_like f vals x = Ok None) /\
  ((z <> a6 /\ a4 <> 0)%Z -> exists d, finite d /\
     rv d = Rn (Rn (Rn (IZR a2 / IZR (z - a6)) - IZR a5) / IZR a3) /\
     log_like f vals x = Ok (Some (fdiv (f d) p4))).
Proof.
  intros f p0 p1 p2 p3 p4 p5 p6 rest x a2 a3 a4 a5 a6 z H0 H2 H3 H4 H5 H6 N3 Hx B0 B2 B5 vals.
  assert (E : log_like f vals x =
    if feq p3 fzero then
      if feq p0 fzero then Ok None
      else if feq p1 fzero then Ok None
      else Ok (Some (fdiv (f (fdiv (fsub (fmul (fsub x p6) p5) p2) p0)) p1))
    else if feq p0 fzero then
      if feq (fsub x p6) fzero then Ok None
      else if feq p4 fzero then Ok None
      else Ok (Some (fdiv (f (fdiv (fsub (fdiv p2 (fsub x p6)) p5) p3)) p4))
    else Ok None) by reflexivity.
  assert (Ht : is_int (fsub x p6) (z - a6)) by (apply sub_int; auto).
  rewrite E, (feq_zero_int _ _ H3), (feq_zero_int _ _ H0), (feq_zero_int _ _ Ht), (feq_zero_int _ _ H4).
  destruct (Z.eqb_spec a3 0); [contradiction|]. cbn [Z.eqb]. split.
  - intros [-> | ->]; [rewrite Z.sub_diag; reflexivity|]. destruct (z - a6 =? 0)%Z; reflexivity.
  - intros [Nz N4]. destruct (Z.eqb_spec (z - a6) 0); [lia|]. destruct (Z.eqb_spec a4 0); [contradiction|].
    destruct (div_int _ _ _ _ H2 Ht B2 n0) as [F1 V1].
    assert (Q : Rabs (rv (fdiv p2 (fsub x p6))) <= bpow radix2 53).
    { rewrite V1. apply rn_abs_le; [apply dbl_bpow; lia|]. unfold Rdiv. rewrite Rabs_mult, Rabs_inv.
      rewrite <- !abs_IZR.
      assert (1 <= IZR (Z.abs (z - a6))) by (apply IZR_le; lia).
      assert (0 <= IZR (Z.abs a2)) by (apply IZR_le; lia).
      apply Rle_trans with (IZR (Z.abs a2) * 1).
      - apply Rmult_le_compat_l; auto. rewrite <- Rinv_1. apply Rinv_le; lra.
      - rewrite Rmult_1_r. change (bpow radix2 53) with (IZR big). apply IZR_le; exact B2. }
    destruct H5 as [F5 V5].
    assert (Q5 : Rabs (rv p5) <= bpow radix2 53).
    { rewrite V5, <- abs_IZR. change (bpow radix2 53) with (IZR big). apply IZR_le; exact B5. }
    assert (S : Rabs (rv (fdiv p2 (fsub x p6)) - rv p5) <= bpow radix2 54).
    { apply Rle_trans with (Rabs (rv (fdiv p2 (fsub x p6))) + Rabs (rv p5)).
      - unfold Rminus. eapply Rle_trans; [apply Rabs_triang|]. rewrite Rabs_Ropp. lra.
      - replace (bpow radix2 54) with (2 * bpow radix2 53) by
          (change (bpow radix2 54) with (IZR (2 * 2 ^ 53)); change (bpow radix2 53) with (IZR (2 ^ 53));
           rewrite mult_IZR; reflexivity).
        lra. }
    destruct (sub_ok _ _ F1 F5) as [F2 V2].
    { apply small_fits. eapply Rle_trans; [exact S|]. apply bpow_le; lia. }
    destruct (div_by_int (fsub (fdiv p2 (fsub x p6)) p5) p3 a3 F2) as [F3 V3]; auto.
    { rewrite V2. apply rn_abs_le; [apply dbl_bpow; lia|]. eapply Rle_trans; [exact S|]. apply bpow_le; lia. }
    eexists. split; [exact F3|]. split; [|reflexivity]. rewrite V3, V2, V1, V5. reflexivity.
Qed.

Lemma log_neither : forall f p0 p1 p2 p3 rest x a0 a3,
  is_int p0 a0 -> is_int p3 a3 -> a0 <> 0%Z -> a3 <> 0%Z ->
  log_like f (PD p0 :: PD p1 :: PD p2 :: PD p3 :: rest) x = Ok None.
Proof.
  intros f p0 p1 p2 p3 rest x a0 a3 H0 H3 N0 N3. unfold log_like.
  destruct (_ <? _)%nat; [reflexivity|]. cbn [param nth_error].
  change (param (PD p0 :: PD p1 :: PD p2 :: PD p3 :: rest) 3) with p3.
  change (param (PD p0 :: PD p1 :: PD p2 :: PD p3 :: rest) 0) with p0.
  rewrite (feq_zero_int _ _ H3), (feq_zero_int _ _ H0).
  destruct (Z.eqb_spec a3 0); [contradiction|]. destruct (Z.eqb_spec a0 0); [contradiction|]. reflexivity.
Qed.

(** Setting the element [i] of a list that grows as needed. *)
Lemma replace_at_nth : forall {A} (l : list A) i v j, (i < length l)%nat ->
  nth_error (replace_at i v l) j = if (j =? i)%nat then Some v else nth_error l j.
Proof.
  induction l as [|a l IH]; intros i v j H; [cbn in H; lia|]. cbn [length] in H.
  destruct i as [|i], j as [|j]; cbn [replace_at nth_error Nat.eqb]; try reflexivity.
  apply IH. lia.
Qed.

Lemma grow_nth : forall {A} (l : list A) z i v j,
  nth_error (replace_at i v (l ++ repeat z (S i - length l))) j
  = if (j =? i)%nat then Some v
    else if (j <? length l)%nat then nth_error l j
    else if (j <? i)%nat then Some z else None.
Proof.
  intros A l z i v j. rewrite replace_at_nth by (rewrite app_length, repeat_length; lia).
  destruct (Nat.eqb_spec j i) as [|N]; [reflexivity|].
  destruct (Nat.ltb_spec j (length l)) as [L|L]; [apply nth_error_app1; exact L|].
  rewrite nth_error_app2 by exact L.
  destruct (Nat.ltb_spec j i) as [Q|Q].
  - rewrite (nth_error_nth' _ z) by (rewrite repeat_length; lia). f_equal. apply nth_repeat.
  - apply nth_error_None. rewrite repeat_length. lia.
Qed.
