(** Proofs about numeric conversions. *)
From Verif Require Import Base ConvModel ConvSpec.
From Coq Require Import Reals Lra Psatz.
From Flocq Require Import Core.Core IEEE754.BinarySingleNaN.
From Flocq Require Import Plus_error.
Local Open Scope R_scope.

(* ------------------------------------------------------------------ *)
(** ** Operators *)

Lemma rn_round : forall r, round radix2 (SpecFloat.fexp 53 1024) (round_mode mode_NE) r = Rn r.
Proof. reflexivity. Qed.

Lemma fmt_rv : forall d, is_double (rv d).
Proof. intros. exact (generic_format_B2R 53 1024 d). Qed.

Lemma dbl_bpow : forall e, (-1074 <= e)%Z -> is_double (bpow radix2 e).
Proof.
  intros. unfold is_double. apply generic_format_FLT_bpow; [exact prec53 | exact H].
Qed.

Lemma rn_id : forall r, is_double r -> Rn r = r.
Proof. intros. apply round_generic; auto with typeclass_instances. Qed.

Lemma rn_le : forall a b, a <= b -> Rn a <= Rn b.
Proof. intros. apply round_le; auto with typeclass_instances. Qed.

Lemma rn_abs_le : forall r b, is_double b -> Rabs r <= b -> Rabs (Rn r) <= b.
Proof. intros. apply abs_round_le_generic; auto with typeclass_instances. Qed.

Lemma small_fits : forall r, Rabs r <= bpow radix2 1023 -> Rabs (Rn r) < bpow radix2 1024.
Proof.
  intros r H. apply Rle_lt_trans with (bpow radix2 1023).
  - apply rn_abs_le; auto. apply dbl_bpow. lia.
  - apply bpow_lt. lia.
Qed.

Lemma add_ok : forall a b, finite a -> finite b -> Rabs (Rn (rv a + rv b)) < bpow radix2 1024 ->
  finite (fadd a b) /\ rv (fadd a b) = Rn (rv a + rv b).
Proof.
  intros a b Fa Fb H. pose proof (Bplus_correct 53 1024 _ _ mode_NE a b Fa Fb) as C.
  rewrite rn_round in C. fold (rv a) (rv b) in C.
  rewrite Rlt_bool_true in C by exact H. destruct C as (E & F & _). split; assumption.
Qed.

Lemma sub_ok : forall a b, finite a -> finite b -> Rabs (Rn (rv a - rv b)) < bpow radix2 1024 ->
  finite (fsub a b) /\ rv (fsub a b) = Rn (rv a - rv b).
Proof.
  intros a b Fa Fb H. pose proof (Bminus_correct 53 1024 _ _ mode_NE a b Fa Fb) as C.
  rewrite rn_round in C. fold (rv a) (rv b) in C.
  rewrite Rlt_bool_true in C by exact H. destruct C as (E & F & _). split; assumption.
Qed.

Lemma mul_ok : forall a b, finite a -> finite b -> Rabs (Rn (rv a * rv b)) < bpow radix2 1024 ->
  finite (fmul a b) /\ rv (fmul a b) = Rn (rv a * rv b).
Proof.
  intros a b Fa Fb H. pose proof (Bmult_correct 53 1024 _ _ mode_NE a b) as C.
  rewrite rn_round in C. fold (rv a) (rv b) in C.
  rewrite Rlt_bool_true in C by exact H. destruct C as (E & F & _). split; [|assumption].
  unfold finite, fmul in *. rewrite F, Fa, Fb. reflexivity.
Qed.

Lemma div_ok : forall a b, finite a -> rv b <> 0 -> Rabs (Rn (rv a / rv b)) < bpow radix2 1024 ->
  finite (fdiv a b) /\ rv (fdiv a b) = Rn (rv a / rv b).
Proof.
  intros a b Fa Nb H. pose proof (Bdiv_correct 53 1024 _ _ mode_NE a b Nb) as C.
  rewrite rn_round in C. fold (rv a) (rv b) in C.
  rewrite Rlt_bool_true in C by exact H. destruct C as (E & F & _). split; [|assumption].
  unfold finite, fdiv in *. rewrite F. exact Fa.
Qed.

Lemma feq_ok : forall a b, finite a -> finite b -> feq a b = Req_bool (rv a) (rv b).
Proof. intros. apply Beqb_correct; assumption. Qed.
Lemma flt_ok : forall a b, finite a -> finite b -> flt a b = Rlt_bool (rv a) (rv b).
Proof. intros. apply Bltb_correct; assumption. Qed.
Lemma fle_ok : forall a b, finite a -> finite b -> fle a b = Rle_bool (rv a) (rv b).
Proof. intros. apply Bleb_correct; assumption. Qed.

(* ------------------------------------------------------------------ *)
(** ** Integers *)

Lemma int_double : forall z, (Z.abs z <= big)%Z -> is_double (IZR z).
Proof.
  intros z H. unfold is_double, big in *.
  destruct (Z.eq_dec (Z.abs z) (2 ^ 53)) as [E|E].
  - assert (z = 2 ^ 53 \/ z = - 2 ^ 53)%Z as [-> | ->] by lia.
    + change (IZR (2 ^ 53)) with (bpow radix2 53). apply dbl_bpow. lia.
    + rewrite opp_IZR. apply generic_format_opp. change (IZR (2 ^ 53)) with (bpow radix2 53).
      apply dbl_bpow. lia.
  - apply generic_format_FLT. exists (Float radix2 z 0).
    + unfold F2R. cbn [Fnum Fexp bpow]. lra.
    + cbn [Fnum]. change (radix2 ^ 53)%Z with (2 ^ 53)%Z. lia.
    + cbn [Fexp]. lia.
Qed.

Lemma int_small : forall z, (Z.abs z <= big)%Z -> Rabs (Rn (IZR z)) < bpow radix2 1024.
Proof.
  intros z H. apply small_fits. rewrite <- abs_IZR.
  apply Rle_trans with (IZR big); [apply IZR_le; exact H|].
  change (IZR big) with (bpow radix2 53). apply bpow_le. lia.
Qed.

Lemma of_Z_ok : forall z, (Z.abs z <= big)%Z -> is_int (of_Z z) z.
Proof.
  intros z H. unfold is_int, of_Z.
  pose proof (binary_normalize_correct 53 1024 prec53 emax1024 mode_NE z 0 false) as C.
  cbv zeta in C. rewrite rn_round in C.
  assert (E : F2R (Float radix2 z 0) = IZR z) by (unfold F2R; cbn [Fnum Fexp bpow]; lra).
  rewrite E in C. rewrite Rlt_bool_true in C by (apply int_small; auto).
  destruct C as (C1 & C2 & _). split; [exact C2|]. unfold rv. rewrite C1.
  apply rn_id, int_double; auto.
Qed.

Lemma add_int : forall a b x y, is_int a x -> is_int b y -> (Z.abs (x + y) <= big)%Z ->
  is_int (fadd a b) (x + y).
Proof.
  intros a b x y [Fa Ea] [Fb Eb] H.
  destruct (add_ok a b Fa Fb) as [F E]; rewrite Ea, Eb, <- plus_IZR in *.
  - apply int_small; auto.
  - split; auto. rewrite E. apply rn_id, int_double; auto.
Qed.

Lemma sub_int : forall a b x y, is_int a x -> is_int b y -> (Z.abs (x - y) <= big)%Z ->
  is_int (fsub a b) (x - y).
Proof.
  intros a b x y [Fa Ea] [Fb Eb] H.
  destruct (sub_ok a b Fa Fb) as [F E]; rewrite Ea, Eb, <- minus_IZR in *.
  - apply int_small; auto.
  - split; auto. rewrite E. apply rn_id, int_double; auto.
Qed.

Lemma mul_int : forall a b x y, is_int a x -> is_int b y -> (Z.abs (x * y) <= big)%Z ->
  is_int (fmul a b) (x * y).
Proof.
  intros a b x y [Fa Ea] [Fb Eb] H.
  destruct (mul_ok a b Fa Fb) as [F E]; rewrite Ea, Eb, <- mult_IZR in *.
  - apply int_small; auto.
  - split; auto. rewrite E. apply rn_id, int_double; auto.
Qed.

Lemma zero_int : is_int fzero 0.
Proof. apply of_Z_ok. unfold big. lia. Qed.

Lemma feq_zero_int : forall d z, is_int d z -> feq d fzero = (z =? 0)%Z.
Proof.
  intros d z [F E]. destruct zero_int as [F0 E0]. rewrite feq_ok by auto. rewrite E, E0.
  destruct (Z.eqb_spec z 0) as [->|N]; [apply Req_bool_true; auto|].
  apply Req_bool_false. intro C. apply N. apply eq_IZR. exact C.
Qed.

Lemma div_int : forall a b x y, is_int a x -> is_int b y -> (Z.abs x <= big)%Z -> y <> 0%Z ->
  finite (fdiv a b) /\ rv (fdiv a b) = Rn (IZR x / IZR y).
Proof.
  intros a b x y [Fa Ea] [Fb Eb] H N.
  assert (N' : IZR y <> 0) by (intro C; apply N; apply eq_IZR; exact C).
  destruct (div_ok a b Fa) as [F E].
  - rewrite Eb. exact N'.
  - rewrite Ea, Eb. apply small_fits. unfold Rdiv. rewrite Rabs_mult, Rabs_inv.
    rewrite <- !abs_IZR.
    assert (1 <= IZR (Z.abs y)) by (apply IZR_le; lia).
    assert (0 <= IZR (Z.abs x)) by (apply IZR_le; lia).
    apply Rle_trans with (IZR (Z.abs x) * 1).
    + apply Rmult_le_compat_l; auto. rewrite <- Rinv_1. apply Rinv_le; lra.
    + rewrite Rmult_1_r. apply Rle_trans with (IZR big); [apply IZR_le; exact H|].
      change (IZR big) with (bpow radix2 53). apply bpow_le. lia.
  - split; auto. rewrite E, Ea, Eb. reflexivity.
Qed.

(* ------------------------------------------------------------------ *)
(** ** Formulas *)

Lemma linear_rounded : forall p0 p1 rest x, finite p0 -> finite p1 -> finite x ->
  Rabs (Rn (rv p1 * rv x)) < bpow radix2 1024 ->
  Rabs (Rn (rv p0 + Rn (rv p1 * rv x))) < bpow radix2 1024 ->
  exists v, conv_linear (PD p0 :: PD p1 :: rest) x = Ok (Some v) /\ finite v /\
    rv v = Rn (rv p0 + Rn (rv p1 * rv x)).
Proof.
  intros p0 p1 rest x F0 F1 Fx H1 H2. eexists. split; [reflexivity|].
  change (param (PD p0 :: PD p1 :: rest) 0) with p0.
  change (param (PD p0 :: PD p1 :: rest) 1) with p1.
  destruct (mul_ok p1 x F1 Fx H1) as [Fm Em].
  destruct (add_ok p0 (fmul p1 x) F0 Fm) as [Fa Ea]; rewrite Em in *; auto.
Qed.

Lemma linear_int : forall p0 p1 rest x a b z, is_int p0 a -> is_int p1 b -> is_int x z ->
  (Z.abs (b * z) <= big)%Z -> (Z.abs (a + b * z) <= big)%Z ->
  exists v, conv_linear (PD p0 :: PD p1 :: rest) x = Ok (Some v) /\ is_int v (a + b * z).
Proof.
  intros. eexists. split; [reflexivity|].
  change (param (PD p0 :: PD p1 :: rest) 0) with p0.
  change (param (PD p0 :: PD p1 :: rest) 1) with p1.
  apply add_int; auto. apply mul_int; auto.
Qed.

(** std::pow(x, 2) is exact where the square is. *)
Definition pow2_exact (f : dbl -> dbl) : Prop :=
  forall x z, is_int x z -> (z * z <= big)%Z -> is_int (f x) (z * z).

Lemma quad_bound : forall a b c z m, (Z.abs a * (z * z) + Z.abs b * Z.abs z + Z.abs c <= m)%Z ->
  (Z.abs (a * (z * z)) <= m)%Z /\ (Z.abs (b * z) <= m)%Z /\
  (Z.abs (a * (z * z) + b * z) <= m)%Z /\ (Z.abs (a * (z * z) + b * z + c) <= m)%Z.
Proof.
  intros a b c z m H.
  assert (A1 : (Z.abs (a * (z * z)) = Z.abs a * (z * z))%Z).
  { rewrite Z.abs_mul. f_equal. apply Z.abs_eq. apply Z.square_nonneg. }
  assert (A2 : (Z.abs (b * z) = Z.abs b * Z.abs z)%Z) by apply Z.abs_mul.
  rewrite <- A1, <- A2 in H. clear A1 A2.
  generalize dependent (a * (z * z))%Z. generalize dependent (b * z)%Z. intros. lia.
Qed.

Lemma quad_int : forall f p0 p1 p2 x a b c z, pow2_exact f ->
  is_int p0 a -> is_int p1 b -> is_int p2 c -> is_int x z ->
  (z * z <= big)%Z -> (Z.abs a * (z * z) + Z.abs b * Z.abs z + Z.abs c <= big)%Z ->
  is_int (fadd (fadd (fmul p0 (f x)) (fmul p1 x)) p2) (a * (z * z) + b * z + c).
Proof.
  intros f p0 p1 p2 x a b c z PF H0 H1 H2 Hx B1 B2.
  destruct (quad_bound a b c z big B2) as (Q1 & Q2 & Q3 & Q4).
  apply add_int; [apply add_int| |]; auto; apply mul_int; auto.
Qed.

Lemma rational_int : forall f p0 p1 p2 p3 p4 p5 rest x a0 a1 a2 a3 a4 a5 z, pow2_exact f ->
  is_int p0 a0 -> is_int p1 a1 -> is_int p2 a2 -> is_int p3 a3 -> is_int p4 a4 ->
  is_int p5 a5 -> is_int x z -> (z * z <= big)%Z ->
  (Z.abs a0 * (z * z) + Z.abs a1 * Z.abs z + Z.abs a2 <= big)%Z ->
  (Z.abs a3 * (z * z) + Z.abs a4 * Z.abs z + Z.abs a5 <= big)%Z ->
  let num := (a0 * (z * z) + a1 * z + a2)%Z in
  let den := (a3 * (z * z) + a4 * z + a5)%Z in
  let vals := PD p0 :: PD p1 :: PD p2 :: PD p3 :: PD p4 :: PD p5 :: rest in
  (den = 0%Z -> conv_rational f vals x = Ok None) /\
  (den <> 0%Z -> exists v, conv_rational f vals x = Ok (Some v) /\ finite v /\
     rv v = Rn (IZR num / IZR den)).
Proof.
  intros f p0 p1 p2 p3 p4 p5 rest x a0 a1 a2 a3 a4 a5 z PF H0 H1 H2 H3 H4 H5 Hx B Bn Bd num den
    vals.
  assert (Hn := quad_int f p0 p1 p2 x a0 a1 a2 z PF H0 H1 H2 Hx B Bn).
  assert (Hd := quad_int f p3 p4 p5 x a3 a4 a5 z PF H3 H4 H5 Hx B Bd).
  fold num in Hn. fold den in Hd.
  assert (E : conv_rational f vals x =
    let e := fadd (fadd (fmul p0 (f x)) (fmul p1 x)) p2 in
    let d := fadd (fadd (fmul p3 (f x)) (fmul p4 x)) p5 in
    if feq d fzero then Ok None else Ok (Some (fdiv e d))) by reflexivity.
  rewrite E. cbv zeta. rewrite (feq_zero_int _ _ Hd).
  destruct (Z.eqb_spec den 0) as [Z0|N0]; split; intro C; try contradiction; auto.
  eexists. split; [reflexivity|]. apply div_int; auto.
  apply (quad_bound a0 a1 a2 z big Bn).
Qed.

Lemma poly_int : forall p0 p1 p2 p3 p4 p5 rest x a0 a1 a2 a3 a4 a5 z,
  is_int p0 a0 -> is_int p1 a1 -> is_int p2 a2 -> is_int p3 a3 -> is_int p4 a4 ->
  is_int p5 a5 -> is_int x z -> (Z.abs (z - a4) <= big)%Z ->
  let t := (z - a4 - a5)%Z in
  (Z.abs t <= big)%Z ->
  (Z.abs a1 + Z.abs a3 * Z.abs t <= big)%Z -> (Z.abs a2 * Z.abs t + Z.abs a0 <= big)%Z ->
  let num := (a1 - a3 * t)%Z in
  let den := (a2 * t - a0)%Z in
  let vals := PD p0 :: PD p1 :: PD p2 :: PD p3 :: PD p4 :: PD p5 :: rest in
  (den = 0%Z -> conv_polynomial vals x = Ok None) /\
  (den <> 0%Z -> exists v, conv_polynomial vals x = Ok (Some v) /\ finite v /\
     rv v = Rn (IZR num / IZR den)).
Proof.
  intros p0 p1 p2 p3 p4 p5 rest x a0 a1 a2 a3 a4 a5 z H0 H1 H2 H3 H4 H5 Hx B0 t Bt Bn Bd num den
    vals.
  assert (Ht : is_int (fsub (fsub x p4) p5) t) by (apply sub_int; auto; apply sub_int; auto).
  assert (A3 : (Z.abs (a3 * t) = Z.abs a3 * Z.abs t)%Z) by apply Z.abs_mul.
  assert (A2 : (Z.abs (a2 * t) = Z.abs a2 * Z.abs t)%Z) by apply Z.abs_mul.
  assert (Hn : is_int (fsub p1 (fmul p3 (fsub (fsub x p4) p5))) num).
  { apply sub_int; auto; [apply mul_int; auto; lia | unfold num in *; lia]. }
  assert (Hd : is_int (fsub (fmul p2 (fsub (fsub x p4) p5)) p0) den).
  { apply sub_int; auto; [apply mul_int; auto; lia | unfold den in *; lia]. }
  assert (E : conv_polynomial vals x =
    let t := fsub (fsub x p4) p5 in
    let e := fsub p1 (fmul p3 t) in
    let d := fsub (fmul p2 t) p0 in
    if feq d fzero then Ok None else Ok (Some (fdiv e d))) by reflexivity.
  rewrite E. cbv zeta. rewrite (feq_zero_int _ _ Hd).
  destruct (Z.eqb_spec den 0) as [Z0|N0]; split; intro C; try contradiction; auto.
  eexists. split; [reflexivity|]. apply div_int; auto. unfold num in *. lia.
Qed.
