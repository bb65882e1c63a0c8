(** Theorems about conversions, C35-C40 and C56. The proofs are in ConvProofs to ConvProofs4,
    CcProofs and Cc3Proofs. [fp], [fl], [fe], [fm] stand for std::pow(x, 2), std::log, std::exp and
    MdfHelper::FormatDouble; nothing is assumed of them unless a theorem says so. *)
From Verif Require Import Base BlockModel BlockSpec ConvModel ConvSpec ConvProofs ConvProofs2
  ConvProofs3 ConvProofs4 ConvExtra CcModel CcProofs Cc3Proofs.
From Coq Require Import Reals Lra Lia.
From Flocq Require Import Core.Core IEEE754.BinarySingleNaN.
Local Open Scope N_scope.

(* ------------------------------------------------------------------ *)
(** ** C35 *)

(** A linear conversion is P1 + P2 x, each of the two operations rounded to the nearest double. *)
Theorem C35_linear : forall fp fl fe c p1 p2 rest x,
  c_type c = tLinear -> c_vals c = PD p1 :: PD p2 :: rest -> finite p1 -> finite p2 -> finite x ->
  (Rabs (Rn (rv p2 * rv x)) < bpow radix2 1024)%R ->
  (Rabs (Rn (rv p1 + Rn (rv p2 * rv x))) < bpow radix2 1024)%R ->
  exists v, convert_num fp fl fe c x = Ok (Some v) /\ finite v /\
    rv v = Rn (rv p1 + Rn (rv p2 * rv x)).
Proof.
  intros fp fl fe c p1 p2 rest x T V F1 F2 Fx O1 O2. unfold convert_num. rewrite T, V.
  apply linear_rounded; auto.
Qed.
Print Assumptions C35_linear.

(** So it differs from the exact value by at most a few units in the last place. *)
Theorem C35_linear_error : forall fp fl fe c p1 p2 rest x,
  c_type c = tLinear -> c_vals c = PD p1 :: PD p2 :: rest -> finite p1 -> finite p2 -> finite x ->
  (Rabs (Rn (rv p2 * rv x)) < bpow radix2 1024)%R ->
  (Rabs (Rn (rv p1 + Rn (rv p2 * rv x))) < bpow radix2 1024)%R ->
  exists v, convert_num fp fl fe c x = Ok (Some v) /\
    (let exact := (rv p1 + rv p2 * rv x)%R in
     Rabs (rv v - exact) <=
     bpow radix2 (-53) * (Rabs exact + 2 * Rabs (rv p2 * rv x)) + 3 * bpow radix2 (-1075))%R.
Proof.
  intros fp fl fe c p1 p2 rest x T V F1 F2 Fx O1 O2.
  destruct (C35_linear fp fl fe c p1 p2 rest x T V F1 F2 Fx O1 O2) as (v & E & _ & R).
  exists v. split; [exact E|]. rewrite R. apply linear_error.
Qed.
Print Assumptions C35_linear_error.

(** On integers up to 2^53 it is exact. *)
Theorem C35_linear_integers : forall fp fl fe c p1 p2 rest x a b z,
  c_type c = tLinear -> c_vals c = PD p1 :: PD p2 :: rest ->
  is_int p1 a -> is_int p2 b -> is_int x z ->
  (Z.abs (b * z) <= big)%Z -> (Z.abs (a + b * z) <= big)%Z ->
  exists v, convert_num fp fl fe c x = Ok (Some v) /\ is_int v (a + b * z).
Proof.
  intros fp fl fe c p1 p2 rest x a b z T V H1 H2 Hx B1 B2. unfold convert_num. rewrite T, V.
  apply linear_int; auto.
Qed.
Print Assumptions C35_linear_integers.

(** A rational conversion with integer parameters is the correctly rounded quotient of the two
    polynomials, and fails where the divisor is zero; [pow2_exact] says that std::pow(x, 2) is
    exact on integers. *)
Theorem C35_rational : forall fp fl fe c p1 p2 p3 p4 p5 p6 rest x a1 a2 a3 a4 a5 a6 z,
  c_type c = tRational -> c_vals c = PD p1 :: PD p2 :: PD p3 :: PD p4 :: PD p5 :: PD p6 :: rest ->
  pow2_exact fp -> is_int p1 a1 -> is_int p2 a2 -> is_int p3 a3 -> is_int p4 a4 -> is_int p5 a5 ->
  is_int p6 a6 -> is_int x z -> (z * z <= big)%Z ->
  (Z.abs a1 * (z * z) + Z.abs a2 * Z.abs z + Z.abs a3 <= big)%Z ->
  (Z.abs a4 * (z * z) + Z.abs a5 * Z.abs z + Z.abs a6 <= big)%Z ->
  let num := (a1 * (z * z) + a2 * z + a3)%Z in
  let den := (a4 * (z * z) + a5 * z + a6)%Z in
  (den = 0%Z -> convert_num fp fl fe c x = Ok None) /\
  (den <> 0%Z -> exists v, convert_num fp fl fe c x = Ok (Some v) /\ finite v /\
     rv v = Rn (IZR num / IZR den)).
Proof.
  intros fp fl fe c p1 p2 p3 p4 p5 p6 rest x a1 a2 a3 a4 a5 a6 z T V P H1 H2 H3 H4 H5 H6 Hx B0 B1 B2.
  unfold convert_num. rewrite T, V. apply rational_int; auto.
Qed.
Print Assumptions C35_rational.

(** A polynomial conversion is (P2 - P4 t) / (P3 t - P1) with t = x - P5 - P6. *)
Theorem C35_polynomial : forall fp fl fe c p1 p2 p3 p4 p5 p6 rest x a1 a2 a3 a4 a5 a6 z,
  c_type c = tPolynomial -> c_vals c = PD p1 :: PD p2 :: PD p3 :: PD p4 :: PD p5 :: PD p6 :: rest ->
  is_int p1 a1 -> is_int p2 a2 -> is_int p3 a3 -> is_int p4 a4 -> is_int p5 a5 ->
  is_int p6 a6 -> is_int x z -> (Z.abs (z - a5) <= big)%Z ->
  let t := (z - a5 - a6)%Z in
  (Z.abs t <= big)%Z ->
  (Z.abs a2 + Z.abs a4 * Z.abs t <= big)%Z -> (Z.abs a3 * Z.abs t + Z.abs a1 <= big)%Z ->
  let num := (a2 - a4 * t)%Z in
  let den := (a3 * t - a1)%Z in
  (den = 0%Z -> convert_num fp fl fe c x = Ok None) /\
  (den <> 0%Z -> exists v, convert_num fp fl fe c x = Ok (Some v) /\ finite v /\
     rv v = Rn (IZR num / IZR den)).
Proof.
  intros fp fl fe c p1 p2 p3 p4 p5 p6 rest x a1 a2 a3 a4 a5 a6 z T V H1 H2 H3 H4 H5 H6 Hx B0 t Bt B1 B2.
  unfold convert_num. rewrite T, V. apply poly_int; auto.
Qed.
Print Assumptions C35_polynomial.

(** With parameters missing nothing is returned. *)
Theorem C35_missing_parameters : forall fp fl fe c x,
  (c_type c = tLinear /\ c_vals c = []) \/
  ((c_type c = tRational \/ c_type c = tPolynomial) /\ (length (c_vals c) < 6)%nat) \/
  ((c_type c = tExponential \/ c_type c = tLogarithmic) /\ (length (c_vals c) < 7)%nat) ->
  convert_num fp fl fe c x = Ok None.
Proof.
  intros fp fl fe c x H. unfold convert_num.
  destruct H as [[-> ->]|[[[-> | ->] L]|[[-> | ->] L]]]; try reflexivity.
  - cbn [N.eqb Pos.eqb tRational tLinear]. unfold conv_rational. apply Nat.ltb_lt in L. rewrite L. reflexivity.
  - unfold conv_polynomial. apply Nat.ltb_lt in L. cbn [N.eqb Pos.eqb tPolynomial tLinear tRational tAlgebraic tInterpolate tValue tRangeValue].
    rewrite L. reflexivity.
  - unfold log_like. apply Nat.ltb_lt in L. cbn [N.eqb Pos.eqb tPolynomial tLinear tRational tAlgebraic tInterpolate tValue tRangeValue tExponential].
    rewrite L. reflexivity.
  - unfold log_like. apply Nat.ltb_lt in L. cbn [N.eqb Pos.eqb tPolynomial tLinear tRational tAlgebraic tInterpolate tValue tRangeValue tExponential tLogarithmic].
    rewrite L. reflexivity.
Qed.
Print Assumptions C35_missing_parameters.

(** Exponential and logarithmic conversions, f being std::exp or std::log. With P4 = 0 the result
    is f(((x - P7) P6 - P3) / P1) / P2 and there is none if P1 or P2 is 0. With P1 = 0 instead it is
    f((P3 / (x - P7) - P6) / P4) / P5, and there is none if x = P7 or P5 = 0. Otherwise there is
    none. *)
Definition log_or_exp (fl fe : dbl -> dbl) (c : conv) (f : dbl -> dbl) : Prop :=
  (c_type c = tExponential /\ f = fe) \/ (c_type c = tLogarithmic /\ f = fl).

Theorem C35_exponential : forall fp fl fe c f p1 p2 p3 p4 p5 p6 p7 rest x a1 a2 a3 a6 a7 z,
  log_or_exp fl fe c f ->
  c_vals c = PD p1 :: PD p2 :: PD p3 :: PD p4 :: PD p5 :: PD p6 :: PD p7 :: rest ->
  is_int p1 a1 -> is_int p2 a2 -> is_int p3 a3 -> is_int p4 0 -> is_int p6 a6 -> is_int p7 a7 ->
  is_int x z -> (Z.abs (z - a7) <= big)%Z -> (Z.abs ((z - a7) * a6) + Z.abs a3 <= big)%Z ->
  ((a1 = 0 \/ a2 = 0)%Z -> convert_num fp fl fe c x = Ok None) /\
  ((a1 <> 0 /\ a2 <> 0)%Z -> exists d v, convert_num fp fl fe c x = Ok (Some v) /\
     finite d /\ rv d = Rn (IZR ((z - a7) * a6 - a3) / IZR a1) /\
     (finite (f d) -> (Rabs (rv (f d)) <= bpow radix2 1023)%R ->
        finite v /\ rv v = Rn (rv (f d) / IZR a2))).
Proof.
  intros fp fl fe c f p1 p2 p3 p4 p5 p6 p7 rest x a1 a2 a3 a6 a7 z T V H1 H2 H3 H4 H6 H7 Hx B0 B1.
  assert (E : convert_num fp fl fe c x = log_like f (c_vals c) x).
  { unfold convert_num. destruct T as [[-> ->]|[-> ->]]; reflexivity. }
  rewrite E, V. destruct (log_first f p1 p2 p3 p4 p5 p6 p7 rest x a1 a2 a3 a6 a7 z) as [Z1 Z2]; auto.
  split; [exact Z1|]. intros N. destruct (Z2 N) as (d & F & Q & R). exists d. eexists.
  split; [exact R|]. split; [exact F|]. split; [exact Q|]. intros Ff Bf. apply div_by_int; tauto.
Qed.
Print Assumptions C35_exponential.

Theorem C35_exponential_second : forall fp fl fe c f p1 p2 p3 p4 p5 p6 p7 rest x a3 a4 a5 a6 a7 z,
  log_or_exp fl fe c f ->
  c_vals c = PD p1 :: PD p2 :: PD p3 :: PD p4 :: PD p5 :: PD p6 :: PD p7 :: rest ->
  is_int p1 0 -> is_int p3 a3 -> is_int p4 a4 -> is_int p5 a5 -> is_int p6 a6 -> is_int p7 a7 ->
  a4 <> 0%Z -> is_int x z ->
  (Z.abs (z - a7) <= big)%Z -> (Z.abs a3 <= big)%Z -> (Z.abs a6 <= big)%Z ->
  ((z = a7 \/ a5 = 0)%Z -> convert_num fp fl fe c x = Ok None) /\
  ((z <> a7 /\ a5 <> 0)%Z -> exists d v, convert_num fp fl fe c x = Ok (Some v) /\
     finite d /\ rv d = Rn (Rn (Rn (IZR a3 / IZR (z - a7)) - IZR a6) / IZR a4) /\
     (finite (f d) -> (Rabs (rv (f d)) <= bpow radix2 1023)%R ->
        finite v /\ rv v = Rn (rv (f d) / IZR a5))).
Proof.
  intros fp fl fe c f p1 p2 p3 p4 p5 p6 p7 rest x a3 a4 a5 a6 a7 z T V H1 H3 H4 H5 H6 H7 N4 Hx B0 B1 B2.
  assert (E : convert_num fp fl fe c x = log_like f (c_vals c) x).
  { unfold convert_num. destruct T as [[-> ->]|[-> ->]]; reflexivity. }
  rewrite E, V. destruct (log_second f p1 p2 p3 p4 p5 p6 p7 rest x a3 a4 a5 a6 a7 z) as [Z1 Z2]; auto.
  split; [exact Z1|]. intros N. destruct (Z2 N) as (d & F & Q & R). exists d. eexists.
  split; [exact R|]. split; [exact F|]. split; [exact Q|]. intros Ff Bf. apply div_by_int; tauto.
Qed.
Print Assumptions C35_exponential_second.

Theorem C35_exponential_neither : forall fp fl fe c f p1 p2 p3 p4 rest x a1 a4,
  log_or_exp fl fe c f -> c_vals c = PD p1 :: PD p2 :: PD p3 :: PD p4 :: rest ->
  is_int p1 a1 -> is_int p4 a4 -> a1 <> 0%Z -> a4 <> 0%Z ->
  convert_num fp fl fe c x = Ok None.
Proof.
  intros fp fl fe c f p1 p2 p3 p4 rest x a1 a4 T V H1 H4 N1 N4.
  assert (E : convert_num fp fl fe c x = log_like f (c_vals c) x).
  { unfold convert_num. destruct T as [[-> ->]|[-> ->]]; reflexivity. }
  rewrite E, V. apply log_neither with a1 a4; auto.
Qed.
Print Assumptions C35_exponential_neither.

(** Parameters set one after the other, in any order: each has the value last given to it, the ones
    between that were not set are 0. *)
Theorem C35_set_parameters : forall ops i,
  param (fold_left (fun v o => set_param v (fst o) (snd o)) ops []) i
  = fold_left (fun d o => if (fst o =? i)%nat then snd o else d) ops fzero /\
  length (fold_left (fun v o => set_param v (fst o) (snd o)) ops [])
  = fold_left (fun n o => Nat.max n (S (fst o))) ops 0%nat.
Proof.
  intros ops i.
  cut (forall ops v,
    param (fold_left (fun v o => set_param v (fst o) (snd o)) ops v) i
    = fold_left (fun d o => if (fst o =? i)%nat then snd o else d) ops (param v i) /\
    length (fold_left (fun v o => set_param v (fst o) (snd o)) ops v)
    = fold_left (fun n o => Nat.max n (S (fst o))) ops (length v)).
  { intros G. destruct (G ops []) as [G1 G2]. rewrite G1, G2. replace (param [] i) with fzero by (destruct i; reflexivity).
    split; reflexivity. }
  clear ops. induction ops as [|[j d] ops IH]; intros v; [split; reflexivity|].
  cbn [fold_left fst snd]. destruct (IH (set_param v j d)) as [IH1 IH2]. rewrite IH1, IH2. split; f_equal.
  - unfold param, set_param. rewrite grow_nth. rewrite (Nat.eqb_sym i j).
    destruct (Nat.eqb_spec j i); [reflexivity|].
    destruct (Nat.ltb_spec i (length v)); [reflexivity|].
    rewrite (proj2 (nth_error_None v i)) by assumption. destruct (i <? j)%nat; reflexivity.
  - unfold set_param. clear. 
    assert (L: forall {A} (l : list A) k x, length (replace_at k x l) = length l).
    { induction l; intros [|k] x; cbn; auto. }
    rewrite L, app_length, repeat_length. lia.
Qed.
Print Assumptions C35_set_parameters.

(** Except for a linear conversion: with P2 missing it returns P1 for every value. *)
Theorem C35_one_parameter_refuted : forall fp fl fe c p1 x,
  c_type c = tLinear -> c_vals c = [PD p1] -> convert_num fp fl fe c x = Ok (Some p1).
Proof. intros fp fl fe c p1 x T V. unfold convert_num. rewrite T, V. reflexivity. Qed.
Print Assumptions C35_one_parameter_refuted.

Definition sample_conv (typ : N) (vals : list dbl) : conv :=
  mkConv true typ (N.of_nat (length vals)) (map PD vals) 0 None [] [] [].

(** The result is the number [z] (as C++ compares doubles). *)
Definition gives (r : res (option dbl)) (z : dbl) : bool :=
  match r with Ok (Some v) => feq v z | _ => false end.

Fixpoint all_give (rs : list (res (option dbl))) (zs : list Z) : bool :=
  match rs, zs with
  | [], [] => true
  | r :: rs, z :: zs => gives r (of_Z z) && all_give rs zs
  | _, _ => false
  end.

(** The square function meets [pow2_exact]; 7 + 3 * 5 = 22 and (2 * 9 + 0 * 3 + 2) / (0 + 0 + 8) = 2.5. *)
Example C35_witness :
  pow2_exact (fun x => fmul x x) /\
  gives (convert_num (fun x => fmul x x) (fun x => x) (fun x => x)
    (sample_conv tLinear [of_Z 7; of_Z 3]) (of_Z 5)) (of_Z 22) = true /\
  gives (convert_num (fun x => fmul x x) (fun x => x) (fun x => x)
    (sample_conv tRational [of_Z 2; of_Z 0; of_Z 2; of_Z 0; of_Z 0; of_Z 8]) (of_Z 3))
    (fdiv (of_Z 5) (of_Z 2)) = true /\
  is_int (of_Z 7) 7 /\ is_int (of_Z 3) 3 /\ is_int (of_Z 5) 5.
Proof.
  split.
  - intros x z I B. apply mul_int; auto. rewrite Z.abs_eq by apply Z.square_nonneg. exact B.
  - split; [vm_compute; reflexivity|]. split; [vm_compute; reflexivity|].
    repeat split; try (apply of_Z_ok; unfold big; lia).
Qed.

(* ------------------------------------------------------------------ *)
(** ** C36 *)

Definition table_conv (c : conv) (interp : bool) (tbl : list (dbl * dbl)) : Prop :=
  c_type c = (if interp then tInterpolate else tValue) /\ c_vals c = pairs tbl /\
  N.of_nat (length tbl) <= c_nof c.

Lemma table_num : forall fp fl fe c interp tbl x, table_conv c interp tbl ->
  convert_num fp fl fe c x = value_to_value interp (c_nof c) (pairs tbl) x.
Proof.
  intros fp fl fe c interp tbl x (T & V & _). unfold convert_num. rewrite T, V.
  destruct interp; reflexivity.
Qed.

(** At a key: its value, exactly (both conversions). *)
Theorem C36_at_key : forall fp fl fe c interp tbl x i k v,
  table_conv c interp tbl -> keys_increase tbl -> finite x -> nth_error tbl i = Some (k, v) ->
  rv x = rv k -> convert_num fp fl fe c x = Ok (Some v).
Proof.
  intros fp fl fe c interp tbl x i k v T I F H E. rewrite (table_num fp fl fe c interp tbl x T).
  destruct T as (_ & _ & L). eapply vv_at_key; eauto.
Qed.
Print Assumptions C36_at_key.

(** Below the first key: the first value. *)
Theorem C36_below : forall fp fl fe c interp tbl x k v r,
  table_conv c interp tbl -> keys_increase tbl -> finite x -> tbl = (k, v) :: r ->
  (rv x < rv k)%R -> convert_num fp fl fe c x = Ok (Some v).
Proof.
  intros fp fl fe c interp tbl x k v r T I F H E. rewrite (table_num fp fl fe c interp tbl x T).
  destruct T as (_ & _ & L). eapply vv_below; eauto.
Qed.
Print Assumptions C36_below.

(** Above the last key: the last value. *)
Theorem C36_above : forall fp fl fe c interp tbl x k v r,
  table_conv c interp tbl -> keys_increase tbl -> finite x -> tbl = r ++ [(k, v)] ->
  (rv k < rv x)%R -> convert_num fp fl fe c x = Ok (Some v).
Proof.
  intros fp fl fe c interp tbl x k v r T I F H E. rewrite (table_num fp fl fe c interp tbl x T).
  destruct T as (_ & _ & L). eapply vv_above; eauto.
Qed.
Print Assumptions C36_above.

(** Between two keys the interpolated value is the rounded formula of linear interpolation. *)
Theorem C36_interpolated : forall fp fl fe c tbl x i pk pv k v,
  table_conv c true tbl -> keys_increase tbl -> finite x ->
  nth_error tbl i = Some (pk, pv) -> nth_error tbl (S i) = Some (k, v) ->
  moderate pk -> moderate k -> moderate pv -> moderate v -> (rv pk < rv x < rv k)%R ->
  exists r, convert_num fp fl fe c x = Ok (Some r) /\ finite r /\
    rv r = Rn (rv pv + Rn (Rn (Rn (rv x - rv pk) / Rn (rv k - rv pk)) * Rn (rv v - rv pv))).
Proof.
  intros fp fl fe c tbl x i pk pv k v T I F H1 H2 M1 M2 M3 M4 B.
  rewrite (table_num fp fl fe c true tbl x T). destruct T as (_ & _ & L).
  rewrite (vv_inside true (c_nof c) tbl x i pk pv k v I F L H1 H2 B).
  destruct (interpolated pk pv k v x M1 M2 M3 M4 F B) as (r & E & Fr & R & _).
  exists r. rewrite E. auto.
Qed.
Print Assumptions C36_interpolated.

(** It lies between the two table values when their difference is a double (so for integers up to
    2^52, for values of the same sign within a factor of two, ...). *)
Theorem C36_between_partial : forall fp fl fe c tbl x i pk pv k v,
  table_conv c true tbl -> keys_increase tbl -> finite x ->
  nth_error tbl i = Some (pk, pv) -> nth_error tbl (S i) = Some (k, v) ->
  moderate pk -> moderate k -> moderate pv -> moderate v -> (rv pk < rv x < rv k)%R ->
  is_double (rv v - rv pv) ->
  exists r, convert_num fp fl fe c x = Ok (Some r) /\ finite r /\
    (Rmin (rv pv) (rv v) <= rv r <= Rmax (rv pv) (rv v))%R.
Proof.
  intros fp fl fe c tbl x i pk pv k v T I F H1 H2 M1 M2 M3 M4 B D.
  rewrite (table_num fp fl fe c true tbl x T). destruct T as (_ & _ & L).
  rewrite (vv_inside true (c_nof c) tbl x i pk pv k v I F L H1 H2 B).
  destruct (interpolated pk pv k v x M1 M2 M3 M4 F B) as (r & E & Fr & _ & W). cbv zeta in W.
  rewrite (exact_end pv v D) in W. exists r. rewrite E. auto.
Qed.
Print Assumptions C36_between_partial.

(** The non-interpolating conversion returns the value of the nearer key, the lower one on ties:
    proved for the lower key without more conditions, for the upper key when the two key
    differences are doubles; what is returned is in any case the value of a neighbour. *)
Theorem C36_nearest_lower : forall fp fl fe c tbl x i pk pv k v,
  table_conv c false tbl -> keys_increase tbl -> finite x ->
  nth_error tbl i = Some (pk, pv) -> nth_error tbl (S i) = Some (k, v) ->
  moderate pk -> moderate k -> (rv pk < rv x < rv k)%R -> (rv x - rv pk <= rv k - rv x)%R ->
  convert_num fp fl fe c x = Ok (Some pv).
Proof.
  intros fp fl fe c tbl x i pk pv k v T I F H1 H2 M1 M2 B N.
  rewrite (table_num fp fl fe c false tbl x T). destruct T as (_ & _ & L).
  rewrite (vv_inside false (c_nof c) tbl x i pk pv k v I F L H1 H2 B). f_equal. apply lower_key; auto.
Qed.
Print Assumptions C36_nearest_lower.

Theorem C36_nearest_upper_partial : forall fp fl fe c tbl x i pk pv k v,
  table_conv c false tbl -> keys_increase tbl -> finite x ->
  nth_error tbl i = Some (pk, pv) -> nth_error tbl (S i) = Some (k, v) ->
  moderate pk -> moderate k -> (rv pk < rv x < rv k)%R -> (rv k - rv x < rv x - rv pk)%R ->
  is_double (rv x - rv pk) -> is_double (rv k - rv pk) ->
  convert_num fp fl fe c x = Ok (Some v).
Proof.
  intros fp fl fe c tbl x i pk pv k v T I F H1 H2 M1 M2 B N D1 D2.
  rewrite (table_num fp fl fe c false tbl x T). destruct T as (_ & _ & L).
  rewrite (vv_inside false (c_nof c) tbl x i pk pv k v I F L H1 H2 B). f_equal. apply upper_key; auto.
Qed.
Print Assumptions C36_nearest_upper_partial.

Theorem C36_a_neighbour : forall fp fl fe c tbl x i pk pv k v,
  table_conv c false tbl -> keys_increase tbl -> finite x ->
  nth_error tbl i = Some (pk, pv) -> nth_error tbl (S i) = Some (k, v) ->
  moderate pk -> moderate k -> (rv pk < rv x < rv k)%R ->
  convert_num fp fl fe c x = Ok (Some pv) \/ convert_num fp fl fe c x = Ok (Some v).
Proof.
  intros fp fl fe c tbl x i pk pv k v T I F H1 H2 M1 M2 B.
  rewrite (table_num fp fl fe c false tbl x T). destruct T as (_ & _ & L).
  rewrite (vv_inside false (c_nof c) tbl x i pk pv k v I F L H1 H2 B).
  destruct (a_neighbour pk pv k v x M1 M2 F B) as [-> | ->]; auto.
Qed.
Print Assumptions C36_a_neighbour.

Definition e16 : dbl := of_Z (10 ^ 16).
Definition em16 : dbl := of_Z (- 10 ^ 16).
Definition tenth : dbl := fdiv (of_Z 1) (of_Z 10).

(** Between the values 1e16 and 0.1 the interpolation can give 0. *)
Theorem C36_between_refuted : exists c tbl x v0 v1 r, table_conv c true tbl /\
  tbl = [(em16, v0); (of_Z 1, v1)] /\ flt em16 x = true /\ flt x (of_Z 1) = true /\
  (forall fp fl fe, gives (convert_num fp fl fe c x) r = true) /\ flt r v1 = true /\ flt v1 v0 = true.
Proof.
  exists (mkConv true tInterpolate 4 (pairs [(em16, e16); (of_Z 1, tenth)]) 0 None [] [] []),
    [(em16, e16); (of_Z 1, tenth)], fhalf, e16, tenth, fzero.
  split; [repeat split; vm_compute; congruence|]. split; [reflexivity|].
  split; [vm_compute; reflexivity|]. split; [vm_compute; reflexivity|].
  split; [intros; vm_compute; reflexivity|]. split; vm_compute; reflexivity.
Qed.
Print Assumptions C36_between_refuted.

(** Between the keys -1e16 and 1e16 the value 0.5, nearer to the upper key, gets the lower one. *)
Theorem C36_nearest_refuted : exists c tbl x v0 v1, table_conv c false tbl /\
  tbl = [(em16, v0); (e16, v1)] /\ flt fzero x = true /\ flt x e16 = true /\
  (forall fp fl fe, gives (convert_num fp fl fe c x) v0 = true) /\ feq v0 v1 = false.
Proof.
  exists (mkConv true tValue 4 (pairs [(em16, of_Z 1); (e16, of_Z 2)]) 0 None [] [] []),
    [(em16, of_Z 1); (e16, of_Z 2)], fhalf, (of_Z 1), (of_Z 2).
  split; [repeat split; vm_compute; congruence|]. split; [reflexivity|].
  split; [vm_compute; reflexivity|]. split; [vm_compute; reflexivity|].
  split; [intros; vm_compute; reflexivity|]. vm_compute; reflexivity.
Qed.
Print Assumptions C36_nearest_refuted.

(** A table that has been set up but neither written nor read has no rounds to search: every value
    is converted to the last one. *)
Theorem C36_unwritten_refuted : forall fp fl fe c (interp : bool) tbl k v x,
  c_type c = (if interp then tInterpolate else tValue) -> c_vals c = pairs (tbl ++ [(k, v)]) ->
  c_nof c = 0 -> convert_num fp fl fe c x = Ok (Some v).
Proof.
  intros fp fl fe c interp tbl k v x T V Z. unfold convert_num. rewrite T, V, Z.
  assert (E : value_to_value interp 0 (pairs (tbl ++ [(k, v)])) x = Ok (Some v)).
  { unfold value_to_value. rewrite (table_nonempty (tbl ++ [(k, v)]) (length tbl) (k, v)).
    - cbn [N.to_nat vv_loop]. apply back_pairs.
    - rewrite nth_error_app2, Nat.sub_diag by lia. reflexivity. }
  destruct interp; exact E.
Qed.
Print Assumptions C36_unwritten_refuted.

(** After writing, the number of values is right. *)
Theorem C36_written : forall c (interp : bool) tbl,
  c_type c = (if interp then tInterpolate else tValue) -> c_vals c = pairs tbl ->
  2 * N.of_nat (length tbl) < 65536 -> table_conv (written c) interp tbl.
Proof.
  intros c interp tbl T V L. rewrite written_eq. unfold table_conv. cbn [c_type c_vals c_nof].
  rewrite V, pairs_length, w16_id by lia. repeat split; auto. lia.
Qed.
Print Assumptions C36_written.

(** A value that is not a number gets the last value. *)
Theorem C36_nan : forall fp fl fe c (interp : bool) tbl k v x,
  c_type c = (if interp then tInterpolate else tValue) -> c_vals c = pairs (tbl ++ [(k, v)]) ->
  is_nan x = true -> convert_num fp fl fe c x = Ok (Some v).
Proof.
  intros fp fl fe c interp tbl k v x T V Z. unfold convert_num. rewrite T, V.
  assert (E : value_to_value interp (c_nof c) (pairs (tbl ++ [(k, v)])) x = Ok (Some v)).
  { unfold value_to_value. rewrite (table_nonempty (tbl ++ [(k, v)]) (length tbl) (k, v)).
    - rewrite loop_nan by exact Z. apply back_pairs.
    - rewrite nth_error_app2, Nat.sub_diag by lia. reflexivity. }
  destruct interp; exact E.
Qed.
Print Assumptions C36_nan.

Definition sample_table : list (dbl * dbl) := [(of_Z 0, of_Z 10); (of_Z 4, of_Z 30); (of_Z 8, of_Z 0)].

Lemma sample_increases : keys_increase sample_table.
Proof.
  assert (R : forall z, (Z.abs z <= big)%Z -> rv (of_Z z) = IZR z) by (intros; apply of_Z_ok; auto).
  split.
  - repeat constructor; apply of_Z_ok; unfold big; lia.
  - assert (R0 : rv (of_Z 0) = 0%R) by (apply R; unfold big; lia).
    assert (R4 : rv (of_Z 4) = 4%R) by (apply R; unfold big; lia).
    assert (R8 : rv (of_Z 8) = 8%R) by (apply R; unfold big; lia).
    unfold sample_table. revert R0 R4 R8. generalize (of_Z 0), (of_Z 4), (of_Z 8), (of_Z 10), (of_Z 30).
    intros d0 d4 d8 v1 v2 R0 R4 R8.
    intros [|[|[|i]]] [|[|[|j]]] a b L Ha Hb; try lia; cbn [nth_error] in Ha, Hb;
      try (destruct i; discriminate Ha); try (destruct j; discriminate Hb);
      injection Ha as <-; injection Hb as <-; cbn [fst]; lra.
Qed.

Example C36_witness :
  let ci := mkConv true tInterpolate 6 (pairs sample_table) 0 None [] [] [] in
  let cv := mkConv true tValue 6 (pairs sample_table) 0 None [] [] [] in
  let run c z := convert_num (fun x => x) (fun x => x) (fun x => x) c (of_Z z) in
  table_conv ci true sample_table /\ table_conv cv false sample_table /\ keys_increase sample_table /\
  moderate (of_Z 0) /\
  all_give (map (run ci) [-3; 0; 3; 4; 6; 9]%Z) [10; 10; 25; 30; 15; 0]%Z = true /\
  all_give (map (run cv) [-3; 0; 2; 3; 4; 6; 7; 9]%Z) [10; 10; 10; 30; 30; 30; 0; 0]%Z = true.
Proof.
  cbv zeta. split; [repeat split; vm_compute; congruence|]. split; [repeat split; vm_compute; congruence|].
  split; [apply sample_increases|]. split.
  - destruct (of_Z_ok 0) as [F E]; [unfold big; lia|]. split; [exact F|]. rewrite E, Rabs_R0. apply bpow_ge_0.
  - split; vm_compute; reflexivity.
Qed.

(* ------------------------------------------------------------------ *)
(** ** C37 *)

(** The value of the first range that contains the value (upper bound included for integer
    channels only), the default otherwise. *)
Theorem C37_value : forall fp fl fe c kd tbl d x i lo hi v,
  c_type c = tRangeValue -> c_vals c = triples tbl d -> N.of_nat (length tbl) <= c_nof c ->
  kind_of (c_dtype c) kd -> finite x -> finite_bounds tbl ->
  first_at (fun e => inside kd (rv x) (rv (fst (fst e))) (rv (snd (fst e)))) tbl i (lo, hi, v) ->
  convert_num fp fl fe c x = Ok (Some v).
Proof.
  intros fp fl fe c kd tbl d x i lo hi v T V L K F B H. unfold convert_num. rewrite T, V.
  change (range_to_value (c_dtype c) (c_nof c) (triples tbl d) x = Ok (Some v)). eapply range_hit; eauto.
Qed.
Print Assumptions C37_value.

Theorem C37_default_value : forall fp fl fe c kd tbl d x,
  c_type c = tRangeValue -> c_vals c = triples tbl d -> N.of_nat (length tbl) <= c_nof c ->
  kind_of (c_dtype c) kd -> finite x -> finite_bounds tbl ->
  nowhere (fun e => inside kd (rv x) (rv (fst (fst e))) (rv (snd (fst e)))) tbl ->
  convert_num fp fl fe c x = Ok (Some d).
Proof.
  intros fp fl fe c kd tbl d x T V L K F B H. unfold convert_num. rewrite T, V.
  change (range_to_value (c_dtype c) (c_nof c) (triples tbl d) x = Ok (Some d)). eapply range_miss; eauto.
Qed.
Print Assumptions C37_default_value.

(** Range to text: the text of the first range, the last text otherwise; a conversion in place of
    the text is applied to the value. *)
Theorem C37_text : forall fp fl fe fm c kd tbl x i lo hi t,
  c_mdf4 c = true -> c_type c = tRangeText -> c_vals c = bounds tbl ->
  2 * N.of_nat (length tbl) < 65536 -> N.of_nat (length tbl) <= c_nof c ->
  kind_of (c_dtype c) kd -> finite x -> finite_pairs tbl ->
  first_at (fun e => inside kd (rv x) (rv (fst e)) (rv (snd e))) tbl i (lo, hi) ->
  nth_error (c_refs c) i = Some (RText BTx t) ->
  convert_str fp fl fe fm c x = Ok (Some (trim t)).
Proof.
  intros fp fl fe fm c kd tbl x i lo hi t M T V S L K F B H R. rewrite convert_str_eq, T, M, V.
  change (pick fp fl fe fm x (c_refs c) (range_index (c_dtype c) (bounds tbl) x (N.to_nat (c_nof c)) 0)
          = Ok (Some (trim t))).
  rewrite (range_text_hit (c_dtype c) kd (c_nof c) tbl x i lo hi) by auto.
  rewrite (pick_nth _ _ _ _ _ _ _ _ R). reflexivity.
Qed.
Print Assumptions C37_text.

Theorem C37_nested : forall fp fl fe fm c kd tbl x i lo hi c',
  c_mdf4 c = true -> c_type c = tRangeText -> c_vals c = bounds tbl ->
  2 * N.of_nat (length tbl) < 65536 -> N.of_nat (length tbl) <= c_nof c ->
  kind_of (c_dtype c) kd -> finite x -> finite_pairs tbl ->
  first_at (fun e => inside kd (rv x) (rv (fst e)) (rv (snd e))) tbl i (lo, hi) ->
  nth_error (c_refs c) i = Some (RConv c') ->
  convert_str fp fl fe fm c x = convert_str fp fl fe fm c' x.
Proof.
  intros fp fl fe fm c kd tbl x i lo hi c' M T V S L K F B H R. rewrite convert_str_eq, T, M, V.
  change (pick fp fl fe fm x (c_refs c) (range_index (c_dtype c) (bounds tbl) x (N.to_nat (c_nof c)) 0)
          = convert_str fp fl fe fm c' x).
  rewrite (range_text_hit (c_dtype c) kd (c_nof c) tbl x i lo hi) by auto.
  rewrite (pick_nth _ _ _ _ _ _ _ _ R). reflexivity.
Qed.
Print Assumptions C37_nested.

Theorem C37_default_text : forall fp fl fe fm c kd tbl x refs t,
  c_mdf4 c = true -> c_type c = tRangeText -> c_vals c = bounds tbl ->
  2 * N.of_nat (length tbl) < 65536 -> N.of_nat (length tbl) <= c_nof c ->
  kind_of (c_dtype c) kd -> finite x -> finite_pairs tbl ->
  nowhere (fun e => inside kd (rv x) (rv (fst e)) (rv (snd e))) tbl ->
  c_refs c = refs ++ [RText BTx t] ->
  convert_str fp fl fe fm c x = Ok (Some (trim t)).
Proof.
  intros fp fl fe fm c kd tbl x refs t M T V S L K F B H R. rewrite convert_str_eq, T, M, V, R.
  change (pick fp fl fe fm x (refs ++ [RText BTx t]) (range_index (c_dtype c) (bounds tbl) x (N.to_nat (c_nof c)) 0)
          = Ok (Some (trim t))).
  rewrite (range_text_miss (c_dtype c) kd (c_nof c) tbl x) by auto. apply pick_last.
Qed.
Print Assumptions C37_default_text.

(** Version 3: the first entry is the default, the others are searched in order. *)
Theorem C37_text3 : forall fp fl fe fm c kd d0 d1 dt0 tbl x i lo hi t,
  c_mdf4 c = false -> c_type c = tRangeText -> c_ranges c = (d0, d1, dt0) :: tbl ->
  kind_of (c_dtype c) kd -> finite x ->
  Forall (fun e => finite (fst (fst e)) /\ finite (snd (fst e))) tbl ->
  (first_at (fun e => inside kd (rv x) (rv (fst (fst e))) (rv (snd (fst e)))) tbl i (lo, hi, t) ->
   convert_str fp fl fe fm c x = Ok (Some t)) /\
  (nowhere (fun e => inside kd (rv x) (rv (fst (fst e))) (rv (snd (fst e)))) tbl ->
   convert_str fp fl fe fm c x = Ok (Some dt0)).
Proof.
  intros fp fl fe fm c kd d0 d1 dt0 tbl x i lo hi t M T V K F B. rewrite convert_str_eq, T, M, V.
  split; intros H.
  - cbn [N.eqb Pos.eqb tRangeText tText]. rewrite (ranges3_hit (c_dtype c) kd tbl x i lo hi t); auto.
  - cbn [N.eqb Pos.eqb tRangeText tText]. rewrite (ranges3_miss (c_dtype c) kd tbl x); auto.
Qed.
Print Assumptions C37_text3.

(** The conversions of version 3 files never learn the data type of their channel (it stays 0,
    unsigned): a float channel's upper bound is included there. *)
Theorem C37_float3_refuted : exists c lo hi t0 t1, c_mdf4 c = false /\ c_type c = tRangeText /\
  c_dtype c = c_dtype (new_conv false) /\ c_ranges c = [(fzero, fzero, t0); (lo, hi, t1)] /\
  (forall fp fl fe fm, convert_str fp fl fe fm c hi = Ok (Some t1)) /\
  (forall fp fl fe fm, let '(mkConv m t n v _ d tx rg r) := c in
     convert_str fp fl fe fm (mkConv m t n v 4 d tx rg r) hi = Ok (Some t0)).
Proof.
  exists (mkConv false tRangeText 2 [] 0 None [] [(fzero, fzero, [68]); (of_Z 1, of_Z 2, [82])] []),
    (of_Z 1), (of_Z 2), [68], [82].
  split; [reflexivity|]. split; [reflexivity|]. split; [reflexivity|]. split; [reflexivity|].
  split; intros; vm_compute; reflexivity.
Qed.
Print Assumptions C37_float3_refuted.

Definition sample_ranges : list (dbl * dbl * dbl) :=
  [(of_Z 0, of_Z 5, of_Z 100); (of_Z 5, of_Z 9, of_Z 200)].

Example C37_witness :
  let run dt z := convert_num (fun x => x) (fun x => x) (fun x => x)
    (mkConv true tRangeValue 7 (triples sample_ranges (of_Z (-1))) dt None [] [] []) (of_Z z) in
  finite_bounds sample_ranges /\ kind_of 0 IntegerChannel /\ kind_of 4 FloatChannel /\
  all_give (map (run 0) [-1; 0; 5; 9; 10]%Z) [-1; 100; 100; 200; -1]%Z = true /\
  all_give (map (run 4) [-1; 0; 5; 9; 10]%Z) [-1; 100; 200; -1; -1]%Z = true.
Proof.
  cbv zeta. split.
  { repeat constructor; apply of_Z_ok; unfold big; lia. }
  split; [cbn; lia|]. split; [cbn; auto|]. split; vm_compute; reflexivity.
Qed.

(* ------------------------------------------------------------------ *)
(** ** C38 *)

Theorem C38_text : forall fp fl fe fm c keys x i a t,
  c_mdf4 c = true -> c_type c = tText -> c_vals c = map PD keys ->
  N.of_nat (length keys) <= c_nof c -> finite x -> Forall finite keys ->
  first_at (fun k => rv k = rv x) keys i a -> nth_error (c_refs c) i = Some (RText BTx t) ->
  convert_str fp fl fe fm c x = Ok (Some (trim t)).
Proof.
  intros fp fl fe fm c keys x i a t M T V L F B H R. rewrite convert_str_eq, T, M, V.
  change (pick fp fl fe fm x (c_refs c) (text_index (map PD keys) x (N.to_nat (c_nof c)) 0)
          = Ok (Some (trim t))).
  rewrite (text_hit (c_nof c) keys x i a) by auto.
  rewrite (pick_nth _ _ _ _ _ _ _ _ R). reflexivity.
Qed.
Print Assumptions C38_text.

Theorem C38_nested : forall fp fl fe fm c keys x i a c',
  c_mdf4 c = true -> c_type c = tText -> c_vals c = map PD keys ->
  N.of_nat (length keys) <= c_nof c -> finite x -> Forall finite keys ->
  first_at (fun k => rv k = rv x) keys i a -> nth_error (c_refs c) i = Some (RConv c') ->
  convert_str fp fl fe fm c x = convert_str fp fl fe fm c' x.
Proof.
  intros fp fl fe fm c keys x i a c' M T V L F B H R. rewrite convert_str_eq, T, M, V.
  change (pick fp fl fe fm x (c_refs c) (text_index (map PD keys) x (N.to_nat (c_nof c)) 0)
          = convert_str fp fl fe fm c' x).
  rewrite (text_hit (c_nof c) keys x i a) by auto.
  rewrite (pick_nth _ _ _ _ _ _ _ _ R). reflexivity.
Qed.
Print Assumptions C38_nested.

Theorem C38_default_text : forall fp fl fe fm c keys x refs t,
  c_mdf4 c = true -> c_type c = tText -> c_vals c = map PD keys ->
  N.of_nat (length keys) <= c_nof c -> finite x -> Forall finite keys ->
  nowhere (fun k => rv k = rv x) keys -> c_refs c = refs ++ [RText BTx t] ->
  convert_str fp fl fe fm c x = Ok (Some (trim t)).
Proof.
  intros fp fl fe fm c keys x refs t M T V L F B H R. rewrite convert_str_eq, T, M, V, R.
  change (pick fp fl fe fm x (refs ++ [RText BTx t]) (text_index (map PD keys) x (N.to_nat (c_nof c)) 0)
          = Ok (Some (trim t))).
  rewrite (text_miss (c_nof c) keys x) by auto. apply pick_last.
Qed.
Print Assumptions C38_default_text.

(** Version 3 has no default text: the conversion fails. *)
Theorem C38_text3 : forall fp fl fe fm c x i a t,
  c_mdf4 c = false -> c_type c = tText -> finite x -> Forall (fun e => finite (fst e)) (c_texts c) ->
  (first_at (fun e => rv (fst e) = rv x) (c_texts c) i (a, t) ->
   convert_str fp fl fe fm c x = Ok (Some t)) /\
  (nowhere (fun e => rv (fst e) = rv x) (c_texts c) -> convert_str fp fl fe fm c x = Ok None).
Proof.
  intros fp fl fe fm c x i a t M T F B. rewrite convert_str_eq, T, M. split; intros H.
  - cbn [N.eqb Pos.eqb tText]. rewrite (text3_hit _ x i a t); auto.
  - cbn [N.eqb Pos.eqb tText]. rewrite (text3_miss _ x); auto.
Qed.
Print Assumptions C38_text3.

Theorem C38_text_to_value : forall c keys values d s before,
  c_mdf4 c = true -> c_type c = tTextValue -> c_refs c = map (RText BTx) keys ->
  c_vals c = map PD (values ++ [d]) -> N.of_nat (length keys) <= c_nof c ->
  N.of_nat (length values) < 65536 ->
  (forall i a v, first_at (fun t => trim t = s) keys i a -> nth_error values i = Some v ->
     convert_text_num c s before = (true, v)) /\
  (nowhere (fun t => trim t = s) keys -> convert_text_num c s before = (true, d)).
Proof.
  intros c keys values d s before M T R V L S. unfold convert_text_num. rewrite T.
  cbn [N.eqb Pos.eqb tTextValue]. split.
  - intros i a v H Hv. rewrite (text_value_hit c keys values d s i a v); auto.
  - intros H. rewrite (text_value_miss c keys values d s); auto.
Qed.
Print Assumptions C38_text_to_value.

Theorem C38_text_to_text : forall c tbl d s before,
  c_mdf4 c = true -> c_type c = tTextText -> c_refs c = entries tbl ++ [RText BTx d] ->
  (forall i k v, first_at (fun e => trim (fst e) = s) tbl i (k, v) ->
     convert_text_text c s before = (true, trim v)) /\
  (nowhere (fun e => trim (fst e) = s) tbl -> convert_text_text c s before = (true, trim d)).
Proof.
  intros c tbl d s before M T R. unfold convert_text_text. rewrite T.
  cbn [N.eqb Pos.eqb tTextText]. split.
  - intros i k v H. rewrite (text_text_hit c tbl (RText BTx d) s i k v); auto.
  - intros H. rewrite (text_text_miss c tbl d s); auto.
Qed.
Print Assumptions C38_text_to_text.

(** References set one after the other, in any order: each is the text last given to it, the ones
    between that were not set are empty. *)
Theorem C38_set_references : forall ops i,
  nth_error (fold_left (fun v o => set_ref v (fst o) (snd o)) ops []) i
  = fold_left (fun d o => if (fst o =? i)%nat then Some (RText BNew (snd o))
                          else match d with
                               | Some r => Some r
                               | None => if (i <? fst o)%nat then Some RNone else None
                               end) ops None.
Proof.
  intros ops i.
  cut (forall ops v,
    nth_error (fold_left (fun v o => set_ref v (fst o) (snd o)) ops v) i
    = fold_left (fun d o => if (fst o =? i)%nat then Some (RText BNew (snd o))
                            else match d with
                                 | Some r => Some r
                                 | None => if (i <? fst o)%nat then Some RNone else None
                                 end) ops (nth_error v i)).
  { intros G. rewrite G. destruct i; reflexivity. }
  clear ops. induction ops as [|[j d] ops IH]; intros v; [reflexivity|].
  cbn [fold_left fst snd]. rewrite IH. f_equal. unfold set_ref. rewrite grow_nth, (Nat.eqb_sym i j).
  destruct (Nat.eqb_spec j i); [reflexivity|].
  destruct (Nat.ltb_spec i (length v)) as [L|L].
  - destruct (nth_error v i) eqn:E; [reflexivity|]. apply nth_error_None in E. lia.
  - rewrite (proj2 (nth_error_None v i)) by assumption. reflexivity.
Qed.
Print Assumptions C38_set_references.

(** Until the conversion has been written, its texts are not found; text conversions then report
    success with the caller's variable unchanged. *)
Theorem C38_unwritten_refuted : exists c t, c_type c = tText /\ c_vals c = [PD (of_Z 1)] /\
  c_refs c = set_ref (set_ref [] 0 t) 1 [68] /\
  (forall fp fl fe fm, convert_str fp fl fe fm c (of_Z 1) = Ok None) /\
  (forall fp fl fe fm, convert_str fp fl fe fm (written c) (of_Z 1) = Ok (Some t)) /\
  (exists c2, c_type c2 = tTextText /\ c_refs c2 = set_ref (set_ref [] 0 t) 1 [68] /\
     forall before, convert_text_text c2 t before = (true, before)).
Proof.
  exists (mkConv true tText 0 [PD (of_Z 1)] 0 None [] [] [RText BNew [65]; RText BNew [68]]), [65].
  split; [reflexivity|]. split; [reflexivity|]. split; [reflexivity|].
  split; [intros; vm_compute; reflexivity|]. split; [intros; vm_compute; reflexivity|].
  exists (mkConv true tTextText 0 [] 0 None [] [] [RText BNew [65]; RText BNew [68]]).
  split; [reflexivity|]. split; [reflexivity|]. intros. vm_compute. reflexivity.
Qed.
Print Assumptions C38_unwritten_refuted.

Example C38_witness :
  let c := written (mkConv true tText 0 [PD (of_Z 1); PD (of_Z 4); PD (of_Z 4)] 0 None [] []
    [RText BNew [65]; RText BNew [66]; RText BNew [67]; RText BNew [68]]) in
  let t2t := written (mkConv true tTextText 0 [] 0 None [] []
    [RText BNew [65]; RText BNew [97]; RText BNew [66]; RText BNew [98]; RText BNew [42]]) in
  let t2v := written (mkConv true tTextValue 0 (map PD ([of_Z 7; of_Z 8] ++ [of_Z 9])) 0 None [] []
    [RText BNew [65]; RText BNew [66]]) in
  let run z := convert_str (fun x => x) (fun x => x) (fun x => x) (fun _ _ => []) c (of_Z z) in
  first_at (fun k => rv k = rv (of_Z 4)) [of_Z 1; of_Z 4; of_Z 4] 1 (of_Z 4) /\
  map run [1; 4; 5]%Z = map (fun t => Ok (Some [t])) [65; 66; 68] /\
  map (fun t => convert_text_text t2t [t] [0]) [65; 66; 67] = map (fun t => (true, [t])) [97; 98; 42] /\
  all_give (map (fun t => Ok (Some (snd (convert_text_num t2v [t] fzero)))) [65; 66; 67]) [7; 8; 9]%Z = true.
Proof.
  cbv zeta. split.
  - destruct (of_Z_ok 1) as [_ E1]; [unfold big; lia|]. destruct (of_Z_ok 4) as [_ E4]; [unfold big; lia|].
    revert E1 E4. generalize (of_Z 1), (of_Z 4). intros d1 d4 E1 E4.
    split; [reflexivity|]. split; [reflexivity|]. intros [|j] b L H; [|lia].
    injection H as <-. rewrite E1, E4. lra.
  - split; [vm_compute; reflexivity|]. split; vm_compute; reflexivity.
Qed.

(* ------------------------------------------------------------------ *)
(** ** C39 *)

(** Every numeric conversion: a copy converts alike, whatever the destination was before. *)
Theorem C39_numeric : forall fp fl fe dst c x,
  convert_num fp fl fe (copy_from dst c) x = convert_num fp fl fe c x.
Proof. exact copy_num. Qed.
Print Assumptions C39_numeric.

(** Results as text: all conversions of version 3 and all of version 4 without text references. *)
Theorem C39_texts_partial : forall fp fl fe fm dst c x, c_mdf4 dst = c_mdf4 c ->
  (c_type c = tText \/ c_type c = tRangeText -> c_mdf4 c = false) ->
  convert_str fp fl fe fm (copy_from dst c) x = convert_str fp fl fe fm c x.
Proof. exact copy_str. Qed.
Print Assumptions C39_texts_partial.

(** A version 4 conversion whose references are texts that have not been written yet is copied
    completely. *)
Theorem C39_unwritten_partial : forall c ts, c_mdf4 c = true -> c_refs c = map (RText BNew) ts ->
  Forall (fun t => trim t = t) ts -> copy_from (new_conv true) c = c.
Proof. exact unsaved_copy. Qed.
Print Assumptions C39_unwritten_partial.

(** But of a conversion that has been written or read no text and no conversion is copied: the copy
    of a text table that converts 1 to "A" converts nothing. *)
Theorem C39_written_refuted : forall c keys ts x fp fl fe fm, c_mdf4 c = true -> c_type c = tText ->
  c_vals c = map PD keys -> c_refs c = map (RText BTx) ts ->
  convert_str fp fl fe fm (copy_from (new_conv true) c) x = Ok None.
Proof.
  intros c keys ts x fp fl fe fm M T V R. rewrite convert_str_eq.
  change (c_type (copy_from (new_conv true) c)) with (c_type c). rewrite T.
  change (c_mdf4 (copy_from (new_conv true) c)) with true.
  change (c_refs (copy_from (new_conv true) c)) with (flat_map copy_ref (c_refs c)). rewrite R.
  assert (E : flat_map copy_ref (map (RText BTx) ts) = []).
  { clear. induction ts as [|t r IH]; [reflexivity|]. cbn [map flat_map copy_ref app]. exact IH. }
  rewrite E. reflexivity.
Qed.
Print Assumptions C39_written_refuted.

Example C39_witness : exists c, c_mdf4 c = true /\ c_type c = tText /\
  c_vals c = map PD [of_Z 1] /\ c_refs c = map (RText BTx) [[65]; [68]] /\
  (forall fp fl fe fm, convert_str fp fl fe fm c (of_Z 1) = Ok (Some [65])).
Proof.
  exists (mkConv true tText 1 [PD (of_Z 1)] 0 None [] [] [RText BTx [65]; RText BTx [68]]).
  repeat split; intros; vm_compute; reflexivity.
Qed.

(* ------------------------------------------------------------------ *)
(** ** C40 *)

(** A formula and a text table survive. *)
Theorem C40_formula : forall c pads f, (0 < length f)%nat -> k_type c = 10 -> k_ranges c = [] ->
  plain_text (k_formula c) -> N.of_nat (length (k_formula c)) < 65536 ->
  exists f' p, write_cc3 c pads f = Ok (f', p) /\
    forall g, read_cc3 (f' ++ g) p = Ok (mkCc3 10 [] (k_formula c) [] []).
Proof. exact read_formula. Qed.
Print Assumptions C40_formula.

Theorem C40_text_table : forall c pads f, (0 < length f)%nat -> k_type c = 11 -> k_ranges c = [] ->
  Forall (fun e => plain_text (snd e) /\ (length (snd e) <= 32)%nat) (k_texts c) ->
  46 + 40 * N.of_nat (length (k_texts c)) < 65536 ->
  exists f' p, write_cc3 c pads f = Ok (f', p) /\
    forall g, read_cc3 (f' ++ g) p = Ok (mkCc3 11 [] [] (k_texts c) []).
Proof. exact read_text_table. Qed.
Print Assumptions C40_text_table.

(** Numeric parameters do not: each is written with eight bytes more than it is read with. The
    parameter at position 2i that is read is the i-th one written, so only the first survives. *)
Theorem C40_shifted : forall t vals pads f k, (0 < length f)%nat ->
  param_type t \/ ((t = 1 \/ t = 2) /\ length vals = (2 * k)%nat) ->
  length pads = length vals -> Forall (fun p => (7 <= length p)%nat) pads ->
  46 + 16 * N.of_nat (length vals) < 65536 ->
  exists f' p, write_cc3 (mkCc3 t (map PD vals) [] [] []) pads f = Ok (f', p) /\
    forall g, exists read, read_cc3 (f' ++ g) p = Ok (mkCc3 t read [] [] []) /\
      length read = length vals /\
      forall i v, nth_error vals i = Some v -> (2 * i < length vals)%nat ->
        nth_error read (2 * i) = Some (PD v).
Proof.
  intros t vals pads f k NE T LP FP SZ.
  assert (R : exists f' p, write_cc3 (mkCc3 t (map PD vals) [] [] []) pads f = Ok (f', p) /\
    forall g, read_cc3 (f' ++ g) p =
      Ok (mkCc3 t (firstn (length vals) (seen (combine vals pads))) [] [] [])).
  { destruct T as [T|[T L]]; [apply read_params|eapply read_tables]; eauto. }
  destruct R as (f' & p & E & R). exists f', p. split; [exact E|]. intros g. eexists. split; [apply R|].
  assert (SL : forall l, length (seen l) = (2 * length l)%nat).
  { induction l as [|[d q] r IH]; [reflexivity|]. cbn [seen length]. lia. }
  split.
  - rewrite firstn_length, SL, combine_length. lia.
  - intros i v H L.
    assert (N : exists q, nth_error (combine vals pads) i = Some (v, q)).
    { clear - H LP. revert pads i LP H. induction vals as [|a r IH]; intros [|q0 pads] [|i] LP H; try discriminate.
      - cbn in H. inversion H; subst. eexists. reflexivity.
      - cbn [combine nth_error]. apply IH; auto. }
    destruct N as [q N]. apply seen_even in N.
    rewrite <- N. clear - L. revert L. generalize (length vals), (2 * i)%nat, (seen (combine vals pads)).
    intros n j l. revert j l. induction n as [|n IH]; intros j l L; [lia|].
    destruct l as [|a l]; [destruct j; reflexivity|]. destruct j as [|j]; [reflexivity|].
    cbn [firstn nth_error]. apply IH. lia.
Qed.
Print Assumptions C40_shifted.

(** The second parameter read is the tag of the variant and padding, so it is wrong whatever the
    padding is, for every finite second parameter whose lowest byte is not 1 (every integer up to
    2^44, for instance). *)
Theorem C40_parameters_refuted : forall t p1 p2 vals pads f k, (0 < length f)%nat ->
  param_type t \/ ((t = 1 \/ t = 2) /\ length (p1 :: p2 :: vals) = (2 * k)%nat) ->
  length pads = length (p1 :: p2 :: vals) ->
  Forall (fun p => bytes_ok p /\ (7 <= length p)%nat) pads ->
  46 + 16 * N.of_nat (length (p1 :: p2 :: vals)) < 65536 ->
  finite p2 -> bits_of_dbl p2 mod 256 <> 1 ->
  exists f' p, write_cc3 (mkCc3 t (map PD (p1 :: p2 :: vals)) [] [] []) pads f = Ok (f', p) /\
    forall g, exists read, read_cc3 (f' ++ g) p = Ok (mkCc3 t read [] [] []) /\
      nth_error read 1 <> Some (PD p2).
Proof.
  intros t p1 p2 vals pads f k NE T LP FP SZ F B.
  assert (FP' : Forall (fun p => (7 <= length p)%nat) pads) by (eapply Forall_impl; [|exact FP]; intros a Ha; apply Ha).
  assert (R : exists f' p, write_cc3 (mkCc3 t (map PD (p1 :: p2 :: vals)) [] [] []) pads f = Ok (f', p) /\
    forall g, read_cc3 (f' ++ g) p =
      Ok (mkCc3 t (firstn (length (p1 :: p2 :: vals)) (seen (combine (p1 :: p2 :: vals) pads))) [] [] [])).
  { destruct T as [T|[T L]]; [apply read_params|eapply read_tables]; eauto. }
  destruct R as (f' & p & E & R). exists f', p. split; [exact E|]. intros g. eexists. split; [apply R|].
  destruct pads as [|q1 [|q2 qs]]; try discriminate LP.
  cbn [length firstn combine seen nth_error]. intros C. injection C as C1.
  destruct (Forall_inv FP) as [Q1 Q2]. revert C1. apply ghost_differs; auto.
Qed.
Print Assumptions C40_parameters_refuted.

(** A single parameter is read back. *)
Theorem C40_single_partial : forall t v pad f, (0 < length f)%nat -> param_type t -> (7 <= length pad)%nat ->
  exists f' p, write_cc3 (mkCc3 t [PD v] [] [] []) [pad] f = Ok (f', p) /\
    forall g, read_cc3 (f' ++ g) p = Ok (mkCc3 t [PD v] [] [] []).
Proof.
  intros t v pad f NE T L.
  destruct (read_params t [v] [pad] f NE T eq_refl) as (f' & p & E & R).
  - constructor; [exact L|constructor].
  - cbn [length]. lia.
  - exists f', p. split; [exact E|]. intros g. rewrite R. reflexivity.
Qed.
Print Assumptions C40_single_partial.

(** The bounds of a text range table survive, all its texts are lost. *)
Theorem C40_range_texts_refuted : forall ranges pads f, (0 < length f)%nat ->
  46 + 20 * N.of_nat (length ranges) < 65536 ->
  exists f' p, write_cc3 (mkCc3 12 [] [] [] ranges) pads f = Ok (f', p) /\
    (N.of_nat (length f') < 2 ^ 32 ->
     forall g, read_cc3 (f' ++ g) p =
      Ok (mkCc3 12 [] [] [] (map (fun '(lo, hi, _) => (lo, hi, [])) ranges))).
Proof. exact read_text_ranges. Qed.
Print Assumptions C40_range_texts_refuted.

(** The numbers of a version 3 conversion as their bits. *)
Definition show3 (c : cc3) :=
  (k_type c, map val_bits (k_vals c), k_formula c, map (fun e => (bits_of_dbl (fst e), snd e)) (k_texts c),
   map (fun '(lo, hi, t) => (bits_of_dbl lo, bits_of_dbl hi, t)) (k_ranges c)).

Definition read_back3 (c : cc3) (pads : list (list N)) :=
  match bind (write_cc3 c pads (repeat 7 64)) (fun '(f, p) => read_cc3 f p) with
  | Ok c' => Some (show3 c') | _ => None
  end.

Example C40_witness :
  bits_of_dbl (of_Z 3) mod 256 <> 1 /\
  read_back3 (mkCc3 0 [PD (of_Z 7); PD (of_Z 3)] [] [] []) [repeat 0 7; repeat 0 7]
    = Some (0, [bits_of_dbl (of_Z 7); 1], [], [], []) /\
  read_back3 (mkCc3 11 [] [] [(of_Z 1, [65; 66]); (of_Z 2, [67])] []) []
    = Some (show3 (mkCc3 11 [] [] [(of_Z 1, [65; 66]); (of_Z 2, [67])] [])) /\
  read_back3 (mkCc3 10 [] [88; 49; 43; 50] [] []) []
    = Some (show3 (mkCc3 10 [] [88; 49; 43; 50] [] [])) /\
  read_back3 (mkCc3 12 [] [] [] [(of_Z 1, of_Z 2, [65])]) []
    = Some (show3 (mkCc3 12 [] [] [] [(of_Z 1, of_Z 2, [])])).
Proof.
  split; [vm_compute; congruence|]. split; [vm_compute; reflexivity|]. split; [vm_compute; reflexivity|].
  split; vm_compute; reflexivity.
Qed.

(* ------------------------------------------------------------------ *)
(** ** C56 *)

(** A version 4 conversion with its texts and nested conversions, written at the end of a file and
    read back for a channel of data type [dt] after the file has grown: the type, the parameters,
    the decimals and the texts that do not start with '<' are the same, up to white space around
    the texts and what follows a zero in them. *)
Theorem C56_round_trip : forall c f, fits c -> (0 < length f)%nat ->
  exists f' p, write_conv c f = Ok (f', p) /\
    (N.of_nat (length f') < 2 ^ 63 -> forall g dt fuel, (depth c <= fuel)%nat ->
       read_conv fuel dt (f' ++ g) p = Ok (reread dt (written c))).
Proof.
  intros c f F NE. destruct (conv_placed c f F NE) as (f' & p & x & W & _ & _ & R).
  exists f', p. split; [exact W|]. intros B g dt fuel D. apply (R B g dt fuel D).
Qed.
Print Assumptions C56_round_trip.

(** Every value is converted as by the object that was written. *)
Theorem C56_results : forall c f dt, fits c -> saveable c -> typed dt c -> (0 < length f)%nat ->
  exists f' p, write_conv c f = Ok (f', p) /\
    (N.of_nat (length f') < 2 ^ 63 -> forall g fuel, (depth c <= fuel)%nat ->
       exists c', read_conv fuel dt (f' ++ g) p = Ok c' /\
         (forall fp fl fe fm x, convert_str fp fl fe fm c' x = convert_str fp fl fe fm (written c) x) /\
         (forall fp fl fe x, convert_num fp fl fe c' x = convert_num fp fl fe (written c) x)).
Proof.
  intros c f dt F S T NE. destruct (C56_round_trip c f F NE) as (f' & p & W & R).
  exists f', p. split; [exact W|]. intros B g fuel D. eexists. split; [apply (R B g dt fuel D)|]. split.
  - intros. apply saved_str; auto.
  - intros. inversion T as [? D' _]; subst. apply num_same; rewrite reread_eq, written_eq; reflexivity.
Qed.
Print Assumptions C56_results.

(** A text that starts with '<' is written as an MD block, which is not read: the value is then
    converted to the empty text. *)
Theorem C56_markup_refuted : exists c t, c_refs c = [RText BNew t] /\ hd 0 t = 60 /\ fits c /\
  (forall fp fl fe fm, convert_str fp fl fe fm (reread 0 (written c)) (of_Z 1) = Ok (Some [])).
Proof.
  exists (mkConv true tText 0 [PD (of_Z 1)] 0 None [] [] [RText BNew [60; 98]]), [60; 98].
  split; [reflexivity|]. split; [reflexivity|]. split; [|intros; vm_compute; reflexivity].
  constructor; try reflexivity.
  - repeat constructor; discriminate.
  - discriminate.
  - constructor; [constructor; reflexivity|constructor].
Qed.
Print Assumptions C56_markup_refuted.

Definition nested_conv : conv :=
  mkConv true tRangeText 0 (bounds [(of_Z 0, of_Z 4); (of_Z 5, of_Z 9)]) 0 (Some 3) [] []
    [RText BNew [65];
     RConv (mkConv true tText 0 [PD (of_Z 5); PD (of_Z 6)] 0 None [] []
              [RText BNew [66]; RText BNew [67]; RNone]);
     RText BNew [68]].

Example C56_witness : fits nested_conv /\ saveable nested_conv /\ typed 0 nested_conv /\
  map (fun z => convert_str (fun x => x) (fun x => x) (fun x => x) (fun _ _ => [])
                  (written nested_conv) (of_Z z)) [3; 5; 6; 7; 10]%Z
    = map (fun t => Ok (Some t)) [[65]; [66]; [67]; []; [68]].
Proof.
  assert (S1 : forall a, a <> 0 -> a <> 60 -> trim [a] = [a] -> saveable_ref (RText BNew [a])).
  { intros a A B C. constructor. split; [|split; auto]. intros [X|[]]; auto. }
  split; [|split; [|split]].
  - constructor; try reflexivity.
    + repeat constructor; discriminate.
    + intros d E. inversion E. reflexivity.
    + constructor; [constructor; reflexivity|]. constructor.
      * constructor. constructor; try reflexivity.
        -- repeat constructor; discriminate.
        -- discriminate.
        -- repeat constructor; reflexivity.
      * constructor; [constructor; reflexivity|constructor].
  - constructor; try reflexivity. constructor; [apply S1; (discriminate || reflexivity)|]. constructor.
    + constructor. constructor; try reflexivity.
      constructor; [apply S1; (discriminate || reflexivity)|].
      constructor; [apply S1; (discriminate || reflexivity)|].
      constructor; [constructor|constructor].
    + constructor; [apply S1; (discriminate || reflexivity)|constructor].
  - constructor; [reflexivity|]. intros c' [E|[E|[E|[]]]]; try discriminate. inversion E; subst.
    constructor; [reflexivity|]. intros c'' [E'|[E'|[E'|[]]]]; discriminate.
  - vm_compute. reflexivity.
Qed.
