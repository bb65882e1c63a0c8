(** Proofs about value to value tables. *)
From Verif Require Import Base ConvModel ConvSpec ConvProofs.
From Coq Require Import Reals Lra Psatz.
From Flocq Require Import Core.Core IEEE754.BinarySingleNaN.
From Flocq Require Import Plus_error Mult_error.
Local Open Scope R_scope.

(* ------------------------------------------------------------------ *)
(** ** The parameters of a table *)

Lemma pairs_length : forall tbl, length (pairs tbl) = (2 * length tbl)%nat.
Proof.
  induction tbl as [|e r IH]; [reflexivity|].
  change (pairs (e :: r)) with (PD (fst e) :: PD (snd e) :: pairs r). cbn [length].
  rewrite IH. lia.
Qed.

Lemma param_pairs : forall tbl i k v, nth_error tbl i = Some (k, v) ->
  param (pairs tbl) (2 * i) = k /\ param (pairs tbl) (2 * i + 1) = v.
Proof.
  induction tbl as [|e r IH]; intros i k v H; [destruct i; discriminate|].
  change (pairs (e :: r)) with (PD (fst e) :: PD (snd e) :: pairs r).
  destruct i as [|i].
  - cbn [nth_error] in H. inversion H; subst. split; reflexivity.
  - cbn [nth_error] in H. replace (2 * S i)%nat with (S (S (2 * i))) by lia.
    replace (S (S (2 * i)) + 1)%nat with (S (S (2 * i + 1))) by lia. exact (IH i k v H).
Qed.

Lemma inc_finite : forall tbl i k v, keys_increase tbl -> nth_error tbl i = Some (k, v) -> finite k.
Proof.
  intros tbl i k v [F _] H. rewrite Forall_forall in F. apply nth_error_In in H.
  exact (F _ H).
Qed.

Lemma feq_no : forall x k, finite x -> finite k -> rv x <> rv k -> feq x k = false.
Proof. intros. rewrite feq_ok by auto. apply Req_bool_false. auto. Qed.
Lemma feq_yes : forall x k, finite x -> finite k -> rv x = rv k -> feq x k = true.
Proof. intros. rewrite feq_ok by auto. apply Req_bool_true. auto. Qed.
Lemma flt_no : forall x k, finite x -> finite k -> rv k <= rv x -> flt x k = false.
Proof. intros. rewrite flt_ok by auto. apply Rlt_bool_false. auto. Qed.
Lemma flt_yes : forall x k, finite x -> finite k -> rv x < rv k -> flt x k = true.
Proof. intros. rewrite flt_ok by auto. apply Rlt_bool_true. auto. Qed.

(** Rounds with smaller keys go on. *)
Lemma loop_skip : forall interp tbl x m k n, keys_increase tbl -> finite x ->
  (n + m <= length tbl)%nat ->
  (forall j a, (n <= j < n + m)%nat -> nth_error tbl j = Some a -> rv (fst a) < rv x) ->
  vv_loop interp (pairs tbl) x (m + k) n = vv_loop interp (pairs tbl) x k (n + m).
Proof.
  intros interp tbl x m. induction m as [|m IH]; intros k n I F L H.
  - rewrite Nat.add_0_r. reflexivity.
  - cbn [Nat.add vv_loop]. rewrite pairs_length.
    destruct (Nat.leb_spec (2 * length tbl) (2 * n + 1)) as [C|_]; [lia|].
    destruct (nth_error tbl n) as [[k0 v0]|] eqn:En.
    2:{ apply nth_error_None in En. lia. }
    destruct (param_pairs tbl n k0 v0 En) as [-> ->].
    assert (Lt : rv k0 < rv x) by (apply (H n (k0, v0)); [lia | exact En]).
    assert (Fk : finite k0) by (eapply inc_finite; eauto).
    rewrite feq_no by (auto; lra). rewrite flt_no by (auto; lra).
    replace (n + S m)%nat with (S n + m)%nat by lia. apply IH; auto; [lia|].
    intros j a Hj. apply H. lia.
Qed.

Lemma before_small : forall tbl i k v x, keys_increase tbl -> nth_error tbl i = Some (k, v) ->
  rv k <= rv x ->
  forall j a, (0 <= j < 0 + i)%nat -> nth_error tbl j = Some a -> rv (fst a) < rv x.
Proof.
  intros tbl i k v x [_ I] H L j a Hj Ha. specialize (I j i a (k, v)). cbn [fst] in I.
  assert (rv (fst a) < rv k) by (apply I; auto; lia). lra.
Qed.

Lemma nof_split : forall (nof : N) (n i : nat), (N.of_nat n <= nof)%N -> (i < n)%nat ->
  N.to_nat nof = (i + S (N.to_nat nof - S i))%nat.
Proof. intros. lia. Qed.

Lemma table_nonempty : forall tbl i (a : dbl * dbl), nth_error tbl i = Some a ->
  (length (pairs tbl) <? 2)%nat = false.
Proof.
  intros tbl i a H. rewrite pairs_length. apply Nat.ltb_ge.
  assert (i < length tbl)%nat by (apply nth_error_Some; congruence). lia.
Qed.

Lemma vv_at_key : forall interp nof tbl x i k v, keys_increase tbl -> finite x ->
  (N.of_nat (length tbl) <= nof)%N -> nth_error tbl i = Some (k, v) -> rv x = rv k ->
  value_to_value interp nof (pairs tbl) x = Ok (Some v).
Proof.
  intros interp nof tbl x i k v I F Ln H E. unfold value_to_value.
  rewrite (table_nonempty tbl i (k, v) H).
  assert (Li : (i < length tbl)%nat) by (apply nth_error_Some; congruence).
  rewrite (nof_split nof (length tbl) i Ln Li).
  rewrite loop_skip by (auto; try lia; eapply before_small; eauto; lra).
  cbn [Nat.add vv_loop]. rewrite pairs_length.
  destruct (Nat.leb_spec (2 * length tbl) (2 * i + 1)) as [C|_]; [lia|].
  destruct (param_pairs tbl i k v H) as [-> ->].
  rewrite feq_yes; auto. eapply inc_finite; eauto.
Qed.

Lemma vv_below : forall interp nof tbl x k v r, keys_increase tbl -> finite x ->
  (N.of_nat (length tbl) <= nof)%N -> tbl = (k, v) :: r -> rv x < rv k ->
  value_to_value interp nof (pairs tbl) x = Ok (Some v).
Proof.
  intros interp nof tbl x k v r I F Ln E L.
  assert (H : nth_error tbl 0 = Some (k, v)) by (rewrite E; reflexivity).
  assert (Fk : finite k) by (eapply inc_finite; eauto).
  unfold value_to_value. rewrite (table_nonempty tbl 0 (k, v) H).
  assert (Li : (0 < length tbl)%nat) by (apply nth_error_Some; congruence).
  rewrite (nof_split nof (length tbl) 0 Ln Li).
  cbn [Nat.add vv_loop]. rewrite pairs_length.
  destruct (Nat.leb_spec (2 * length tbl) (2 * 0 + 1)) as [C|_]; [lia|].
  destruct (param_pairs tbl 0 k v H) as [-> ->].
  rewrite feq_no by (auto; lra). rewrite flt_yes by auto. reflexivity.
Qed.

Lemma pairs_app : forall a b, pairs (a ++ b) = pairs a ++ pairs b.
Proof. intros. apply flat_map_app. Qed.

Lemma loop_end : forall interp vals x k n, (length vals <= 2 * n + 1)%nat ->
  vv_loop interp vals x k n = None.
Proof.
  intros interp vals x k n H. destruct k; [reflexivity|]. cbn [vv_loop].
  destruct (Nat.leb_spec (length vals) (2 * n + 1)) as [C|C]; [reflexivity|lia].
Qed.

Lemma back_pairs : forall l k v, back (pairs (l ++ [(k, v)])) = Ok (Some v).
Proof.
  intros. rewrite pairs_app. change (pairs [(k, v)]) with ([PD k] ++ [PD v]).
  unfold back. rewrite app_assoc, last_last. reflexivity.
Qed.

Lemma vv_above : forall interp nof tbl x k v l, keys_increase tbl -> finite x ->
  (N.of_nat (length tbl) <= nof)%N -> tbl = l ++ [(k, v)] -> rv k < rv x ->
  value_to_value interp nof (pairs tbl) x = Ok (Some v).
Proof.
  intros interp nof tbl x k v l I F Ln E L.
  assert (H : nth_error tbl (length l) = Some (k, v)).
  { rewrite E, nth_error_app2, Nat.sub_diag by lia. reflexivity. }
  unfold value_to_value. rewrite (table_nonempty tbl (length l) (k, v) H).
  assert (Lt : length tbl = S (length l)) by (rewrite E, app_length; cbn [length]; lia).
  replace (N.to_nat nof) with (length tbl + (N.to_nat nof - length tbl))%nat by lia.
  rewrite loop_skip; [|exact I|exact F|lia|].
  2:{ intros j a Hj Ha. destruct (Nat.eq_dec j (length l)) as [->|Nj].
      - rewrite H in Ha. inversion Ha; subst. exact L.
      - eapply before_small; [exact I | exact H | | | exact Ha]; [lra | lia]. }
  rewrite loop_end by (rewrite pairs_length; lia).
  rewrite E. apply back_pairs.
Qed.

(** A value that is not a number gets the last value. *)
Lemma loop_nan : forall interp vals x k n, is_nan x = true -> vv_loop interp vals x k n = None.
Proof.
  intros interp vals x k. induction k as [|k IH]; intros n H; [reflexivity|].
  cbn [vv_loop]. destruct (length vals <=? 2 * n + 1)%nat; [reflexivity|].
  assert (E : forall y, feq x y = false /\ flt x y = false).
  { intro y. destruct x as [s|s| |s m e B]; try discriminate. split; destruct y; reflexivity. }
  destruct (E (param vals (2 * n))) as [-> ->]. apply IH; auto.
Qed.

Definition inside_expr (interp : bool) (pk pv k v x : dbl) : option dbl :=
  if feq (fsub k pk) fzero then None
  else
    let t := fdiv (fsub x pk) (fsub k pk) in
    Some (if interp then fadd pv (fmul t (fsub v pv))
          else if fle t fhalf then pv else v).

Lemma vv_inside : forall interp nof tbl x i pk pv k v, keys_increase tbl -> finite x ->
  (N.of_nat (length tbl) <= nof)%N ->
  nth_error tbl i = Some (pk, pv) -> nth_error tbl (S i) = Some (k, v) ->
  rv pk < rv x < rv k ->
  value_to_value interp nof (pairs tbl) x = Ok (inside_expr interp pk pv k v x).
Proof.
  intros interp nof tbl x i pk pv k v I F Ln Hp H [L1 L2]. unfold value_to_value.
  rewrite (table_nonempty tbl i (pk, pv) Hp).
  assert (Li : (S i < length tbl)%nat) by (apply nth_error_Some; congruence).
  assert (Fk : finite k) by (eapply inc_finite; eauto).
  rewrite (nof_split nof (length tbl) (S i) Ln Li).
  rewrite loop_skip; [|exact I|exact F|lia|].
  2:{ intros j a Hj Ha. destruct (Nat.eq_dec j i) as [->|Nj].
      - rewrite Hp in Ha. inversion Ha; subst. exact L1.
      - eapply before_small; [exact I | exact Hp | | | exact Ha]; [lra | lia]. }
  change (0 + S i)%nat with (S i).
  cbn [vv_loop]. rewrite pairs_length.
  destruct (Nat.leb_spec (2 * length tbl) (2 * S i + 1)) as [C|_]; [lia|].
  destruct (param_pairs tbl (S i) k v H) as [-> ->].
  rewrite feq_no by (auto; lra). rewrite flt_yes by auto.
  destruct (Nat.eqb_spec (S i) 0) as [C|_]; [discriminate|].
  replace (2 * S i - 2)%nat with (2 * i)%nat by lia.
  replace (2 * S i + 1 - 2)%nat with (2 * i + 1)%nat by lia.
  destruct (param_pairs tbl i pk pv Hp) as [-> ->].
  unfold inside_expr. destruct (feq (fsub k pk) fzero); reflexivity.
Qed.

(* ------------------------------------------------------------------ *)
(** ** Rounding *)

Lemma rn_0 : Rn 0 = 0.
Proof. apply round_0. auto with typeclass_instances. Qed.

Lemma dbl_0 : is_double 0.
Proof. apply generic_format_0. Qed.

Lemma dbl_1 : is_double 1.
Proof. change 1 with (bpow radix2 0). apply dbl_bpow. lia. Qed.

Lemma dbl_half : is_double (1 / 2).
Proof.
  replace (1 / 2) with (bpow radix2 (-1)); [apply dbl_bpow; lia|].
  change (bpow radix2 (-1)) with (/ 2). lra.
Qed.

Lemma rn_between : forall a b r, is_double a -> is_double b -> a <= r <= b -> a <= Rn r <= b.
Proof.
  intros a b r Da Db [H1 H2]. split.
  - rewrite <- (rn_id a Da). apply rn_le; auto.
  - rewrite <- (rn_id b Db). apply rn_le; auto.
Qed.

Lemma rn_double : forall r, is_double (Rn r).
Proof. intros. apply generic_format_round; auto with typeclass_instances. Qed.

Lemma rv_half : finite fhalf /\ rv fhalf = 1 / 2.
Proof.
  destruct (div_int (of_Z 1) (of_Z 2) 1 2) as [F E]; try (apply of_Z_ok; unfold big; lia);
    try (unfold big; lia).
  split; auto. unfold fhalf. rewrite E. apply rn_id, dbl_half.
Qed.

Lemma pow_split : bpow radix2 1023 = 2 * bpow radix2 1022.
Proof. change 1023%Z with (1022 + 1)%Z. rewrite bpow_plus. change (bpow radix2 1) with 2. lra. Qed.

Lemma diff_bound : forall a b, moderate a -> moderate b -> Rabs (rv a - rv b) <= bpow radix2 1023.
Proof.
  intros a b [_ Ha] [_ Hb]. rewrite pow_split.
  apply Rle_trans with (Rabs (rv a) + Rabs (rv b)); [|lra].
  unfold Rminus. eapply Rle_trans; [apply Rabs_triang|]. rewrite Rabs_Ropp. lra.
Qed.

Lemma diff_ok : forall a b, moderate a -> moderate b ->
  finite (fsub a b) /\ rv (fsub a b) = Rn (rv a - rv b).
Proof.
  intros a b Ma Mb. apply sub_ok; [apply Ma | apply Mb |]. apply small_fits, diff_bound; auto.
Qed.

Lemma between_moderate : forall a b x, moderate a -> moderate b -> finite x ->
  rv a < rv x < rv b -> moderate x.
Proof.
  intros a b x [_ Ha] [_ Hb] F [L1 L2]. split; auto. apply Rabs_le_inv in Ha, Hb.
  apply Rabs_le. lra.
Qed.

Lemma diff_pos : forall k pk, rv pk < rv k -> 0 < Rn (rv k - rv pk).
Proof.
  intros k pk L.
  assert (H : 0 <= Rn (rv k - rv pk)) by (rewrite <- rn_0; apply rn_le; lra).
  assert (N : Rn (rv k + - rv pk) <> 0).
  { unfold Rn. apply round_plus_neq_0; auto with typeclass_instances.
    - apply fmt_rv.
    - apply generic_format_opp, fmt_rv.
    - lra. }
  unfold Rminus in *. lra.
Qed.

(** The position between two keys, as computed. *)
Lemma position : forall pk k x, moderate pk -> moderate k -> finite x -> rv pk < rv x < rv k ->
  feq (fsub k pk) fzero = false /\
  let t := Rn (Rn (rv x - rv pk) / Rn (rv k - rv pk)) in
  finite (fdiv (fsub x pk) (fsub k pk)) /\ rv (fdiv (fsub x pk) (fsub k pk)) = t /\ 0 <= t <= 1.
Proof.
  intros pk k x Mp Mk Fx L.
  assert (Mx := between_moderate pk k x Mp Mk Fx L).
  destruct (diff_ok k pk Mk Mp) as [Fb Eb]. destruct (diff_ok x pk Mx Mp) as [Fa Ea].
  assert (Pb : 0 < Rn (rv k - rv pk)) by (apply diff_pos; lra).
  assert (Pa : 0 <= Rn (rv x - rv pk)) by (rewrite <- rn_0; apply rn_le; lra).
  assert (Lab : Rn (rv x - rv pk) <= Rn (rv k - rv pk)) by (apply rn_le; lra).
  split.
  { destruct zero_int as [F0 E0]. apply feq_no; auto. rewrite Eb, E0. lra. }
  assert (Q : 0 <= Rn (rv x - rv pk) / Rn (rv k - rv pk) <= 1).
  { split.
    - apply Rmult_le_pos; auto. left. apply Rinv_0_lt_compat; auto.
    - apply Rmult_le_reg_r with (Rn (rv k - rv pk)); auto. unfold Rdiv.
      rewrite Rmult_assoc, Rinv_l by lra. lra. }
  cbv zeta.
  assert (Qt := rn_between 0 1 _ dbl_0 dbl_1 Q).
  destruct (div_ok (fsub x pk) (fsub k pk)) as [Ft Et]; auto.
  - rewrite Eb. lra.
  - rewrite Ea, Eb. apply Rle_lt_trans with 1.
    + apply Rabs_le. lra.
    + change 1 with (bpow radix2 0). apply bpow_lt. lia.
  - rewrite Ea, Eb in Et. auto.
Qed.

Lemma fits15 : forall r, Rabs r <= 3 * bpow radix2 1022 -> Rabs (Rn r) < bpow radix2 1024.
Proof.
  intros r H. apply Rle_lt_trans with (3 * bpow radix2 1022).
  - apply rn_abs_le; auto. unfold is_double. apply generic_format_FLT.
    exists (Float radix2 3 1022); cbn [Fnum Fexp]; [reflexivity| |lia].
    change (radix2 ^ 53)%Z with (2 ^ 53)%Z. lia.
  - change 1024%Z with (1022 + 2)%Z. rewrite bpow_plus. change (bpow radix2 2) with 4.
    pose proof (bpow_gt_0 radix2 1022). lra.
Qed.

Lemma interpolated : forall pk pv k v x, moderate pk -> moderate k -> moderate pv -> moderate v ->
  finite x -> rv pk < rv x < rv k ->
  exists r, inside_expr true pk pv k v x = Some r /\ finite r /\
    let t := Rn (Rn (rv x - rv pk) / Rn (rv k - rv pk)) in
    rv r = Rn (rv pv + Rn (t * Rn (rv v - rv pv))) /\
    let w := Rn (rv pv + Rn (rv v - rv pv)) in
    Rmin (rv pv) w <= rv r <= Rmax (rv pv) w.
Proof.
  intros pk pv k v x Mp Mk Mpv Mv Fx L.
  destruct (position pk k x Mp Mk Fx L) as (Z & P). cbv zeta in P. destruct P as (Ft & Et & Bt).
  destruct (diff_ok v pv Mv Mpv) as [Fd Ed].
  unfold inside_expr. rewrite Z. cbv zeta. eexists. split; [reflexivity|].
  set (t := fdiv (fsub x pk) (fsub k pk)) in *. set (d := fsub v pv) in *.
  cbv zeta. rewrite <- Et in *. rewrite <- Ed. clear Et Z.
  set (D := rv d) in *. set (T := rv t) in *.
  assert (BD : Rabs D <= bpow radix2 1023).
  { rewrite Ed. apply rn_abs_le; [apply dbl_bpow; lia|]. apply diff_bound; auto. }
  assert (DD : is_double D) by (unfold D; apply fmt_rv).
  assert (BM : Rmin 0 D <= T * D <= Rmax 0 D).
  { unfold Rmin, Rmax. destruct (Rle_dec 0 D); nra. }
  assert (BR : Rmin 0 D <= Rn (T * D) <= Rmax 0 D).
  { apply rn_between; auto.
    - unfold Rmin. destruct (Rle_dec 0 D); auto. apply dbl_0.
    - unfold Rmax. destruct (Rle_dec 0 D); auto. apply dbl_0. }
  assert (BA : Rabs (Rn (T * D)) <= bpow radix2 1023).
  { apply Rabs_le. apply Rabs_le_inv in BD. pose proof (bpow_gt_0 radix2 1023).
    unfold Rmin, Rmax in BR. destruct (Rle_dec 0 D); lra. }
  destruct (mul_ok t d Ft Fd) as [Fm Em].
  { fold T D. eapply Rle_lt_trans; [exact BA|]. apply bpow_lt. lia. }
  fold T D in Em.
  destruct (add_ok pv (fmul t d)) as [Fr Er]; [apply Mpv | exact Fm | |].
  { rewrite Em. apply fits15. destruct Mpv as [_ Bp].
    eapply Rle_trans; [apply Rabs_triang|]. rewrite pow_split in BA. lra. }
  rewrite Em in Er. split; [exact Fr|]. split; [exact Er|].
  rewrite Er. clear Er Em Fm Fr.
  set (M := Rn (T * D)) in *. pose proof (fmt_rv pv) as Dpv.
  unfold Rmin, Rmax in BR. destruct (Rle_dec 0 D) as [Dp|Dn].
  - assert (A1 : rv pv <= Rn (rv pv + M)).
    { rewrite <- (rn_id (rv pv) Dpv) at 1. apply rn_le. lra. }
    assert (A2 : Rn (rv pv + M) <= Rn (rv pv + D)) by (apply rn_le; lra).
    split; [eapply Rle_trans; [apply Rmin_l|]; lra | eapply Rle_trans; [|apply Rmax_r]; lra].
  - assert (A1 : Rn (rv pv + M) <= rv pv).
    { rewrite <- (rn_id (rv pv) Dpv) at 2. apply rn_le. lra. }
    assert (A2 : Rn (rv pv + D) <= Rn (rv pv + M)) by (apply rn_le; lra).
    split; [eapply Rle_trans; [apply Rmin_r|]; lra | eapply Rle_trans; [|apply Rmax_l]; lra].
Qed.

(** If the difference of the two values is a double, the end point is the second value. *)
Lemma exact_end : forall pv v, is_double (rv v - rv pv) -> Rn (rv pv + Rn (rv v - rv pv)) = rv v.
Proof.
  intros pv v D. rewrite (rn_id _ D). replace (rv pv + (rv v - rv pv)) with (rv v) by lra.
  apply rn_id, fmt_rv.
Qed.

(* ------------------------------------------------------------------ *)
(** ** The nearest key *)

Lemma flx_double : forall x, round radix2 (FLX_exp 53) ZnearestE (2 * x) =
  2 * round radix2 (FLX_exp 53) ZnearestE x.
Proof.
  intro x. destruct (Req_dec x 0) as [->|N].
  { rewrite Rmult_0_r, round_0; [lra|]. auto with typeclass_instances. }
  unfold round, scaled_mantissa, cexp, F2R. cbn [Fnum Fexp].
  assert (M : mag radix2 (2 * x) = (mag radix2 x + 1)%Z :> Z).
  { rewrite Rmult_comm. change 2 with (bpow radix2 1). apply mag_mult_bpow; auto. }
  rewrite M. unfold FLX_exp.
  replace (mag radix2 x + 1 - 53)%Z with (mag radix2 x - 53 + 1)%Z by lia.
  set (e := (mag radix2 x - 53)%Z).
  assert (E1 : 2 * x * bpow radix2 (- (e + 1)) = x * bpow radix2 (- e)).
  { replace (- (e + 1))%Z with (- e + -1)%Z by lia. rewrite bpow_plus.
    change (bpow radix2 (-1)) with (/ 2). field. }
  rewrite E1, bpow_plus. change (bpow radix2 1) with 2. lra.
Qed.

(** Twice the rounded difference is at most any rounded difference twice as large. *)
Lemma rn_twice : forall x pk b, rv pk < rv x -> 2 * (rv x - rv pk) <= b ->
  2 * Rn (rv x - rv pk) <= Rn b.
Proof.
  intros x pk b L H. set (a := rv x - rv pk) in *.
  assert (E : Rn (2 * a) = 2 * Rn a).
  { destruct (Rle_dec (bpow radix2 (-1021)) (Rabs a)) as [B|B].
    - unfold Rn. rewrite !round_FLT_FLX.
      + apply flx_double.
      + eapply Rle_trans; [|exact B]. apply bpow_le. lia.
      + rewrite Rabs_mult, (Rabs_pos_eq 2) by lra.
        assert (0 <= Rabs a) by apply Rabs_pos.
        apply Rle_trans with (Rabs a); [|lra].
        eapply Rle_trans; [|exact B]. apply bpow_le. lia.
    - assert (Da : is_double a).
      { unfold a, Rminus. apply FLT_format_plus_small; auto with typeclass_instances.
        - apply fmt_rv.
        - apply generic_format_opp, fmt_rv.
        - change (rv x + - rv pk) with a. change (53 + -1074)%Z with (-1021)%Z. lra. }
      assert (D2 : is_double (2 * a)).
      { rewrite Rmult_comm. change 2 with (bpow radix2 1).
        apply mult_bpow_pos_exact_FLT; [exact Da | lia]. }
      rewrite (rn_id _ Da), (rn_id _ D2). reflexivity. }
  rewrite <- E. apply rn_le. exact H.
Qed.

Lemma lower_key : forall pk pv k v x, moderate pk -> moderate k -> finite x ->
  rv pk < rv x < rv k -> rv x - rv pk <= rv k - rv x ->
  inside_expr false pk pv k v x = Some pv.
Proof.
  intros pk pv k v x Mp Mk Fx L N.
  destruct (position pk k x Mp Mk Fx L) as (Z & P). cbv zeta in P. destruct P as (Ft & Et & _).
  unfold inside_expr. rewrite Z. cbv zeta. destruct rv_half as [Fh Eh].
  rewrite fle_ok, Et, Eh by auto. rewrite Rle_bool_true; [reflexivity|].
  rewrite <- (rn_id _ dbl_half). apply rn_le.
  assert (P : 0 < Rn (rv k - rv pk)) by (apply diff_pos; lra).
  assert (T : 2 * Rn (rv x - rv pk) <= Rn (rv k - rv pk)) by (apply rn_twice; lra).
  apply Rmult_le_reg_r with (Rn (rv k - rv pk)); auto. unfold Rdiv.
  rewrite Rmult_assoc, Rinv_l by lra. lra.
Qed.

(** A quotient above one half does not round to one half. *)
Lemma above_half : forall a b, is_double a -> is_double b -> 0 < b -> b < 2 * a -> a <= b ->
  1 / 2 < Rn (a / b).
Proof.
  intros a b Da Db Pb H Hab.
  assert (D2 : is_double (2 * a)).
  { rewrite Rmult_comm. change 2 with (bpow radix2 1).
    apply mult_bpow_pos_exact_FLT; [exact Da | lia]. }
  assert (S : b + ulp radix2 (FLT_exp (-1074) 53) b <= 2 * a).
  { rewrite <- succ_eq_pos by lra. apply succ_le_lt; auto with typeclass_instances. }
  assert (U : bpow radix2 (-53) * b < ulp radix2 (FLT_exp (-1074) 53) b).
  { rewrite ulp_neq_0 by lra. unfold cexp, FLT_exp.
    apply Rlt_le_trans with (bpow radix2 (mag radix2 b - 53)).
    - replace (mag radix2 b - 53)%Z with (-53 + mag radix2 b)%Z by lia. rewrite bpow_plus.
      apply Rmult_lt_compat_l; [apply bpow_gt_0|].
      rewrite <- (Rabs_pos_eq b) at 1 by lra. apply bpow_mag_gt.
    - apply bpow_le. lia. }
  assert (Q : 1 / 2 + bpow radix2 (-54) < a / b).
  { assert (E : bpow radix2 (-53) = 2 * bpow radix2 (-54)).
    { change (-53)%Z with (1 + -54)%Z. rewrite bpow_plus. reflexivity. }
    apply Rmult_lt_reg_r with b; auto. unfold Rdiv. rewrite (Rmult_assoc a), Rinv_l by lra. nra. }
  assert (Q1 : a / b <= 1).
  { apply Rmult_le_reg_r with b; auto. unfold Rdiv. rewrite Rmult_assoc, Rinv_l by lra. lra. }
  destruct (Req_dec (a / b) 1) as [E1|N1].
  { rewrite E1, rn_id by apply dbl_1. lra. }
  pose proof (error_le_half_ulp radix2 (FLT_exp (-1074) 53) (fun z => negb (Z.even z)) (a / b))
    as Er.
  fold (Rn (a / b)) in Er.
  assert (Ul : ulp radix2 (FLT_exp (-1074) 53) (a / b) = bpow radix2 (-53)).
  { assert (0 < bpow radix2 (-54)) by apply bpow_gt_0.
    rewrite ulp_neq_0 by lra. unfold cexp.
    rewrite (mag_unique_pos radix2 (a / b) 0); [reflexivity|].
    change (bpow radix2 (0 - 1)) with (/ 2). change (bpow radix2 0) with 1. lra. }
  rewrite Ul in Er.
  assert (E : bpow radix2 (-53) = 2 * bpow radix2 (-54)).
  { change (-53)%Z with (1 + -54)%Z. rewrite bpow_plus. reflexivity. }
  rewrite E in Er. apply Rabs_le_inv in Er.
  destruct (Rlt_dec (1 / 2) (Rn (a / b))) as [|C]; auto. exfalso. lra.
Qed.

Lemma upper_key : forall pk pv k v x, moderate pk -> moderate k -> finite x ->
  rv pk < rv x < rv k -> rv k - rv x < rv x - rv pk ->
  is_double (rv x - rv pk) -> is_double (rv k - rv pk) ->
  inside_expr false pk pv k v x = Some v.
Proof.
  intros pk pv k v x Mp Mk Fx L N Da Db.
  destruct (position pk k x Mp Mk Fx L) as (Z & P). cbv zeta in P. destruct P as (Ft & Et & _).
  unfold inside_expr. rewrite Z. cbv zeta. destruct rv_half as [Fh Eh].
  rewrite fle_ok, Et, Eh by auto. rewrite (rn_id _ Da), (rn_id _ Db).
  rewrite Rle_bool_false; [reflexivity|]. apply above_half; auto; lra.
Qed.

Lemma a_neighbour : forall pk pv k v x, moderate pk -> moderate k -> finite x ->
  rv pk < rv x < rv k ->
  inside_expr false pk pv k v x = Some pv \/ inside_expr false pk pv k v x = Some v.
Proof.
  intros pk pv k v x Mp Mk Fx L.
  destruct (position pk k x Mp Mk Fx L) as (Z & _).
  unfold inside_expr. rewrite Z. cbv zeta. destruct (fle _ fhalf); auto.
Qed.
