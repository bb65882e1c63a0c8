(** Error of a linear conversion, version 3 tables, copies before saving, lost parameters. *)
From Verif Require Import Base BlockModel BlockSpec BlockProofs BlockProofs4.
From Verif Require Import ConvModel ConvSpec ConvProofs ConvProofs2 ConvProofs3 CcModel CcProofs Cc3Proofs.
From Coq Require Import Reals Lra Lia.
From Flocq Require Import Core.Core Relative IEEE754.BinarySingleNaN IEEE754.Binary IEEE754.Bits.
Local Open Scope R_scope.

(* ------------------------------------------------------------------ *)
(** ** Rounding errors *)

Lemma rn_error : forall r, Rabs (Rn r - r) <= bpow radix2 (-53) * Rabs r + bpow radix2 (-1075).
Proof.
  intros r. destruct (error_N_FLT radix2 (-1074) 53 ltac:(lia) (fun x => negb (Z.even x)) r)
    as (eps & eta & E1 & E2 & _ & E).
  unfold Rn. rewrite E. replace (r * (1 + eps) + eta - r) with (r * eps + eta) by lra.
  eapply Rle_trans; [apply Rabs_triang|]. rewrite Rabs_mult.
  assert (U1 : / 2 * bpow radix2 (-53 + 1) = bpow radix2 (-53)).
  { rewrite bpow_plus. change (bpow radix2 1) with 2. lra. }
  assert (U2 : / 2 * bpow radix2 (-1074) = bpow radix2 (-1075)).
  { change (-1074)%Z with (-1075 + 1)%Z. rewrite bpow_plus. change (bpow radix2 1) with 2. lra. }
  change (- (53) + 1)%Z with (-53 + 1)%Z in E1. rewrite U1 in E1. rewrite U2 in E2. pose proof (Rabs_pos r). nra.
Qed.

Lemma linear_error : forall a b, let v := Rn (a + Rn b) in
  Rabs (v - (a + b)) <=
  bpow radix2 (-53) * (Rabs (a + b) + 2 * Rabs b) + 3 * bpow radix2 (-1075).
Proof.
  intros a b v. unfold v. pose proof (rn_error b) as E1. pose proof (rn_error (a + Rn b)) as E2.
  set (u := bpow radix2 (-53)) in *. set (t := bpow radix2 (-1075)) in *.
  assert (U : 0 < u <= / 2).
  { unfold u. split; [apply bpow_gt_0|]. change (/ 2) with (bpow radix2 (-1)). apply bpow_le. lia. }
  assert (T : 0 < t) by apply bpow_gt_0.
  assert (S1 : Rabs (a + Rn b) <= Rabs (a + b) + Rabs (Rn b - b)).
  { replace (a + Rn b) with ((a + b) + (Rn b - b)) by lra. apply Rabs_triang. }
  assert (S2 : Rabs (Rn (a + Rn b) - (a + b)) <= Rabs (Rn (a + Rn b) - (a + Rn b)) + Rabs (Rn b - b)).
  { replace (Rn (a + Rn b) - (a + b)) with ((Rn (a + Rn b) - (a + Rn b)) + (Rn b - b)) by lra.
    apply Rabs_triang. }
  pose proof (Rabs_pos b) as Pb. pose proof (Rabs_pos (Rn b - b)) as Pd. pose proof (Rabs_pos (a + b)) as Pa.
  set (B := Rabs b) in *. set (D := Rabs (Rn b - b)) in *. set (A := Rabs (a + b)) in *.
  set (Q := Rabs (a + Rn b)) in *. set (W := Rabs (Rn (a + Rn b) - (a + Rn b))) in *.
  assert (H1 : u * Q <= u * (A + D)) by (apply Rmult_le_compat_l; lra).
  assert (H2 : u * D <= / 2 * (u * B + t)) by (apply Rmult_le_compat; lra).
  assert (H3 : 0 <= u * B) by (apply Rmult_le_pos; lra). nra.
Qed.

(* ------------------------------------------------------------------ *)
(** ** Version 3 text tables *)

Lemma text3_hit : forall l x i a t, finite x -> Forall (fun e => finite (fst e)) l ->
  first_at (fun e => rv (fst e) = rv x) l i (a, t) -> text3 l x = Some t.
Proof.
  induction l as [|[k s] r IH]; intros x i a t F B (H & E & Min).
  - destruct i; discriminate.
  - inversion B as [|? ? Fk B']; subst. cbn [fst] in *. cbn [text3]. destruct i as [|i].
    + cbn [nth_error] in H. inversion H; subst. rewrite feq_yes; auto.
    + assert (rv k <> rv x) by (apply (Min 0%nat (k, s)); [lia|reflexivity]).
      rewrite feq_no; auto. apply (IH x i a t F B'). split; [exact H|]. split; [exact E|].
      intros j b Hj Hb. apply (Min (S j) b); [lia|exact Hb].
Qed.

Lemma text3_miss : forall l x, finite x -> Forall (fun e => finite (fst e)) l ->
  nowhere (fun e : dbl * list N => rv (fst e) = rv x) l -> text3 l x = None.
Proof.
  induction l as [|[k s] r IH]; intros x F B Min; [reflexivity|].
  inversion B as [|? ? Fk B']; subst. cbn [fst] in *. cbn [text3].
  assert (rv k <> rv x) by (apply (Min (k, s)); left; reflexivity).
  rewrite feq_no; auto. apply IH; auto. intros a I. apply Min. right. exact I.
Qed.

Lemma ranges3_hit : forall dt kd l x i lo hi t, kind_of dt kd -> finite x ->
  Forall (fun e => finite (fst (fst e)) /\ finite (snd (fst e))) l ->
  first_at (fun e => inside kd (rv x) (rv (fst (fst e))) (rv (snd (fst e)))) l i (lo, hi, t) ->
  ranges3 dt l x = Some t.
Proof.
  intros dt kd. induction l as [|[[k1 k2] s] r IH]; intros x i lo hi t K F B (H & E & Min).
  - destruct i; discriminate.
  - inversion B as [|? ? [Fk1 Fk2] B']; subst. cbn [fst snd] in *. cbn [ranges3]. destruct i as [|i].
    + cbn [nth_error] in H. inversion H; subst.
      apply (in_range_true dt kd) in E; auto. rewrite E. reflexivity.
    + assert (N : ~ inside kd (rv x) (rv k1) (rv k2)) by (apply (Min 0%nat (k1, k2, s)); [lia|reflexivity]).
      rewrite (in_range_false dt kd); auto. apply (IH x i lo hi t K F B'). split; [exact H|].
      split; [exact E|]. intros j b Hj Hb. apply (Min (S j) b); [lia|exact Hb].
Qed.

Lemma ranges3_miss : forall dt kd l x, kind_of dt kd -> finite x ->
  Forall (fun e => finite (fst (fst e)) /\ finite (snd (fst e))) l ->
  nowhere (fun e : dbl * dbl * list N => inside kd (rv x) (rv (fst (fst e))) (rv (snd (fst e)))) l ->
  ranges3 dt l x = None.
Proof.
  intros dt kd. induction l as [|[[k1 k2] s] r IH]; intros x K F B Min; [reflexivity|].
  inversion B as [|? ? [Fk1 Fk2] B']; subst. cbn [fst snd] in *. cbn [ranges3].
  assert (N : ~ inside kd (rv x) (rv k1) (rv k2)) by (apply (Min (k1, k2, s)); left; reflexivity).
  rewrite (in_range_false dt kd); auto. apply IH; auto. intros a I. apply Min. right. exact I.
Qed.

(* ------------------------------------------------------------------ *)
(** ** Copies made before saving *)

Lemma unsaved_copy : forall c ts, c_mdf4 c = true -> c_refs c = map (RText BNew) ts ->
  Forall (fun t => trim t = t) ts -> copy_from (new_conv true) c = c.
Proof.
  intros [m t n v d e tx rg refs] ts M R F. cbn [c_mdf4 c_refs] in *. subst m refs.
  unfold copy_from, new_conv. cbn [c_mdf4 c_type c_nof c_vals c_dtype c_decimals c_texts c_ranges c_refs app].
  f_equal. induction ts as [|s r IH]; [reflexivity|]. inversion F as [|? ? T F']; subst.
  cbn [map flat_map copy_ref app]. rewrite T, IH by auto. reflexivity.
Qed.

(* ------------------------------------------------------------------ *)
(** ** Version 3 parameters *)

Lemma bits_back : forall n, (n < 2 ^ 64)%N -> finite (dbl_of_bits n) -> bits_of_dbl (dbl_of_bits n) = n.
Proof.
  intros n B F. unfold bits_of_dbl, dbl_of_bits in *. unfold finite in F.
  rewrite is_finite_B2BSN in F.
  assert (E : forall x : binary64, Binary.is_finite 53 1024 x = true ->
    BSN2B 53 1024 default_nan_pl64 (B2BSN 53 1024 x) = x).
  { intros x H. destruct x; try discriminate; reflexivity. }
  rewrite E by exact F. unfold bits_of_b64, b64_of_bits.
  rewrite bits_of_binary_float_of_bits; [apply N2Z.id|].
  change (2 ^ (52 + 11 + 1))%Z with (Z.of_N (2 ^ 64)). lia.
Qed.

Lemma ghost_differs : forall d p pad, finite p -> bytes_ok pad -> (7 <= length pad)%nat ->
  (bits_of_dbl p mod 256 <> 1)%N -> ghost (PD d) pad <> p.
Proof.
  intros d p pad F B L N E. unfold ghost in E.
  assert (BO : bytes_ok (1%N :: firstn 7 pad)).
  { constructor; [reflexivity|]. apply bytes_ok_firstn. exact B. }
  assert (LB : (le_num (1%N :: firstn 7 pad) < 2 ^ 64)%N).
  { pose proof (le_num_bound _ BO) as H. cbn [length] in H. rewrite firstn_length, Nat.min_l in H by lia.
    exact H. }
  apply N. rewrite <- E. rewrite bits_back; auto; [|rewrite E; exact F].
  cbn [le_num]. rewrite N.mul_comm, N.mod_add by discriminate. reflexivity.
Qed.
