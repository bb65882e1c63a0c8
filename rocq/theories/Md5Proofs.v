(** Proofs about MD5: the steps of the code are the operations of RFC 1321, and the buffering of
    MD5_Update does not show. *)
From Verif Require Import Base BusProofs Md5Model Md5Spec.
Local Open Scope N_scope.

(* ------------------------------------------------------------------ *)
(** ** The auxiliary functions *)

Lemma bits_high : forall x i, x < 2 ^ 32 -> 32 <= i -> N.testbit x i = false.
Proof.
  intros x i H Hi. destruct (N.eq_dec x 0) as [->|N0]; [apply N.bits_0|].
  apply N.bits_above_log2. apply N.log2_lt_pow2; [lia|].
  apply (N.lt_le_trans _ _ _ H). apply N.pow_le_mono_r; lia.
Qed.

Lemma ones_bit : forall i, N.testbit 0xFFFFFFFF i = (i <? 32).
Proof.
  intros i. change 0xFFFFFFFF with (N.ones 32). destruct (N.ltb_spec i 32).
  - apply N.ones_spec_low; auto.
  - apply N.ones_spec_high; auto.
Qed.

Lemma neg_not : forall x, x < 2 ^ 32 -> neg x = not32 x.
Proof.
  intros x H. unfold neg, not32.
  assert (E: x + N.lxor x 0xFFFFFFFF = 0xFFFFFFFF).
  { rewrite N.add_nocarry_lxor.
    - rewrite <- N.lxor_assoc, N.lxor_nilpotent, N.lxor_0_l. reflexivity.
    - apply N.bits_inj_0. intros i. rewrite N.land_spec, N.lxor_spec, ones_bit.
      destruct (N.ltb_spec i 32) as [Hi|Hi].
      + destruct (N.testbit x i); reflexivity.
      + rewrite (bits_high x i H Hi). reflexivity. }
  change (2 ^ 32 - 1) with 0xFFFFFFFF. lia.
Qed.

Lemma not32_bit : forall x i, x < 2 ^ 32 -> N.testbit (not32 x) i = (i <? 32) && negb (N.testbit x i).
Proof.
  intros x i H. unfold not32. rewrite N.lxor_spec, ones_bit. destruct (N.ltb_spec i 32) as [Hi|Hi].
  - destruct (N.testbit x i); reflexivity.
  - rewrite (bits_high x i H Hi). reflexivity.
Qed.

Definition fn_of (i : nat) : fn :=
  match (i / 16)%nat with 0%nat => FnF | 1%nat => FnG | 2%nat => FnH | _ => FnI end.

Lemma fn_rfc : forall i x y z, x < 2 ^ 32 -> y < 2 ^ 32 -> z < 2 ^ 32 ->
  apply_fn (fn_of i) x y z = rfc_f i x y z.
Proof.
  intros i x y z Hx Hy Hz. unfold fn_of, rfc_f. destruct (i / 16)%nat as [|[|[|n]]]; cbn [apply_fn].
  - rewrite (neg_not x Hx). apply N.bits_inj. intros k.
    rewrite ?N.lxor_spec, ?N.lor_spec, ?N.land_spec, ?N.lxor_spec, (not32_bit x k Hx).
    destruct (N.ltb_spec k 32) as [Hk|Hk].
    + destruct (N.testbit x k), (N.testbit y k), (N.testbit z k); reflexivity.
    + rewrite (bits_high x k), (bits_high y k), (bits_high z k) by auto. reflexivity.
  - rewrite (neg_not z Hz). apply N.bits_inj. intros k.
    rewrite ?N.lxor_spec, ?N.lor_spec, ?N.land_spec, ?N.lxor_spec, (not32_bit z k Hz).
    destruct (N.ltb_spec k 32) as [Hk|Hk].
    + destruct (N.testbit x k), (N.testbit y k), (N.testbit z k); reflexivity.
    + rewrite (bits_high x k), (bits_high y k), (bits_high z k) by auto. reflexivity.
  - reflexivity.
  - rewrite (neg_not z Hz). reflexivity.
Qed.

Lemma rotl_code : forall v s, v < 2 ^ 32 -> s <= 32 ->
  N.lor (w32 (N.shiftl v s)) (N.shiftr (N.land v 0xFFFFFFFF) (32 - s)) = rotl v s.
Proof.
  intros v s Hv Hs. unfold rotl, w32. change 0xFFFFFFFF with (N.ones 32).
  rewrite N.land_ones, (N.mod_small v) by exact Hv.
  rewrite N.shiftl_mul_pow2, N.shiftr_div_pow2.
  assert (E: (v * 2 ^ s) mod 2 ^ 32 = N.shiftl (v mod 2 ^ (32 - s)) s).
  { rewrite N.shiftl_mul_pow2. replace (2 ^ 32) with (2 ^ (32 - s) * 2 ^ s).
    - rewrite N.mul_mod_distr_r; auto; apply N.pow_nonzero; discriminate.
    - rewrite <- N.pow_add_r. f_equal. lia. }
  rewrite E, N.lor_comm, lor_shift.
  - rewrite N.shiftl_mul_pow2. lia.
  - apply N.div_lt_upper_bound; [apply N.pow_nonzero; discriminate|].
    rewrite <- N.pow_add_r. replace (32 - s + s) with 32 by lia. exact Hv.
Qed.

(* ------------------------------------------------------------------ *)
(** ** One block *)

Definition reg_of (i : nat) : reg :=
  match (i mod 4)%nat with 0%nat => RA | 1%nat => RD | 2%nat => RC | _ => RB end.
Definition row_of (i : nat) : row :=
  mkRow (fn_of i) (reg_of i) (reg_of (i + 3)) (reg_of (i + 2)) (reg_of (i + 1)) (rfc_k i) (rfc_t i)
    (rfc_s i).

Lemma rows_of : rows = map row_of (seq 0 64).
Proof. vm_compute. reflexivity. Qed.

Definition quad_of (i : nat) (s : regs) : quad :=
  (get_reg (reg_of i) s, get_reg (reg_of (i + 3)) s, get_reg (reg_of (i + 2)) s,
   get_reg (reg_of (i + 1)) s).

Definition regs_ok (s : regs) : Prop :=
  va s < 2 ^ 32 /\ vb s < 2 ^ 32 /\ vc s < 2 ^ 32 /\ vd s < 2 ^ 32.

Lemma get_ok : forall s r, regs_ok s -> get_reg r s < 2 ^ 32.
Proof. intros s [] H; unfold regs_ok in H; cbn [get_reg]; tauto. Qed.

Lemma w32_lt : forall v, w32 v < 2 ^ 32.
Proof. intros v. apply N.mod_lt. discriminate. Qed.

Lemma set_ok : forall s r v, regs_ok s -> v < 2 ^ 32 -> regs_ok (set_reg r v s).
Proof. intros s [] v H Hv; unfold regs_ok in *; cbn [set_reg va vb vc vd]; tauto. Qed.

Lemma step_ok : forall x s r, regs_ok s -> regs_ok (step x s r).
Proof. intros x s r H. unfold step. apply set_ok; [exact H | apply w32_lt]. Qed.

Lemma mod4_cases : forall i, (i mod 4 = 0 \/ i mod 4 = 1 \/ i mod 4 = 2 \/ i mod 4 = 3)%nat.
Proof. intros i. pose proof (Nat.mod_upper_bound i 4). lia. Qed.

Lemma reg_shift : forall i k, reg_of (i + k) = reg_of (i mod 4 + k).
Proof. intros i k. unfold reg_of. rewrite Nat.add_mod_idemp_l by discriminate. reflexivity. Qed.

Lemma quad_step : forall i s v,
  quad_of (S i) (set_reg (reg_of i) v s) =
  let '(a, b, c, d) := quad_of i s in (d, v, b, c).
Proof.
  intros i s v. unfold quad_of. cbv zeta. replace (S i) with (i + 1)%nat by lia.
  rewrite <- !Nat.add_assoc. rewrite <- (Nat.add_0_r i) at 2 4 6 8.
  rewrite !(reg_shift i).
  destruct (mod4_cases i) as [E|[E|[E|E]]]; rewrite E; reflexivity.
Qed.

Lemma rfc_s_le : forall i, rfc_s i <= 32.
Proof.
  intros i. unfold rfc_s. pose proof (Nat.mod_upper_bound i 4 ltac:(discriminate)) as H.
  remember (i mod 4)%nat as m eqn:E. clear E.
  destruct m as [|[|[|[|m]]]]; [| | | |lia];
    destruct (i / 16)%nat as [|[|[|[|n]]]]; cbn [nth]; try (apply N.leb_le; reflexivity);
    destruct n; apply N.leb_le; reflexivity.
Qed.

Lemma step_rfc : forall x i s, regs_ok s ->
  quad_of (S i) (step x s (row_of i)) = rfc_op x (quad_of i s) i.
Proof.
  intros x i s Hs. unfold step. cbn [row_of r_f r_a r_b r_c r_d r_x r_t r_s].
  rewrite quad_step. unfold quad_of, rfc_op. cbv zeta.
  f_equal. f_equal. f_equal.
  rewrite fn_rfc by (apply get_ok; exact Hs).
  set (f := rfc_f i _ _ _). set (a := get_reg (reg_of i) s). set (b := get_reg (reg_of (i + 3)) s).
  assert (E: w32 (a + w32 (w32 (f + x (rfc_k i)) + rfc_t i))
             = (a + f + x (rfc_k i) + rfc_t i) mod 2 ^ 32).
  { unfold w32. rewrite N.add_mod_idemp_l, N.add_mod_idemp_r by discriminate. f_equal. lia. }
  rewrite E, rotl_code by (try apply rfc_s_le; apply N.mod_lt; discriminate).
  unfold w32. f_equal. lia.
Qed.

Lemma steps_rfc : forall x n s, regs_ok s ->
  regs_ok (fold_left (step x) (map row_of (seq 0 n)) s) /\
  quad_of n (fold_left (step x) (map row_of (seq 0 n)) s) =
  fold_left (rfc_op x) (seq 0 n) (quad_of 0 s).
Proof.
  intros x n s Hs. induction n as [|n (IH1 & IH2)]; [split; [exact Hs|reflexivity]|].
  rewrite seq_S, map_app, !fold_left_app. cbn [map fold_left Nat.add].
  split; [apply step_ok; exact IH1|]. rewrite step_rfc by exact IH1. rewrite IH2. reflexivity.
Qed.

Definition quad0 (s : regs) : quad := (va s, vb s, vc s, vd s).

Lemma rfc_op_ext : forall x y l q, (forall k, (k < 16)%nat -> x k = y k) ->
  Forall (fun i => (rfc_k i < 16)%nat) l ->
  fold_left (rfc_op x) l q = fold_left (rfc_op y) l q.
Proof.
  intros x y l q H. revert q. induction l as [|i l IH]; intros q Hl; [reflexivity|].
  cbn [fold_left]. inversion Hl; subst.
  assert (E: rfc_op x q i = rfc_op y q i).
  { destruct q as [[[a b] c] d]. unfold rfc_op. rewrite H by assumption. reflexivity. }
  rewrite E. apply IH; assumption.
Qed.

Lemma k_small : Forall (fun i => (rfc_k i < 16)%nat) (seq 0 64).
Proof.
  apply Forall_forall. intros i Hi. apply in_seq in Hi. unfold rfc_k.
  destruct (i / 16)%nat as [|[|[|n]]] eqn:E; try (apply Nat.mod_upper_bound; discriminate).
  apply Nat.div_small_iff in E; [exact E | discriminate].
Qed.

Lemma slice_first : forall (l : list N) k, (k < 16)%nat -> slice (4 * k) 4 (firstn 64 l) = slice (4 * k) 4 l.
Proof.
  intros l k Hk. unfold slice. rewrite skipn_firstn_comm, firstn_firstn.
  f_equal. lia.
Qed.

Lemma quad_64 : forall s, quad_of 64 s = quad0 s.
Proof. reflexivity. Qed.
Lemma quad_0 : forall s, quad_of 0 s = quad0 s.
Proof. reflexivity. Qed.

Lemma block_sum : forall l x s e, quad0 e = fold_left (rfc_op x) l (quad0 s) ->
  quad0 (mkRegs (w32 (va e + va s)) (w32 (vb e + vb s)) (w32 (vc e + vc s)) (w32 (vd e + vd s))) =
  let '(a', b', c', d') := fold_left (rfc_op x) l (quad0 s) in
  ((va s + a') mod 2 ^ 32, (vb s + b') mod 2 ^ 32, (vc s + c') mod 2 ^ 32, (vd s + d') mod 2 ^ 32).
Proof.
  intros l x s e E. rewrite <- E. unfold quad0, w32. cbn [va vb vc vd].
  rewrite (N.add_comm (va e)), (N.add_comm (vb e)), (N.add_comm (vc e)), (N.add_comm (vd e)).
  reflexivity.
Qed.

Lemma block_eq : forall s block,
  rfc_block (quad0 s) block =
  let '(a', b', c', d') :=
    fold_left (rfc_op (fun k => le_num (slice (4 * k) 4 block))) (seq 0 64) (quad0 s) in
  ((va s + a') mod 2 ^ 32, (vb s + b') mod 2 ^ 32, (vc s + c') mod 2 ^ 32, (vd s + d') mod 2 ^ 32).
Proof. intros s block. unfold rfc_block, quad0. reflexivity. Qed.

Lemma body_once_rfc : forall ptr s, regs_ok s ->
  regs_ok (body_once ptr s) /\ quad0 (body_once ptr s) = rfc_block (quad0 s) (firstn 64 ptr).
Proof.
  intros ptr s Hs. unfold body_once.
  split; [repeat split; apply w32_lt|].
  rewrite block_eq, rows_of.
  destruct (steps_rfc (word_at ptr) 64 s Hs) as (_ & E).
  rewrite quad_0 in E. apply (eq_trans (eq_sym (quad_64 _))) in E.
  assert (X: fold_left (rfc_op (fun k => le_num (slice (4 * k) 4 (firstn 64 ptr)))) (seq 0 64) (quad0 s)
             = fold_left (rfc_op (word_at ptr)) (seq 0 64) (quad0 s)).
  { apply rfc_op_ext; [|exact k_small].
    intros k Hk. unfold word_at. rewrite slice_first by exact Hk. reflexivity. }
  revert X E. generalize (seq 0 64). intros l X E.
  rewrite X. apply block_sum. exact E.
Qed.

(* ------------------------------------------------------------------ *)
(** ** Several blocks *)

Lemma skipn_2 : forall (l : list N) a b, skipn b (skipn a l) = skipn (a + b) l.
Proof.
  intros l a. revert l. induction a as [|a IH]; intros l b; [reflexivity|].
  destruct l; [rewrite !skipn_nil; reflexivity|]. cbn [skipn Nat.add]. apply IH.
Qed.

Lemma body_rfc : forall n ptr s, regs_ok s -> (64 * n <= length ptr)%nat ->
  exists s', body n ptr s = Ok (s', skipn (64 * n) ptr) /\ regs_ok s' /\
    quad0 s' = rfc_blocks n (quad0 s) ptr.
Proof.
  induction n as [|n IH]; intros ptr s Hs Hl.
  { exists s. rewrite Nat.mul_0_r. repeat split; try reflexivity; apply Hs. }
  cbn [body]. rewrite (proj2 (Nat.ltb_ge _ _)) by lia.
  destruct (body_once_rfc ptr s Hs) as (H1 & H2).
  destruct (IH (skipn 64 ptr) (body_once ptr s) H1) as (s' & E1 & E2 & E3).
  { rewrite skipn_length. lia. }
  exists s'. split; [|split; [exact E2|]].
  - rewrite E1. do 2 f_equal. replace (64 * S n)%nat with (64 + 64 * n)%nat by lia.
    apply skipn_2.
  - cbn [rfc_blocks]. rewrite <- H2. exact E3.
Qed.

Lemma blocks_app : forall n k a b q, length a = (64 * n)%nat ->
  rfc_blocks (n + k) q (a ++ b) = rfc_blocks k (rfc_blocks n q a) b.
Proof.
  induction n as [|n IH]; intros k a b q H.
  { destruct a; [reflexivity | discriminate H]. }
  cbn [Nat.add rfc_blocks].
  rewrite firstn_app, skipn_app. replace (64 - length a)%nat with 0%nat by lia.
  change (firstn 0 b) with (@nil N). change (skipn 0 b) with b. rewrite app_nil_r. apply IH. rewrite skipn_length. lia.
Qed.

Lemma blocks_first : forall n q a b, (64 * n <= length a)%nat ->
  rfc_blocks n q (a ++ b) = rfc_blocks n q a.
Proof.
  induction n as [|n IH]; intros q a b H; [reflexivity|].
  cbn [rfc_blocks]. rewrite firstn_app, skipn_app. replace (64 - length a)%nat with 0%nat by lia.
  change (firstn 0 b) with (@nil N). change (skipn 0 b) with b. rewrite app_nil_r. apply IH. rewrite skipn_length. lia.
Qed.

(* ------------------------------------------------------------------ *)
(** ** MD5_Update *)

(** The context after the bytes [m]. *)
Record core (s : regs) (buf m : list N) : Prop := {
  co_len : length buf = 64%nat;
  co_regs : regs_ok s;
  co_quad : quad0 s = rfc_blocks (length m / 64) rfc_init m;
  co_buf : firstn (length m mod 64) buf = skipn (64 * (length m / 64)) m
}.

Definition lo_of (m : list N) : N := N.of_nat (length m) mod 2 ^ 29.
Definition hi_of (m : list N) : N := (N.of_nat (length m) / 2 ^ 29) mod 2 ^ 32.
Definition holds (ctx : md5_ctx) (m : list N) : Prop :=
  c_lo ctx = lo_of m /\ c_hi ctx = hi_of m /\ core (c_regs ctx) (c_buf ctx) m.

Lemma into_ok : forall buf off src, (off + length src <= length buf)%nat ->
  into buf off src = Ok (splice off src buf) /\ length (splice off src buf) = length buf.
Proof.
  intros buf off src H. unfold into, wr.
  rewrite (proj2 (N.leb_le _ _)) by lia. rewrite Nnat.Nat2N.id. split; [reflexivity|].
  unfold splice. rewrite !app_length, firstn_length, skipn_length. lia.
Qed.

Lemma splice_first : forall buf off src, (off + length src <= length buf)%nat ->
  firstn (off + length src) (splice off src buf) = firstn off buf ++ src.
Proof.
  intros buf off src H. unfold splice. rewrite app_assoc, firstn_app.
  rewrite app_length, firstn_length. replace (Nat.min off (length buf)) with off by lia.
  rewrite Nat.sub_diag. cbn [firstn]. rewrite app_nil_r. apply firstn_all2.
  rewrite app_length, firstn_length. lia.
Qed.

Lemma divmod64 : forall n, (n = 64 * (n / 64) + n mod 64 /\ n mod 64 < 64)%nat.
Proof. intros n. split; [apply Nat.div_mod; discriminate | apply Nat.mod_upper_bound; discriminate]. Qed.

Lemma div64_unique : forall n q r, (n = 64 * q + r -> r < 64 -> n / 64 = q /\ n mod 64 = r)%nat.
Proof. intros n q r -> H. split; [symmetry; apply (Nat.div_unique _ 64 q r); lia | symmetry; apply (Nat.mod_unique _ 64 q r); lia]. Qed.

Lemma rest_ok : forall lo hi s buf m data n,
  length m = (64 * n)%nat -> length buf = 64%nat -> regs_ok s ->
  quad0 s = rfc_blocks n rfc_init m ->
  exists s' buf', update_rest lo hi s buf data = Ok (mkCtx lo hi s' buf') /\
    core s' buf' (m ++ data).
Proof.
  intros lo hi s buf m data n Hm Hb Hs Hq.
  destruct (divmod64 (length data)) as (E1 & E2).
  set (k := (length data / 64)%nat) in *. set (r := (length data mod 64)%nat) in *.
  assert (X: exists s', (if (64 <=? length data)%nat then body (length data / 64) data s
                         else Ok (s, data)) = Ok (s', skipn (64 * k) data) /\ regs_ok s' /\
                        quad0 s' = rfc_blocks k (quad0 s) data).
  { destruct (Nat.leb_spec 64 (length data)).
    - apply body_rfc; [exact Hs | fold k; lia].
    - assert (k = 0)%nat by lia. rewrite H0. exists s. repeat split; try reflexivity; apply Hs. }
  destruct X as (s' & X1 & X2 & X3).
  unfold update_rest. rewrite X1. cbn [bind fst snd].
  assert (L: length (skipn (64 * k) data) = r) by (rewrite skipn_length; lia).
  destruct (into_ok buf 0 (skipn (64 * k) data)) as (I1 & I2); [rewrite L; lia|].
  rewrite I1. cbn [bind]. eexists _, _. split; [reflexivity|].
  destruct (div64_unique (length (m ++ data)) (n + k) r) as (D1 & D2); [rewrite app_length; lia | exact E2 |].
  constructor.
  - rewrite I2. exact Hb.
  - exact X2.
  - rewrite D1, X3, Hq. symmetry. apply blocks_app. exact Hm.
  - rewrite D1, D2.
    pose proof (splice_first buf 0 (skipn (64 * k) data)) as F. rewrite L in F.
    cbn [Nat.add firstn app] in F. rewrite F by lia.
    rewrite skipn_app, (skipn_all2 m) by lia. cbn [app]. f_equal. lia.
Qed.

Lemma lo_used : forall m, N.to_nat (N.land (lo_of m) 0x3F) = (length m mod 64)%nat.
Proof.
  intros m. change 0x3F with (N.ones 6). rewrite N.land_ones. unfold lo_of.
  change (2 ^ 29) with (2 ^ 6 * 2 ^ 23). rewrite N.mod_mul_r by discriminate.
  rewrite (N.mul_comm (2 ^ 6)), N.mod_add, N.mod_mod by discriminate.
  change (2 ^ 6) with (N.of_nat 64). rewrite <- Nnat.Nat2N.inj_mod. apply Nnat.Nat2N.id.
Qed.

Lemma counter : forall (m data : list N),
  let lo := N.land (w64 (lo_of m + N.of_nat (length data))) 0x1FFFFFFF in
  lo = lo_of (m ++ data) /\
  w32 ((if lo <? lo_of m then w32 (hi_of m + 1) else hi_of m) + N.shiftr (N.of_nat (length data)) 29)
  = hi_of (m ++ data).
Proof.
  intros m data lo. subst lo. unfold lo_of, hi_of. rewrite app_length, Nnat.Nat2N.inj_add.
  set (a := N.of_nat (length m)). set (b := N.of_nat (length data)). clearbody a b.
  change 0x1FFFFFFF with (N.ones 29). rewrite N.land_ones, N.shiftr_div_pow2. unfold w64, w32.
  change (2 ^ 64) with (2 ^ 29 * 2 ^ 35). rewrite N.mod_mul_r by discriminate.
  rewrite (N.mul_comm (2 ^ 29)), N.mod_add, N.mod_mod by discriminate.
  rewrite N.add_mod_idemp_l by discriminate. split; [reflexivity|].
  change (2 ^ 29) with 536870912. set (P := 536870912).
  pose proof (N.div_mod a P ltac:(discriminate)) as Ea. pose proof (N.mod_lt a P ltac:(discriminate)) as La.
  pose proof (N.div_mod b P ltac:(discriminate)) as Eb. pose proof (N.mod_lt b P ltac:(discriminate)) as Lb.
  set (qa := a / P) in *. set (ra := a mod P) in *. set (qb := b / P) in *. set (rb := b mod P) in *.
  clearbody qa ra qb rb. subst a b. unfold P in *. clear P.
  destruct (N.lt_ge_cases (ra + rb) 536870912) as [H|H].
  - assert (Q: (536870912 * qa + ra + (536870912 * qb + rb)) / 536870912 = qa + qb)
      by (symmetry; apply (N.div_unique _ _ _ (ra + rb)); lia).
    assert (R: (536870912 * qa + ra + (536870912 * qb + rb)) mod 536870912 = ra + rb)
      by (symmetry; apply (N.mod_unique _ _ (qa + qb)); lia).
    rewrite Q, R, (proj2 (N.ltb_ge _ _)) by lia.
    rewrite N.add_mod_idemp_l by discriminate. reflexivity.
  - assert (Q: (536870912 * qa + ra + (536870912 * qb + rb)) / 536870912 = qa + qb + 1)
      by (symmetry; apply (N.div_unique _ _ _ (ra + rb - 536870912)); lia).
    assert (R: (536870912 * qa + ra + (536870912 * qb + rb)) mod 536870912 = ra + rb - 536870912)
      by (symmetry; apply (N.mod_unique _ _ (qa + qb + 1)); lia).
    rewrite Q, R, (proj2 (N.ltb_lt _ _)) by lia.
    rewrite !N.add_mod_idemp_l by discriminate.
    replace (qa mod 2 ^ 32 + 1 + qb) with (qa mod 2 ^ 32 + (1 + qb)) by lia.
    rewrite N.add_mod_idemp_l by discriminate. f_equal. lia.
Qed.

Lemma update_ok : forall ctx m data, holds ctx m ->
  exists ctx', md5_update ctx data = Ok ctx' /\ holds ctx' (m ++ data).
Proof.
  intros ctx m data (Hlo & Hhi & [Hb Hs Hq Hf]). unfold md5_update.
  rewrite Hlo, Hhi. cbv zeta.
  destruct (counter m data) as (C1 & C2). cbv zeta in C1, C2. rewrite C2. rewrite C1. clear C1 C2.
  rewrite lo_used. destruct (divmod64 (length m)) as (M1 & M2).
  set (n := (length m / 64)%nat) in *. set (u := (length m mod 64)%nat) in *. clearbody n u.
  destruct (Nat.eqb_spec u 0) as [U|U].
  { destruct (rest_ok (lo_of (m ++ data)) (hi_of (m ++ data)) (c_regs ctx) (c_buf ctx) m data n)
      as (s' & b' & R1 & R2); auto; [lia|].
    rewrite R1. eexists. split; [reflexivity|]. repeat split; try reflexivity; apply R2. }
  assert (Lf: length (skipn (64 * n) m) = u) by (rewrite skipn_length; lia).
  destruct (Nat.ltb_spec (length data) (64 - u)) as [D|D].
  - destruct (into_ok (c_buf ctx) u data) as (I1 & I2); [lia|].
    rewrite I1. cbn [bind]. eexists. split; [reflexivity|].
    destruct (div64_unique (length (m ++ data)) n (u + length data)) as (D1 & D2);
      [rewrite app_length; lia | lia |].
    split; [reflexivity|]. split; [reflexivity|]. cbn [c_regs c_buf]. constructor.
    + rewrite I2. exact Hb.
    + exact Hs.
    + rewrite D1, Hq. symmetry. apply blocks_first. lia.
    + rewrite D1, D2, splice_first, Hf by lia. rewrite skipn_app.
      replace (64 * n - length m)%nat with 0%nat by lia. reflexivity.
  - assert (Lp: length (firstn (64 - u) data) = (64 - u)%nat) by (rewrite firstn_length; lia).
    destruct (into_ok (c_buf ctx) u (firstn (64 - u) data)) as (I1 & I2); [lia|].
    rewrite I1. cbn [bind].
    assert (B: splice u (firstn (64 - u) data) (c_buf ctx) = skipn (64 * n) m ++ firstn (64 - u) data).
    { rewrite <- Hf, <- splice_first by lia. symmetry. apply firstn_all2. rewrite I2. lia. }
    destruct (body_rfc 1 (splice u (firstn (64 - u) data) (c_buf ctx)) (c_regs ctx) Hs)
      as (s' & B1 & B2 & B3); [rewrite I2; lia|].
    rewrite B1. cbn [bind fst].
    destruct (rest_ok (lo_of (m ++ data)) (hi_of (m ++ data)) s'
                (splice u (firstn (64 - u) data) (c_buf ctx)) (m ++ firstn (64 - u) data)
                (skipn (64 - u) data) (n + 1)) as (s2 & b2 & R1 & R2).
    + rewrite app_length. lia.
    + rewrite I2. exact Hb.
    + exact B2.
    + rewrite B3, B, Hq. rewrite <- (firstn_skipn (64 * n) m) at 3. rewrite <- app_assoc.
      assert (F: length (firstn (64 * n) m) = (64 * n)%nat) by (rewrite firstn_length; lia).
      rewrite (blocks_app n 1 _ _ _ F). f_equal.
      rewrite <- (firstn_skipn (64 * n) m) at 1. apply blocks_first. lia.
    + rewrite R1. eexists. split; [reflexivity|].
      rewrite <- app_assoc, firstn_skipn in R2. repeat split; try reflexivity; apply R2.
Qed.

Lemma updates_ok : forall chunks ctx m, holds ctx m ->
  exists ctx', md5_updates ctx chunks = Ok ctx' /\ holds ctx' (m ++ concat chunks).
Proof.
  induction chunks as [|d chunks IH]; intros ctx m H.
  { exists ctx. cbn [md5_updates concat]. rewrite app_nil_r. auto. }
  destruct (update_ok ctx m d H) as (c1 & E1 & H1).
  destruct (IH c1 (m ++ d) H1) as (c2 & E2 & H2).
  exists c2. cbn [md5_updates concat]. rewrite E1. cbn [bind]. rewrite app_assoc. auto.
Qed.

Lemma init_holds : holds md5_init [].
Proof.
  repeat split; try reflexivity.
Qed.

(* ------------------------------------------------------------------ *)
(** ** MD5_Final *)

Lemma word_bytes_le : forall v, word_bytes v = le_bytes 4 v.
Proof.
  intros v. unfold word_bytes, w8. cbn [le_bytes]. rewrite !N.shiftr_div_pow2, !N.div_div by discriminate.
  reflexivity.
Qed.

Lemma le_bytes_split : forall n k v, le_bytes (n + k) v = le_bytes n v ++ le_bytes k (v / 256 ^ N.of_nat n).
Proof.
  induction n as [|n IH]; intros k v.
  { cbn [le_bytes Nat.add app N.of_nat]. rewrite N.pow_0_r, N.div_1_r. reflexivity. }
  cbn [Nat.add le_bytes app]. rewrite IH. do 3 f_equal.
  rewrite Nnat.Nat2N.inj_succ, N.pow_succ_r', N.div_div; auto; [discriminate|].
  apply N.pow_nonzero. discriminate.
Qed.

Lemma le_bytes_mod : forall n v, le_bytes n (v mod 256 ^ N.of_nat n) = le_bytes n v.
Proof.
  intros n v. pose proof (le_bytes_num (le_bytes n v) (le_bytes_ok n v)) as E.
  rewrite le_bytes_length, le_num_bytes in E. exact E.
Qed.

Lemma length_bytes : forall m,
  word_bytes (w32 (N.shiftl (lo_of m) 3)) ++ word_bytes (hi_of m)
  = le_bytes 8 ((8 * N.of_nat (length m)) mod 2 ^ 64).
Proof.
  intros m. rewrite !word_bytes_le. unfold lo_of, hi_of, w32.
  set (a := N.of_nat (length m)). clearbody a.
  rewrite (le_bytes_split 4 4). rewrite N.shiftl_mul_pow2.
  change (2 ^ 64) with (256 ^ N.of_nat 8).
  assert (E1: ((a mod 2 ^ 29) * 2 ^ 3) mod 2 ^ 32 = ((8 * a) mod 256 ^ N.of_nat 8) mod 256 ^ N.of_nat 4).
  { change (256 ^ N.of_nat 8) with (2 ^ 32 * 2 ^ 32). change (256 ^ N.of_nat 4) with (2 ^ 32).
    rewrite N.mod_mul_r by discriminate.
    rewrite (N.mul_comm (2 ^ 32) (_ mod _)), N.mod_add, N.mod_mod by discriminate.
    change (2 ^ 32) with (2 ^ 29 * 2 ^ 3). change 8 with (2 ^ 3). rewrite (N.mul_comm _ a).
    rewrite !N.mul_mod_distr_r by discriminate. rewrite N.mod_mod by discriminate. reflexivity. }
  assert (E2: ((8 * a) mod 256 ^ N.of_nat 8) / 256 ^ N.of_nat 4 = (a / 2 ^ 29) mod 2 ^ 32).
  { change (256 ^ N.of_nat 8) with (2 ^ 32 * 2 ^ 32). change (256 ^ N.of_nat 4) with (2 ^ 32).
    rewrite N.mod_mul_r by discriminate. rewrite N.add_comm, N.mul_comm.
    rewrite N.div_add_l by discriminate. rewrite (N.div_small (_ mod _)) by (apply N.mod_lt; discriminate).
    rewrite N.add_0_r. f_equal. change (2 ^ 32) with (8 * 2 ^ 29). apply N.div_mul_cancel_l; discriminate. }
  rewrite E1, E2, le_bytes_mod. reflexivity.
Qed.

Lemma pad_cases : forall u, (u < 64)%nat ->
  pad_zeros u = if (63 - u <? 8)%nat then (63 - u + 56)%nat else (63 - u - 8)%nat.
Proof.
  intros u H. unfold pad_zeros. rewrite (Nat.mod_small u) by exact H.
  destruct (Nat.ltb_spec (63 - u) 8).
  - rewrite Nat.mod_small; lia.
  - replace (119 - u)%nat with (55 - u + 1 * 64)%nat by lia. rewrite Nat.mod_add by discriminate.
    rewrite Nat.mod_small; lia.
Qed.

Lemma pad_mod : forall n, pad_zeros n = pad_zeros (n mod 64).
Proof. intros n. unfold pad_zeros. rewrite Nat.mod_mod by discriminate. reflexivity. Qed.

Lemma splice_all : forall buf off src, (off + length src = length buf)%nat ->
  splice off src buf = firstn off buf ++ src.
Proof.
  intros buf off src H. unfold splice. rewrite skipn_all2 by lia. rewrite app_nil_r. reflexivity.
Qed.

(** The last block: the message part [p], which fills the buffer up to [56]. *)
Lemma tail_block : forall buf p lo8 hi8, length buf = 64%nat -> length p = 56%nat ->
  length lo8 = 4%nat -> length hi8 = 4%nat -> firstn 56 buf = p ->
  exists b1, into buf 56 lo8 = Ok b1 /\ exists b2, into b1 60 hi8 = Ok b2 /\ b2 = p ++ lo8 ++ hi8.
Proof.
  intros buf p l h Hb Hp Hl Hh Hf.
  destruct (into_ok buf 56 l) as (I1 & I2); [lia|]. eexists. split; [exact I1|].
  destruct (into_ok (splice 56 l buf) 60 h) as (J1 & J2); [lia|]. eexists. split; [exact J1|].
  rewrite splice_all by lia.
  replace 60%nat with (56 + length l)%nat by lia. rewrite splice_first by lia.
  rewrite Hf, <- app_assoc. reflexivity.
Qed.

Lemma final_ok : forall ctx m, holds ctx m -> md5_final ctx = Ok (rfc_md5 m).
Proof.
  intros ctx m (Hlo & Hhi & [Hb Hs Hq Hf]). unfold md5_final. rewrite Hlo, Hhi. cbv zeta.
  rewrite lo_used. destruct (divmod64 (length m)) as (M1 & M2).
  pose proof (pad_mod (length m)) as PM. pose proof (pad_cases _ M2) as PC.
  pose proof (length_bytes m) as LB.
  set (n := (length m / 64)%nat) in *. set (u := (length m mod 64)%nat) in *. clearbody n u.
  set (lob := word_bytes (w32 (N.shiftl (lo_of m) 3))) in *.
  set (hib := word_bytes (hi_of m)) in *.
  assert (Ll: length lob = 4%nat) by reflexivity. assert (Lh: length hib = 4%nat) by reflexivity.
  clearbody lob hib.
  set (tl := skipn (64 * n) m) in *.
  assert (Lt: length tl = u) by (unfold tl; rewrite skipn_length; lia).
  assert (Mq: m = firstn (64 * n) m ++ tl) by (unfold tl; symmetry; apply firstn_skipn).
  assert (Lm: length (firstn (64 * n) m) = (64 * n)%nat) by (rewrite firstn_length; lia).
  assert (Q0: quad0 (c_regs ctx) = rfc_blocks n rfc_init (firstn (64 * n) m)).
  { rewrite Hq. rewrite Mq at 1. apply blocks_first. lia. }
  destruct (into_ok (c_buf ctx) u [128]) as (I1 & I2); [cbn [length]; lia|].
  rewrite I1. cbn [bind].
  pose proof (splice_first (c_buf ctx) u [128]) as F1. cbn [length] in F1. rewrite Hf in F1.
  specialize (F1 ltac:(lia)).
  set (b1 := splice u [128] (c_buf ctx)) in *. clearbody b1.
  replace (64 - S u)%nat with (63 - u)%nat by lia.
  assert (Out: forall k z s' b2, regs_ok s' -> quad0 s' = rfc_blocks k rfc_init z ->
     length z = (64 * k)%nat -> z ++ b2 = rfc_pad m -> length b2 = 64%nat ->
     bind (body 1 b2 s') (fun p => Ok (word_bytes (va (fst p)) ++ word_bytes (vb (fst p)) ++
        word_bytes (vc (fst p)) ++ word_bytes (vd (fst p)))) = Ok (rfc_md5 m)).
  { intros k z s' b2 H1 H2 H3 H4 H5. destruct (body_rfc 1 b2 s' H1) as (e & B1 & _ & B3); [lia|].
    rewrite B1. cbn [bind fst]. unfold rfc_md5. rewrite <- H4.
    replace (length (z ++ b2) / 64)%nat with (k + 1)%nat.
    - rewrite (blocks_app k 1 z b2 rfc_init H3), <- H2, <- B3. unfold quad0.
      rewrite !word_bytes_le. reflexivity.
    - rewrite app_length, H3, H5. symmetry. apply (div64_unique _ (k + 1) 0); lia. }
  destruct (Nat.ltb_spec (63 - u) 8) as [D|D].
  - destruct (into_ok b1 (S u) (repeat 0 (63 - u))) as (J1 & J2); [rewrite repeat_length; lia|].
    rewrite J1. cbn [bind].
    assert (B: splice (S u) (repeat 0 (63 - u)) b1 = tl ++ [128] ++ repeat 0 (63 - u)).
    { rewrite splice_all by (rewrite repeat_length; lia).
      replace (S u) with (u + 1)%nat by lia. rewrite F1, <- app_assoc. reflexivity. }
    set (b2 := splice (S u) (repeat 0 (63 - u)) b1) in *. clearbody b2.
    destruct (body_rfc 1 b2 (c_regs ctx) Hs) as (s' & B1 & B2 & B3); [lia|].
    rewrite B1. cbn [bind fst]. change (64 - 8)%nat with 56%nat.
    destruct (into_ok b2 0 (repeat 0 56)) as (K1 & K2); [rewrite repeat_length; lia|].
    rewrite K1. cbn [bind].
    pose proof (splice_first b2 0 (repeat 0 56)) as F2. rewrite repeat_length in F2.
    change (firstn 0 b2) with (@nil N) in F2. cbn [Nat.add app] in F2. specialize (F2 ltac:(lia)).
    set (b3 := splice 0 (repeat 0 56) b2) in *. clearbody b3.
    destruct (tail_block b3 (repeat 0 56) lob hib) as (c1 & T1 & c2 & T2 & T3);
      [lia | apply repeat_length | exact Ll | exact Lh | exact F2 |].
    rewrite T1. cbn [bind]. rewrite T2. cbn [bind]. subst c2.
    apply (Out (n + 1)%nat (firstn (64 * n) m ++ b2)).
    + exact B2.
    + rewrite B3, Q0. symmetry. apply blocks_app. exact Lm.
    + rewrite app_length. lia.
    + unfold rfc_pad. rewrite B, PM, PC, repeat_app, <- LB. rewrite <- !app_assoc.
      rewrite (app_assoc (firstn (64 * n) m) tl), <- Mq. reflexivity.
    + rewrite !app_length, repeat_length. lia.
  - cbn [bind].
    destruct (into_ok b1 (S u) (repeat 0 (63 - u - 8))) as (J1 & J2); [rewrite repeat_length; lia|].
    rewrite J1. cbn [bind].
    pose proof (splice_first b1 (S u) (repeat 0 (63 - u - 8))) as F2. rewrite repeat_length in F2.
    specialize (F2 ltac:(lia)). replace (S u) with (u + 1)%nat in F2 at 3 by lia. rewrite F1 in F2.
    replace (S u + (63 - u - 8))%nat with 56%nat in F2 by lia.
    set (b3 := splice (S u) (repeat 0 (63 - u - 8)) b1) in *. clearbody b3.
    destruct (tail_block b3 ((tl ++ [128]) ++ repeat 0 (63 - u - 8)) lob hib) as (c1 & T1 & c2 & T2 & T3);
      [lia | rewrite !app_length, repeat_length; cbn [length]; lia | exact Ll | exact Lh | exact F2 |].
    rewrite T1. cbn [bind]. rewrite T2. cbn [bind]. subst c2.
    apply (Out n (firstn (64 * n) m)).
    + exact Hs.
    + exact Q0.
    + exact Lm.
    + unfold rfc_pad. rewrite PM, PC, <- LB. rewrite <- !app_assoc.
      rewrite (app_assoc (firstn (64 * n) m) tl), <- Mq. reflexivity.
    + rewrite !app_length, repeat_length. cbn [length]. lia.
Qed.

Lemma md5_rfc : forall chunks, md5_checksum chunks = Ok (rfc_md5 (concat chunks)).
Proof.
  intros chunks. unfold md5_checksum.
  destruct (updates_ok chunks md5_init [] init_holds) as (c & E & H).
  rewrite E. cbn [bind]. rewrite (final_ok c _ H). reflexivity.
Qed.
