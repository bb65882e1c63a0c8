(** Shared vocabulary: bytes, integer codecs, outcomes. Nothing here models a particular
    function of mdflib; these are the notions both models and specifications use. *)
From Coq Require Export List NArith ZArith Lia Bool Arith.
From Coq Require Export ZifyBool ZifyNat ZifyN.
Export ListNotations.
Ltac Zify.zify_post_hook ::= Z.div_mod_to_equations.

(** Outcome of a C++ operation: normal result, reported failure, undefined behaviour. *)
Inductive res (A : Type) : Type :=
| Ok (a : A)
| Fail
| UB.
Arguments Ok {A} a.
Arguments Fail {A}.
Arguments UB {A}.

Definition bind {A B} (r : res A) (f : A -> res B) : res B :=
  match r with Ok a => f a | Fail => Fail | UB => UB end.

(** A byte is an [N] below 256. *)
Definition byte_ok (b : N) : Prop := (b < 256)%N.
Definition bytes_ok (l : list N) : Prop := Forall byte_ok l.

(** The number denoted by a little-endian / big-endian byte string. *)
Fixpoint le_num (l : list N) : N :=
  match l with
  | [] => 0
  | b :: r => b + 256 * le_num r
  end%N.

Definition be_num (l : list N) : N := le_num (rev l).

(** The [n] byte little-endian / big-endian representation of [v] (modulo [256^n]). *)
Fixpoint le_bytes (n : nat) (v : N) : list N :=
  match n with
  | O => []
  | S k => (v mod 256)%N :: le_bytes k (v / 256)%N
  end.

Definition be_bytes (n : nat) (v : N) : list N := rev (le_bytes n v).

(** [len] bytes of [l] from offset [off]. *)
Definition slice (off len : nat) (l : list N) : list N := firstn len (skipn off l).

(** [dst] with the bytes from [off] on replaced by [src]. *)
Definition splice (off : nat) (src dst : list N) : list N :=
  firstn off dst ++ src ++ skipn (off + length src) dst.

(** Two's complement reading of the low [w] bits. *)
Definition twos (w : N) (u : N) : Z :=
  if (u <? 2 ^ (w - 1))%N then Z.of_N u else (Z.of_N u - Z.of_N (2 ^ w))%Z.

Definition w8 (x : N) : N := (x mod 2 ^ 8)%N.
Definition w16 (x : N) : N := (x mod 2 ^ 16)%N.
Definition w32 (x : N) : N := (x mod 2 ^ 32)%N.
Definition w64 (x : N) : N := (x mod 2 ^ 64)%N.

(** [static_cast<int>] of an unsigned value. *)
Definition to_int32 (x : N) : Z :=
  let m := (x mod 2 ^ 32)%N in
  if (m <? 2 ^ 31)%N then Z.of_N m else (Z.of_N m - 2 ^ 32)%Z.

(** [static_cast<uint64_t>] of a signed value. *)
Definition to_u64 (z : Z) : N := Z.to_N (z mod 2 ^ 64)%Z.

(** Checked read of one byte: [None] is an out-of-bounds access. *)
Definition rd (buf : list N) (i : Z) : option N :=
  if ((0 <=? i) && (i <? Z.of_nat (length buf)))%Z
  then Some (nth (Z.to_nat i) buf 0%N) else None.

(** Checked block write ([memcpy] into a vector): [None] is an out-of-bounds access. *)
Definition wr (buf : list N) (off : N) (src : list N) : option (list N) :=
  if (off + N.of_nat (length src) <=? N.of_nat (length buf))%N
  then Some (splice (N.to_nat off) src buf) else None.

(* ------------------------------------------------------------------ *)
(** * Facts about lists of bytes *)

Lemma le_bytes_length : forall n v, length (le_bytes n v) = n.
Proof. induction n; intros; simpl; auto. Qed.

Lemma be_bytes_length : forall n v, length (be_bytes n v) = n.
Proof. intros; unfold be_bytes; rewrite rev_length; apply le_bytes_length. Qed.

Lemma le_bytes_ok : forall n v, bytes_ok (le_bytes n v).
Proof.
  induction n; intros; simpl; constructor.
  - unfold byte_ok. apply N.mod_lt; lia.
  - apply IHn.
Qed.

Lemma bytes_ok_rev : forall l, bytes_ok l -> bytes_ok (rev l).
Proof. intros l H. unfold bytes_ok in *. rewrite Forall_forall in *.
  intros x Hx. apply H. apply in_rev; exact Hx. Qed.

Lemma be_bytes_ok : forall n v, bytes_ok (be_bytes n v).
Proof. intros. apply bytes_ok_rev, le_bytes_ok. Qed.

Lemma bytes_ok_app : forall a b, bytes_ok a -> bytes_ok b -> bytes_ok (a ++ b).
Proof. intros; apply Forall_app; auto. Qed.

Lemma bytes_ok_app_inv : forall a b, bytes_ok (a ++ b) -> bytes_ok a /\ bytes_ok b.
Proof. intros; apply Forall_app; auto. Qed.

Lemma bytes_ok_firstn : forall n l, bytes_ok l -> bytes_ok (firstn n l).
Proof.
  intros n l H. rewrite <- (firstn_skipn n l) in H.
  apply bytes_ok_app_inv in H. tauto.
Qed.

Lemma bytes_ok_skipn : forall n l, bytes_ok l -> bytes_ok (skipn n l).
Proof.
  intros n l H. rewrite <- (firstn_skipn n l) in H.
  apply bytes_ok_app_inv in H. tauto.
Qed.

Lemma bytes_ok_slice : forall o n l, bytes_ok l -> bytes_ok (slice o n l).
Proof. intros. apply bytes_ok_firstn, bytes_ok_skipn; auto. Qed.

Lemma bytes_ok_nth : forall l i, bytes_ok l -> (nth i l 0 < 256)%N.
Proof.
  intros l i H. destruct (Nat.lt_ge_cases i (length l)).
  - unfold bytes_ok in H. rewrite Forall_forall in H. apply H. apply nth_In; auto.
  - rewrite nth_overflow by auto. lia.
Qed.

Lemma pow256 : forall n : nat, (256 ^ N.of_nat n = 2 ^ (8 * N.of_nat n))%N.
Proof. intros. change 256%N with (2 ^ 8)%N. rewrite <- N.pow_mul_r. reflexivity. Qed.

Lemma pow256_S : forall n : nat, (256 ^ N.of_nat (S n) = 256 * 256 ^ N.of_nat n)%N.
Proof. intros. rewrite Nat2N.inj_succ, N.pow_succ_r'. reflexivity. Qed.

Lemma pow256_pos : forall n, (0 < 256 ^ n)%N.
Proof. intros. assert (256 ^ n <> 0)%N by (apply N.pow_nonzero; lia). lia. Qed.

Lemma pow2_pos : forall n, (0 < 2 ^ n)%N.
Proof. intros. assert (2 ^ n <> 0)%N by (apply N.pow_nonzero; lia). lia. Qed.

Lemma le_num_bytes : forall n v, le_num (le_bytes n v) = (v mod 256 ^ N.of_nat n)%N.
Proof.
  induction n; intros v.
  - simpl. rewrite N.mod_1_r. reflexivity.
  - cbn [le_bytes le_num]. rewrite IHn, pow256_S.
    rewrite N.mod_mul_r by (try lia; apply N.pow_nonzero; lia). reflexivity.
Qed.

Lemma le_num_bound : forall l, bytes_ok l -> (le_num l < 256 ^ N.of_nat (length l))%N.
Proof.
  induction l; intros H.
  - simpl. lia.
  - inversion H; subst. cbn [le_num length]. rewrite pow256_S.
    specialize (IHl H3). unfold byte_ok in H2.
    pose proof (pow256_pos (N.of_nat (length l))). nia.
Qed.

Lemma le_bytes_num : forall l, bytes_ok l -> le_bytes (length l) (le_num l) = l.
Proof.
  induction l; intros H; [reflexivity|].
  inversion H; subst. cbn [le_num length le_bytes].
  unfold byte_ok in H2.
  replace ((a + 256 * le_num l) mod 256)%N with a.
  2:{ rewrite (N.mul_comm 256), N.mod_add, N.mod_small; lia. }
  replace ((a + 256 * le_num l) / 256)%N with (le_num l).
  2:{ rewrite (N.mul_comm 256), N.div_add, N.div_small; lia. }
  rewrite IHl; auto.
Qed.

Lemma be_num_bytes : forall n v, be_num (be_bytes n v) = (v mod 256 ^ N.of_nat n)%N.
Proof. intros. unfold be_num, be_bytes. rewrite rev_involutive. apply le_num_bytes. Qed.

Lemma be_bytes_num : forall l, bytes_ok l -> be_bytes (length l) (be_num l) = l.
Proof.
  intros l H. unfold be_num, be_bytes. rewrite <- rev_length.
  rewrite le_bytes_num by (apply bytes_ok_rev; auto). apply rev_involutive.
Qed.

Lemma le_bytes_inj : forall n a b,
  (a < 256 ^ N.of_nat n)%N -> (b < 256 ^ N.of_nat n)%N ->
  le_bytes n a = le_bytes n b -> a = b.
Proof.
  intros n a b Ha Hb H.
  assert (E: le_num (le_bytes n a) = le_num (le_bytes n b)) by (rewrite H; reflexivity).
  rewrite !le_num_bytes in E. rewrite !N.mod_small in E by auto. exact E.
Qed.

Lemma le_num_app : forall a b,
  le_num (a ++ b) = (le_num a + 256 ^ N.of_nat (length a) * le_num b)%N.
Proof.
  induction a; intros b.
  - cbn [app le_num length N.of_nat]. rewrite N.pow_0_r. lia.
  - cbn [app le_num length]. rewrite IHa, pow256_S. lia.
Qed.

Lemma testbit_small : forall b i n, (b < 2 ^ n)%N -> (n <= i)%N -> N.testbit b i = false.
Proof.
  intros b i n Hb Hi. destruct (N.eq_dec b 0) as [->|Hnz].
  - apply N.bits_0.
  - apply N.bits_above_log2. apply N.log2_lt_pow2 in Hb; lia.
Qed.

(** Bit [i] of a little-endian number is bit [i mod 8] of byte [i / 8]. *)
Lemma le_num_testbit : forall l i, bytes_ok l ->
  N.testbit (le_num l) i = N.testbit (nth (N.to_nat (i / 8)) l 0%N) (i mod 8).
Proof.
  induction l as [|b l IH]; intros i H.
  - cbn [le_num]. destruct (N.to_nat (i/8)); cbn [nth]; rewrite !N.bits_0; reflexivity.
  - inversion H; subst. unfold byte_ok in H2. cbn [le_num].
    assert (Hlow: forall k, (k < 8)%N -> N.testbit (b + 256 * le_num l) k = N.testbit b k).
    { intros k Hk.
      rewrite <- (N.mod_pow2_bits_low (b + 256 * le_num l) 8 k) by auto.
      change (2^8)%N with 256%N. rewrite (N.mul_comm 256), N.mod_add by lia.
      rewrite N.mod_small by auto. reflexivity. }
    destruct (N.lt_ge_cases i 8) as [Hi|Hi].
    + rewrite N.div_small, N.mod_small by auto. cbn [N.to_nat nth]. apply Hlow; auto.
    + replace i with ((i - 8) + 8)%N at 1 by lia.
      rewrite <- N.div_pow2_bits. change (2^8)%N with 256%N.
      rewrite (N.mul_comm 256), N.div_add, N.div_small by lia. rewrite N.add_0_l.
      rewrite IH by auto.
      replace (i / 8)%N with (N.succ ((i - 8) / 8)).
      2:{ replace i with ((i-8) + 1*8)%N at 2 by lia. rewrite N.div_add by lia. lia. }
      rewrite N2Nat.inj_succ. cbn [nth].
      replace (i mod 8)%N with ((i - 8) mod 8)%N; [reflexivity|].
      replace i with ((i-8) + 1*8)%N at 2 by lia. rewrite N.mod_add by lia. reflexivity.
Qed.

Lemma slice_length : forall o n l, (o + n <= length l)%nat -> length (slice o n l) = n.
Proof. intros. unfold slice. rewrite firstn_length, skipn_length. lia. Qed.

Lemma nth_slice : forall l o n i d, (i < n)%nat ->
  nth i (slice o n l) d = nth (o + i) l d.
Proof.
  intros l o n i d Hi. unfold slice.
  assert (E: nth i (firstn n (skipn o l)) d = nth i (skipn o l) d).
  { rewrite <- (firstn_skipn n (skipn o l)) at 2.
    destruct (Nat.lt_ge_cases i (length (firstn n (skipn o l)))) as [H|H].
    - rewrite app_nth1 by auto. reflexivity.
    - rewrite nth_overflow by auto.
      rewrite firstn_length, skipn_length in H.
      rewrite nth_overflow; auto. rewrite firstn_skipn, skipn_length. lia. }
  rewrite E. rewrite <- (firstn_skipn o l) at 2.
  destruct (Nat.lt_ge_cases o (length l)).
  - rewrite app_nth2; rewrite firstn_length, Nat.min_l by lia; [|lia].
    f_equal. lia.
  - rewrite skipn_all2 by lia. rewrite app_nil_r, firstn_all2 by lia.
    rewrite !nth_overflow; simpl; auto; lia.
Qed.

Lemma splice_length : forall o s d, (o + length s <= length d)%nat ->
  length (splice o s d) = length d.
Proof.
  intros. unfold splice. rewrite !app_length, firstn_length, skipn_length. lia.
Qed.

Lemma nth_splice_in : forall o s d i x, (o + length s <= length d)%nat ->
  (i < length s)%nat -> nth (o + i) (splice o s d) x = nth i s x.
Proof.
  intros. unfold splice.
  rewrite app_nth2; rewrite firstn_length, Nat.min_l by lia; [|lia].
  rewrite app_nth1 by lia. f_equal; lia.
Qed.

Lemma nth_splice_out : forall o s d i x, (o + length s <= length d)%nat ->
  (i < o \/ o + length s <= i)%nat -> nth i (splice o s d) x = nth i d x.
Proof.
  intros o s d i x Hlen [Hi|Hi]; unfold splice.
  - rewrite app_nth1 by (rewrite firstn_length; lia).
    rewrite <- (firstn_skipn o d) at 2.
    rewrite app_nth1 by (rewrite firstn_length; lia). reflexivity.
  - rewrite app_nth2; rewrite firstn_length, Nat.min_l by lia; [|lia].
    rewrite app_nth2 by lia.
    rewrite <- (firstn_skipn (o + length s) d) at 2.
    rewrite (app_nth2 (firstn (o + length s) d));
      rewrite firstn_length, Nat.min_l by lia; [|lia].
    f_equal; lia.
Qed.

Lemma bytes_ok_splice : forall o s d, bytes_ok s -> bytes_ok d -> bytes_ok (splice o s d).
Proof.
  intros. unfold splice. repeat apply bytes_ok_app; auto.
  - apply bytes_ok_firstn; auto.
  - apply bytes_ok_skipn; auto.
Qed.

Lemma slice_splice_same : forall o s d, (o + length s <= length d)%nat ->
  slice o (length s) (splice o s d) = s.
Proof.
  intros o s d H. unfold slice, splice.
  rewrite skipn_app. rewrite skipn_all2 by (rewrite firstn_length; lia).
  rewrite firstn_length, Nat.min_l, Nat.sub_diag by lia. cbn [app skipn].
  rewrite firstn_app, Nat.sub_diag, firstn_O, app_nil_r. apply firstn_all.
Qed.

Lemma list_eq_nth : forall (a b : list N),
  length a = length b -> (forall i, (i < length a)%nat -> nth i a 0%N = nth i b 0%N) -> a = b.
Proof. intros. apply nth_ext with (d := 0%N) (d' := 0%N); auto. Qed.

Lemma slice_splice_out : forall o s d o' n, (o + length s <= length d)%nat ->
  (o' + n <= o \/ o + length s <= o')%nat -> (o' + n <= length d)%nat ->
  slice o' n (splice o s d) = slice o' n d.
Proof.
  intros o s d o' n H Hd Hn. apply list_eq_nth.
  - rewrite !slice_length; auto. rewrite splice_length; auto.
  - intros i Hi. rewrite slice_length in Hi by (rewrite splice_length; auto).
    rewrite !nth_slice by auto. apply nth_splice_out; auto. lia.
Qed.

Lemma slice_app_l : forall a b o n, (o + n <= length a)%nat ->
  slice o n (a ++ b) = slice o n a.
Proof.
  intros. unfold slice. rewrite skipn_app, firstn_app.
  rewrite skipn_length. replace (n - (length a - o))%nat with 0%nat by lia.
  rewrite firstn_O, app_nil_r. reflexivity.
Qed.

Lemma slice_app_r : forall a b o n, (length a <= o)%nat ->
  slice o n (a ++ b) = slice (o - length a) n b.
Proof.
  intros. unfold slice. rewrite skipn_app, skipn_all2 by lia. reflexivity.
Qed.

Lemma slice_full : forall l, slice 0 (length l) l = l.
Proof. intros. unfold slice. cbn [skipn]. apply firstn_all. Qed.

Lemma le_num_lt_pow : forall l n, bytes_ok l -> length l = n ->
  (le_num l < 2 ^ (8 * N.of_nat n))%N.
Proof. intros l n H <-. rewrite <- pow256. apply le_num_bound; auto. Qed.

Lemma be_num_lt_pow : forall l n, bytes_ok l -> length l = n ->
  (be_num l < 2 ^ (8 * N.of_nat n))%N.
Proof.
  intros l n H <-. unfold be_num. rewrite <- rev_length.
  apply le_num_lt_pow; auto. apply bytes_ok_rev; auto.
Qed.

Lemma skipn_plus : forall {A} a b (l : list A), skipn a (skipn b l) = skipn (b + a) l.
Proof.
  induction b as [|b IH]; intros l; [reflexivity|].
  destruct l as [|x l]; [rewrite !skipn_nil; reflexivity|].
  cbn [skipn Nat.add]. apply IH.
Qed.
