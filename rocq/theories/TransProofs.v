(** Proofs about the transposition. *)
From Verif Require Import Base BlockModel BlockProofs2 DataModel.
From Coq Require Import Lia.

Lemma NoDup_map_on : forall (A B : Type) (f : A -> B) l, NoDup l ->
  (forall x y, In x l -> In y l -> f x = f y -> x = y) -> NoDup (map f l).
Proof.
  induction l as [|x l IH]; intros D H; [constructor|]. inversion D as [|? ? D1 D2]; subst.
  cbn [map]. constructor.
  - intros IN. apply in_map_iff in IN as (y & E & IN). apply D1.
    rewrite (H x y); auto; [left; auto|right; auto].
  - apply IH; auto. intros. apply H; auto; right; auto.
Qed.

Lemma in_cells : forall rows columns a b, In (a, b) (cells rows columns) <->
  exists r c, r < rows /\ c < columns /\ a = r * columns + c /\ b = c * rows + r.
Proof.
  intros. unfold cells. rewrite in_flat_map. split.
  - intros (r & R & IN). apply in_seq in R. apply in_map_iff in IN as (c & E & C). apply in_seq in C.
    injection E as <- <-. exists r, c. lia.
  - intros (r & c & R & C & -> & ->). exists r. split; [apply in_seq; lia|].
    apply in_map_iff. exists c. split; auto. apply in_seq. lia.
Qed.

Lemma cells_fst : forall rows columns, map fst (cells rows columns) = seq 0 (rows * columns).
Proof.
  intros rows columns. unfold cells.
  assert (G : forall k n s, map fst (flat_map (fun row => map (fun column => (row * columns + column, column * k + row))
     (seq 0 columns)) (seq s n)) = seq (s * columns) (n * columns)).
  { intros k. induction n as [|n IH]; intros s; [reflexivity|].
    cbn [seq flat_map]. rewrite map_app, IH, map_map. cbn [fst].
    replace (S n * columns) with (columns + n * columns) by lia.
    rewrite seq_app. f_equal.
    - clear. assert (H : forall m z, map (fun x => s * columns + x) (seq z m) = seq (s * columns + z) m).
      { induction m as [|m IH]; intros z'; [reflexivity|]. cbn [seq map]. f_equal. rewrite IH. f_equal. lia. }
      specialize (H columns 0). rewrite Nat.add_0_r in H. exact H.
    - f_equal. lia. }
  exact (G rows rows 0).
Qed.

Lemma cells_nodup : forall rows columns, NoDup (cells rows columns).
Proof.
  intros. apply (NoDup_map_inv fst). rewrite cells_fst. apply seq_NoDup.
Qed.

Lemma cells_snd_nodup : forall rows columns, NoDup (map snd (cells rows columns)).
Proof.
  intros. apply NoDup_map_on; [apply cells_nodup|].
  intros [a b] [a' b'] H H' E. cbn [snd] in E. subst b'.
  apply in_cells in H as (r & c & R & C & -> & ->). apply in_cells in H' as (r' & c' & R' & C' & -> & E').
  assert (c = c') by nia. subst. assert (r = r') by lia. subst. reflexivity.
Qed.

Lemma cells_range : forall rows columns a b, In (a, b) (cells rows columns) ->
  a < rows * columns /\ b < rows * columns.
Proof.
  intros rows columns a b H. apply in_cells in H as (r & c & R & C & -> & ->). split; nia.
Qed.

Lemma cells_snd_cover : forall rows columns j, j < rows * columns -> exists a, In (a, j) (cells rows columns).
Proof.
  intros rows columns j H. destruct rows as [|k]; [lia|].
  exists (j mod S k * columns + j / S k). apply in_cells. exists (j mod S k), (j / S k).
  pose proof (Nat.div_mod j (S k) ltac:(lia)). pose proof (Nat.mod_upper_bound j (S k) ltac:(lia)).
  split; [auto|]. split; [apply Nat.div_lt_upper_bound; lia|]. split; lia.
Qed.

Lemma cells_fst_cover : forall rows columns j, j < rows * columns -> exists b, In (j, b) (cells rows columns).
Proof.
  intros rows columns j H. assert (IN : In j (map fst (cells rows columns))) by (rewrite cells_fst; apply in_seq; lia).
  apply in_map_iff in IN as ([a b] & E & IN). cbn in E. subst. eauto.
Qed.

Lemma nth_set_nth : forall l i j v, i < length l -> nth j (set_nth l i v) 0%N = if j =? i then v else nth j l 0%N.
Proof. intros. apply link_set_nth. auto. Qed.

Lemma fold_moves : forall ms temp data, NoDup (map snd ms) ->
  (forall m, In m ms -> snd m < length data) ->
  length (fold_left (move temp) ms data) = length data /\
  (forall a b, In (a, b) ms -> nth b (fold_left (move temp) ms data) 0%N = nth a temp 0%N) /\
  (forall j, ~ In j (map snd ms) -> nth j (fold_left (move temp) ms data) 0%N = nth j data 0%N).
Proof.
  induction ms as [|[a b] ms IH]; intros temp data D R.
  - cbn. split; auto. split; auto. intros ? ? [].
  - cbn [map snd] in D. inversion D as [|? ? D1 D2]; subst. cbn [fold_left move].
    assert (B : b < length data) by (apply (R (a, b)); left; auto).
    destruct (IH temp (set_nth data b (nth a temp 0%N)) D2) as (L & H1 & H2).
    { intros m IN. rewrite set_nth_length. apply R. right. auto. }
    rewrite set_nth_length in L. split; [auto|]. split.
    + intros a' b' [E|IN]; [|auto]. injection E as <- <-. rewrite H2 by auto.
      rewrite nth_set_nth by auto. rewrite Nat.eqb_refl. reflexivity.
    + intros j NI. cbn [map snd] in NI. rewrite H2 by (intros X; apply NI; right; auto).
      rewrite nth_set_nth by auto. destruct (Nat.eqb_spec j b) as [->|]; auto.
      exfalso. apply NI. left. auto.
Qed.

Lemma rows_fit : forall n k, n / S k * S k <= n.
Proof. intros. rewrite Nat.mul_comm. apply Nat.mul_div_le. lia. Qed.

Lemma transpose_spec : forall k data, k <> 0 ->
  let rows := length data / k in
  length (transpose k data) = length data /\
  (forall a b, In (a, b) (cells rows k) -> nth b (transpose k data) 0%N = nth a data 0%N) /\
  (forall j, rows * k <= j -> nth j (transpose k data) 0%N = nth j data 0%N).
Proof.
  intros [|k] data K rows; [lia|]. cbn [transpose]. fold rows.
  destruct (fold_moves (cells rows (S k)) data data) as (L & H1 & H2).
  - apply cells_snd_nodup.
  - intros [a b] IN. apply cells_range in IN. pose proof (rows_fit (length data) k). fold rows in H. cbn [snd]. lia.
  - split; [auto|]. split; [auto|]. intros j J. apply H2. intros IN.
    apply in_map_iff in IN as ([a b] & E & IN). cbn in E. subst. apply cells_range in IN. lia.
Qed.

Lemma map_swap_snd : forall l : list (nat * nat), map snd (map (fun m => (snd m, fst m)) l) = map fst l.
Proof. intros. rewrite map_map. reflexivity. Qed.

Lemma inv_transpose_spec : forall k data, k <> 0 ->
  let rows := length data / k in
  length (inv_transpose k data) = length data /\
  (forall a b, In (a, b) (cells rows k) -> nth a (inv_transpose k data) 0%N = nth b data 0%N) /\
  (forall j, rows * k <= j -> nth j (inv_transpose k data) 0%N = nth j data 0%N).
Proof.
  intros [|k] data K rows; [lia|]. cbn [inv_transpose]. fold rows.
  destruct (fold_moves (map (fun m => (snd m, fst m)) (cells rows (S k))) data data) as (L & H1 & H2).
  - rewrite map_swap_snd, cells_fst. apply seq_NoDup.
  - intros m IN. apply in_map_iff in IN as ([a b] & <- & IN). apply cells_range in IN.
    pose proof (rows_fit (length data) k). fold rows in H. cbn [snd fst]. lia.
  - split; [auto|]. split.
    + intros a b IN. apply H1. apply in_map_iff. exists (a, b). auto.
    + intros j J. apply H2. rewrite map_swap_snd, cells_fst. intros IN. apply in_seq in IN. lia.
Qed.

Lemma list_ext_nth : forall (a b : list N), length a = length b ->
  (forall j, j < length a -> nth j a 0%N = nth j b 0%N) -> a = b.
Proof.
  induction a as [|x a IH]; intros [|y b] L H; try discriminate L; auto.
  f_equal; [exact (H 0 ltac:(cbn; lia))|]. apply IH; [cbn in L; lia|].
  intros j J. exact (H (S j) ltac:(cbn; lia)).
Qed.

Lemma inv_transpose_transpose : forall k data, inv_transpose k (transpose k data) = data.
Proof.
  intros k data. destruct (Nat.eq_dec k 0) as [->|K]; [reflexivity|].
  destruct (transpose_spec k data K) as (L1 & A1 & B1).
  destruct (inv_transpose_spec k (transpose k data) K) as (L2 & A2 & B2). rewrite L1 in *.
  apply list_ext_nth; [lia|]. intros j J.
  destruct (Nat.lt_ge_cases j (length data / k * k)) as [C|C].
  - destruct (cells_fst_cover _ _ _ C) as (b & IN). rewrite (A2 _ _ IN). apply A1. auto.
  - rewrite B2 by auto. auto.
Qed.

Lemma transpose_inv_transpose : forall k data, transpose k (inv_transpose k data) = data.
Proof.
  intros k data. destruct (Nat.eq_dec k 0) as [->|K]; [reflexivity|].
  destruct (inv_transpose_spec k data K) as (L1 & A1 & B1).
  destruct (transpose_spec k (inv_transpose k data) K) as (L2 & A2 & B2). rewrite L1 in *.
  apply list_ext_nth; [lia|]. intros j J.
  destruct (Nat.lt_ge_cases j (length data / k * k)) as [C|C].
  - destruct (cells_snd_cover _ _ _ C) as (a & IN). rewrite (A2 _ _ IN). apply A1. auto.
  - rewrite B2 by auto. auto.
Qed.

Lemma transpose_length : forall k data, length (transpose k data) = length data.
Proof. intros [|k] data; [reflexivity|]. apply transpose_spec. lia. Qed.

Lemma inv_transpose_length : forall k data, length (inv_transpose k data) = length data.
Proof. intros [|k] data; [reflexivity|]. apply inv_transpose_spec. lia. Qed.

Lemma transposed_cell : forall k data r c, r < length data / k -> c < k ->
  nth (c * (length data / k) + r) (transpose k data) 0%N = nth (r * k + c) data 0%N.
Proof.
  intros k data r c R C. destruct (transpose_spec k data ltac:(lia)) as (_ & A & _). apply A.
  apply in_cells. exists r, c. auto.
Qed.

Lemma nth_skipn' : forall (l : list N) n j, nth j (skipn n l) 0%N = nth (n + j) l 0%N.
Proof.
  induction l as [|x l IH]; intros [|n] j; cbn [skipn Nat.add nth]; auto. destruct j; reflexivity.
Qed.

Lemma transpose_tail : forall k data, k <> 0 ->
  skipn (length data / k * k) (transpose k data) = skipn (length data / k * k) data.
Proof.
  intros k data K. destruct (transpose_spec k data K) as (L & _ & B).
  apply list_ext_nth; [rewrite !skipn_length; lia|]. intros j _.
  rewrite !nth_skipn'. apply B. lia.
Qed.
