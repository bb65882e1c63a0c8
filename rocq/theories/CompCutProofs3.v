(** Reading a data group whose list block is being written. *)
From Verif Require Import Base BlockModel BlockSpec BlockProofs BlockProofs2 BlockProofs3 BlockProofs4
  DataModel DataSpec DataProofs ListProofs StoreProofs StoreProofs2 CompCutModel CompCutProofs CompCutProofs2.
Local Open Scope N_scope.

Definition moved {A} (n : nat) (r : res (A * nat)) : res (A * nat) :=
  match r with Ok (x, p) => Ok (x, (n + p)%nat) | Fail => Fail | UB => UB end.

Lemma slice_moved : forall Y z c n, slice (length Y + c) n (Y ++ z) = slice c n z.
Proof. intros. rewrite slice_app_r by lia. f_equal. lia. Qed.

Lemma num_moved : forall k Y z c, read_num false k (Y ++ z) (length Y + c) = moved (length Y) (read_num false k z c).
Proof.
  intros k Y z c. unfold read_num. rewrite slice_moved. destruct (_ <? k)%nat; [reflexivity|]. cbn [moved]. rewrite Nat.add_assoc. reflexivity.
Qed.

Lemma links_moved : forall n Y z c, read_links false 8 n (Y ++ z) (length Y + c) = moved (length Y) (read_links false 8 n z c).
Proof.
  induction n as [|n IH]; intros Y z c; cbn [read_links]; [reflexivity|]. rewrite num_moved.
  destruct (read_num false 8 z c) as [[v p]| |]; try reflexivity. cbn [moved bind]. rewrite IH.
  destruct (read_links false 8 n z p) as [[ls q]| |]; reflexivity.
Qed.

Lemma chars_moved : forall n Y z c, fst (read_chars n (Y ++ z) (length Y + c)) = fst (read_chars n z c).
Proof.
  intros n Y z. induction n as [|n IH]; intros c; cbn [read_chars]; [reflexivity|].
  rewrite (nth_error_app2 Y z) by lia. replace (length Y + c - length Y)%nat with c by lia.
  pose proof (IH c) as H1. pose proof (IH (S c)) as H2. rewrite <- plus_n_Sm in H2.
  destruct (nth_error z c) as [[|q]|]; [reflexivity| |].
  - destruct (read_chars n (Y ++ z) (S (length Y + c))), (read_chars n z (S c)). cbn [fst] in *. rewrite H2. reflexivity.
  - destruct (read_chars n (Y ++ z) (length Y + c)), (read_chars n z c). cbn [fst] in *. rewrite H1. reflexivity.
Qed.

Lemma type_moved : forall Y z, read_type (Y ++ z) (length Y) = read_type z 0.
Proof.
  intros Y z. unfold read_type, read_str. rewrite chars_moved. pose proof (chars_moved 2 Y z 0) as H. rewrite Nat.add_0_r in H.
  rewrite H. reflexivity.
Qed.

Lemma hl_moved : forall Y z, read_hl (Y ++ z) (length Y) = read_hl z 0.
Proof.
  intros Y z. unfold read_hl, read_header4, read_str. rewrite num_moved. cbn [Nat.add].
  destruct (read_num false 4 z 4) as [[v p]| |]; try reflexivity. cbn [moved bind]. rewrite num_moved. clear v.
  destruct (read_num false 8 z p) as [[v p1]| |]; try reflexivity. cbn [moved bind]. rewrite num_moved. clear p.
  destruct (read_num false 8 z p1) as [[w p2]| |]; try reflexivity. cbn [moved bind]. rewrite links_moved.
  destruct (read_links false 8 (N.to_nat w) z p2) as [[ls p3]| |]; try reflexivity. cbn [moved bind]. rewrite num_moved.
  destruct (read_num false 2 z p3) as [[x p4]| |]; try reflexivity. cbn [moved bind]. rewrite num_moved.
  destruct (read_num false 1 z p4) as [[x2 p5]| |]; try reflexivity. cbn [moved bind]. rewrite slice_moved. reflexivity.
Qed.

Definition no_block (z : list N) : bool :=
  let t := read_type z 0 in
  negb (eqb_type t 68 90) && negb (raw_type t) && negb (eqb_type t 68 76) &&
  (negb (eqb_type t 72 76) || match read_hl z 0 with Fail => true | _ => false end).

Lemma cut_hl : forall t, (t < 40)%nat -> no_block (firstn t hl_new) = true.
Proof.
  intros t L. assert (A : forallb (fun t => no_block (firstn t hl_new)) (seq 0 40) = true) by (vm_compute; reflexivity).
  rewrite forallb_forall in A. apply A. apply in_seq. lia.
Qed.

Lemma read_fresh : forall Y y fuel, (0 < length Y)%nat -> N.of_nat (length (Y ++ y)) < 2 ^ 63 ->
  ((exists t, y = firstn t hl_new) \/ exists z, y = hl_new ++ z) -> (2 <= fuel)%nat ->
  read_blocks fuel (Y ++ y) (N.of_nat (length Y)) = Some (Ok []) \/ read_blocks fuel (Y ++ y) (N.of_nat (length Y)) = Some Fail.
Proof.
  intros Y y fuel NE LF HY FU. destruct fuel as [|[|fuel]]; [lia|lia|].
  assert (P64 : pos64 (N.of_nat (length Y)) = true).
  { unfold pos64. rewrite app_length in LF. apply andb_true_intro. split; apply N.ltb_lt; lia. }
  cbn [read_blocks]. rewrite P64, Nat2N.id.
  assert (FULL : (exists z, y = hl_new ++ z) -> read_type (Y ++ y) (length Y) = [72; 76] /\ read_hl (Y ++ y) (length Y) = Ok 0).
  { intros [z ->].
    assert (HA : hl_at (Y ++ hl_new ++ z) (mkB (length Y) ty_hl 40 [0]) 0).
    { exists 0, 0. split; [reflexivity|]. split; [reflexivity|]. split; [exact NE|]. split; [reflexivity|]. cbn [b_pos].
      change (header_bytes ty_hl 40 [0] ++ hl_body 0 0) with hl_new. apply holds_end. }
    destruct (read_hl_at _ _ _ HA LF ltac:(reflexivity)) as [R1 R2]. cbn [b_pos] in *. auto. }
  destruct HY as [[t ->]|HZ].
  - destruct (Nat.lt_ge_cases t 40) as [T|T].
    + pose proof (cut_hl t T) as C. unfold no_block in C. rewrite !andb_true_iff, !negb_true_iff in C. destruct C as [[[C1 C2] C3] C4].
      rewrite type_moved, hl_moved. rewrite C1, C2, C3. destruct (eqb_type (read_type (firstn t hl_new) 0) 72 76); [|left; reflexivity].
      cbn [negb orb] in C4. destruct (read_hl (firstn t hl_new) 0); try discriminate. right. reflexivity.
    + destruct FULL as [-> ->]; [|left; reflexivity]. exists []. rewrite app_nil_r. apply firstn_all2. rewrite hl_new_length. exact T.
  - destruct (FULL HZ) as [-> ->]. left. reflexivity.
Qed.
