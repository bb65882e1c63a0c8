(** Proofs about SrModel.v. *)
From Verif Require Import Base BlockModel BlockSpec BlockProofs BlockProofs2 BlockProofs3
  DataModel DataSpec TransProofs DataProofs ListProofs StoreProofs StoreProofs2 SignalProofs ChannelModel SrModel SrSpec.
From Coq Require Import Lia.
Local Open Scope N_scope.

(* ------------------------------------------------------------------ *)
(** ** Pieces of equal length *)

Lemma slice_pieces : forall (xs : list (list N)) n k, Forall (fun x => length x = n) xs -> (k < length xs)%nat ->
  slice (k * n) n (concat xs) = nth k xs [] /\ (k * n + n <= length (concat xs))%nat.
Proof.
  induction xs as [|x xs IH]; intros n k F L; [cbn in L; lia|]. inversion F as [|? ? E F']; subst. destruct k as [|k].
  - cbn [Nat.mul nth concat]. rewrite app_length. split; [|lia]. rewrite slice_app_l by lia. apply slice_full.
  - cbn [length] in L. destruct (IH (length x) k F' ltac:(lia)) as [SL B]. cbn [nth concat]. rewrite app_length. split; [|lia].
    rewrite slice_app_r by lia. replace (S k * length x - length x)%nat with (k * length x)%nat by lia. exact SL.
Qed.

Lemma pieces_length : forall (xs : list (list N)) n, Forall (fun x => length x = n) xs -> length (concat xs) = (length xs * n)%nat.
Proof.
  induction xs as [|x xs IH]; intros n F; [reflexivity|]. inversion F as [|? ? E F']; subst. cbn [concat]. rewrite app_length, (IH _ F').
  cbn [length Nat.mul]. lia.
Qed.

Lemma all_parts_nth : forall rs k r j d, nth_error rs k = Some r -> (j < 3)%nat ->
  nth (3 * k + j) (all_parts rs) d = nth j (parts r) d /\ (3 * k + j < length (all_parts rs))%nat.
Proof.
  unfold all_parts. induction rs as [|x rs IH]; intros k r j d H J; [destruct k; discriminate|].
  cbn [map concat]. rewrite app_length. change (length (parts x)) with 3%nat. destruct k as [|k].
  - injection H as ->. cbn [Nat.mul Nat.add]. rewrite app_nth1 by (cbn; lia). split; [reflexivity|lia].
  - destruct (IH k r j d H J) as [E L]. rewrite app_nth2 by (cbn [parts length]; lia). cbn [parts length].
    replace (3 * S k + j - 3)%nat with (3 * k + j)%nat by lia. split; [exact E|lia].
Qed.

Lemma parts_count : forall rs, length (all_parts rs) = (3 * length rs)%nat.
Proof. unfold all_parts. induction rs as [|r rs IH]; [reflexivity|]. cbn [map concat length]. rewrite app_length, IH. cbn [parts length]. lia. Qed.

Lemma parts_sizes : forall ds is rs, sizes_ok ds is rs ->
  Forall (fun p => length (p_data p) = N.to_nat ds /\ length (p_inval p) = N.to_nat is) (all_parts rs).
Proof.
  intros ds is rs S. unfold all_parts. induction S as [|r rs H _ IH]; [constructor|]. cbn [map concat]. apply Forall_app. split; [|exact IH].
  eapply Forall_impl; [|exact H]. cbn. intros p [A B]. lia.
Qed.

Lemma map_sizes : forall {A} (f : A -> list N) n ps, Forall (fun p => length (f p) = n) ps -> Forall (fun x => length x = n) (map f ps).
Proof. intros A f n ps H. apply Forall_map. exact H. Qed.

(* ------------------------------------------------------------------ *)
(** ** Copies *)

Lemma copy_at_ok : forall data i n to buf, i + n <= N.of_nat (length data) -> N.of_nat (length data) < 2 ^ 31 ->
  copy_at data (to_int32 (w64 i)) n to buf = Ok (splice to (slice (N.to_nat i) (N.to_nat n) data) buf).
Proof.
  intros data i n to buf B L. unfold copy_at.
  assert (E : to_int32 (w64 i) = Z.of_N i).
  { unfold to_int32, w64. rewrite (N.mod_small i) by lia. rewrite N.mod_small by lia.
    destruct (N.ltb_spec i (2 ^ 31)); [reflexivity|lia]. }
  rewrite E. assert (T : to_u64 (Z.of_N i + Z.of_N n) = i + n).
  { unfold to_u64. rewrite Z.mod_small by lia. lia. }
  rewrite T. destruct (N.leb_spec (i + n) (N.of_nat (length data))); [|lia].
  destruct (Z.ltb_spec (Z.of_N i) 0); [lia|]. replace (Z.to_nat (Z.of_N i)) with (N.to_nat i) by lia. reflexivity.
Qed.

Lemma splice_whole : forall src buf, length src = length buf -> splice 0 src buf = src.
Proof. intros src buf L. unfold splice. cbn [firstn Nat.add app]. rewrite skipn_all2 by lia. apply app_nil_r. Qed.

Section Values.
Context (half_to_double float_to_double : N -> N).
Let gc (c : chan) (idx : N) (buf : list N) := get_channel half_to_double float_to_double c buf idx.

Lemma rows_part : forall ds is rs k r j d, sizes_ok ds is rs -> nth_error rs k = Some r -> (j < 3)%nat ->
  let i := N.of_nat k * 3 * (ds + is) + N.of_nat j * (ds + is) in
  slice (N.to_nat i) (N.to_nat (ds + is)) (row_bytes rs) = whole (nth j (parts r) d) /\
  i + (ds + is) <= N.of_nat (length (row_bytes rs)) /\ length (whole (nth j (parts r) d)) = N.to_nat (ds + is).
Proof.
  intros ds is rs k r j d S H J i. destruct (all_parts_nth rs k r j d H J) as [E L].
  assert (F : Forall (fun x => length x = N.to_nat (ds + is)) (map whole (all_parts rs))).
  { apply map_sizes. eapply Forall_impl; [|apply (parts_sizes _ _ _ S)]. cbn. intros p [A B]. unfold whole. rewrite app_length. lia. }
  destruct (slice_pieces _ _ (3 * k + j) F ltac:(rewrite map_length; exact L)) as [SL SB].
  unfold row_bytes. replace (N.to_nat i) with ((3 * k + j) * N.to_nat (ds + is))%nat by (unfold i; lia).
  rewrite SL. rewrite (nth_indep _ [] (whole d)) by (rewrite map_length; exact L). rewrite map_nth, E.
  split; [reflexivity|]. split; [unfold i; lia|].
  rewrite Forall_forall in F. apply F. rewrite <- E. apply in_map. apply nth_In. exact L.
Qed.

Lemma column_part : forall (g : part -> list N) n rs k r j d, Forall (fun p => length (g p) = N.to_nat n) (all_parts rs) ->
  nth_error rs k = Some r -> (j < 3)%nat ->
  let i := N.of_nat k * 3 * n + N.of_nat j * n in
  slice (N.to_nat i) (N.to_nat n) (concat (map g (all_parts rs))) = g (nth j (parts r) d) /\
  i + n <= N.of_nat (length (concat (map g (all_parts rs)))) /\ length (g (nth j (parts r) d)) = N.to_nat n.
Proof.
  intros g n rs k r j d F0 H J i. destruct (all_parts_nth rs k r j d H J) as [E L].
  assert (F : Forall (fun x => length x = N.to_nat n) (map g (all_parts rs))) by (apply map_sizes; exact F0).
  destruct (slice_pieces _ _ (3 * k + j) F ltac:(rewrite map_length; exact L)) as [SL SB].
  replace (N.to_nat i) with ((3 * k + j) * N.to_nat n)%nat by (unfold i; lia).
  rewrite SL. rewrite (nth_indep _ [] (g d)) by (rewrite map_length; exact L). rewrite map_nth, E.
  split; [reflexivity|]. split; [unfold i; lia|].
  rewrite Forall_forall in F. apply F. rewrite <- E. apply in_map. apply nth_In. exact L.
Qed.

Definition p0 : part := mkPart [] [].

Lemma copy_rd_ok : forall ds is rs k r j buf, sizes_ok ds is rs -> nth_error rs k = Some r -> (j < 3)%nat ->
  N.of_nat (length (row_bytes rs)) < 2 ^ 31 -> length buf = N.to_nat (ds + is) ->
  copy_rd (row_bytes rs) (ds + is) (N.of_nat k) (N.of_nat j) buf = Ok (whole (nth j (parts r) p0)).
Proof.
  intros ds is rs k r j buf S H J L LB. destruct (rows_part ds is rs k r j p0 S H J) as (E & B & LE). unfold copy_rd.
  rewrite copy_at_ok by (auto; exact B). rewrite E, splice_whole by lia. reflexivity.
Qed.

Lemma value_rd : forall c nof ds is rs k r idx, sizes_ok ds is rs -> nth_error rs k = Some r -> 0 < ds + is ->
  N.of_nat (length (row_bytes rs)) < 2 ^ 31 ->
  sr_value half_to_double float_to_double c true nof ds is (row_bytes rs) (N.of_nat k) idx
  = Ok (gc c idx (whole (r_mean r)), gc c idx (whole (r_min r)), gc c idx (whole (r_max r))).
Proof.
  intros c nof ds is rs k r idx S H P L. unfold sr_value.
  destruct (rows_part ds is rs k r 0 p0 S H ltac:(lia)) as (_ & B & L0).
  destruct (rows_part ds is rs k r 1 p0 S H ltac:(lia)) as (_ & _ & L1).
  destruct (row_bytes rs) as [|c0 rb] eqn:ER; [cbn in B; lia|]. rewrite <- ER in *. clear ER c0 rb B.
  destruct (N.eqb_spec (ds + is) 0); [lia|].
  change 0 with (N.of_nat 0) at 1. rewrite (copy_rd_ok ds is rs k r 0) by (auto; try lia; apply repeat_length). cbn [bind].
  change 1 with (N.of_nat 1) at 1. rewrite (copy_rd_ok ds is rs k r 1) by (auto; lia). cbn [bind].
  change 2 with (N.of_nat 2) at 1. rewrite (copy_rd_ok ds is rs k r 2) by (auto; lia). cbn [bind]. reflexivity.
Qed.

Lemma copy_rv_ok : forall ds is rs k r j buf, sizes_ok ds is rs -> nth_error rs k = Some r -> (j < 3)%nat ->
  N.of_nat (length (data_column rs ++ inval_column rs)) < 2 ^ 31 -> length buf = N.to_nat (ds + is) ->
  copy_rv (data_column rs ++ inval_column rs) (N.of_nat (length rs)) ds is (N.of_nat k) (N.of_nat j) buf
  = Ok (whole (nth j (parts r) p0)).
Proof.
  intros ds is rs k r j buf S H J L LB. pose proof (parts_sizes _ _ _ S) as F.
  assert (FD : Forall (fun p => length (p_data p) = N.to_nat ds) (all_parts rs)) by (eapply Forall_impl; [|exact F]; cbn; tauto).
  assert (FI : Forall (fun p => length (p_inval p) = N.to_nat is) (all_parts rs)) by (eapply Forall_impl; [|exact F]; cbn; tauto).
  destruct (column_part p_data ds rs k r j p0 FD H J) as (ED & BD & LD).
  destruct (column_part p_inval is rs k r j p0 FI H J) as (EI & BI & LI).
  fold (data_column rs) in ED, BD. fold (inval_column rs) in EI, BI.
  assert (LC : length (data_column rs) = (length rs * 3 * N.to_nat ds)%nat).
  { unfold data_column. rewrite (pieces_length _ (N.to_nat ds)) by (apply map_sizes; exact FD). rewrite map_length, parts_count. lia. }
  rewrite app_length in L. unfold copy_rv.
  rewrite copy_at_ok by (rewrite app_length; lia). cbn [bind]. rewrite slice_app_l by lia. rewrite ED.
  replace (N.of_nat (length rs) * 3 * ds + N.of_nat k * 3 * is + N.of_nat j * is)
    with (N.of_nat (length (data_column rs)) + (N.of_nat k * 3 * is + N.of_nat j * is)) by (rewrite LC; lia).
  rewrite copy_at_ok by (rewrite app_length; lia). rewrite slice_app_r by lia.
  replace (N.to_nat (N.of_nat (length (data_column rs)) + (N.of_nat k * 3 * is + N.of_nat j * is)) - length (data_column rs))%nat
    with (N.to_nat (N.of_nat k * 3 * is + N.of_nat j * is)) by lia.
  rewrite EI. f_equal. unfold whole. set (x := p_data (nth j (parts r) p0)) in *. set (y := p_inval (nth j (parts r) p0)) in *.
  clearbody x y. unfold splice. cbn [firstn Nat.add app].
  rewrite firstn_app, <- LD, firstn_all, Nat.sub_diag. cbn [firstn]. rewrite app_nil_r.
  f_equal. rewrite skipn_all2; [apply app_nil_r|]. rewrite app_length, skipn_length. lia.
Qed.

Lemma value_rv : forall c ds is rs k r idx, sizes_ok ds is rs -> nth_error rs k = Some r -> 0 < ds + is ->
  N.of_nat (length (data_column rs ++ inval_column rs)) < 2 ^ 31 ->
  sr_value half_to_double float_to_double c false (N.of_nat (length rs)) ds is (data_column rs ++ inval_column rs) (N.of_nat k) idx
  = Ok (gc c idx (whole (r_mean r)), gc c idx (whole (r_min r)), gc c idx (whole (r_max r))).
Proof.
  intros c ds is rs k r idx S H P L. unfold sr_value.
  destruct (rows_part ds is rs k r 0 p0 S H ltac:(lia)) as (_ & B & L0).
  destruct (rows_part ds is rs k r 1 p0 S H ltac:(lia)) as (_ & _ & L1).
  assert (NE : data_column rs ++ inval_column rs <> []).
  { pose proof (parts_sizes _ _ _ S) as F.
    assert (FD : Forall (fun p => length (p_data p) = N.to_nat ds) (all_parts rs)) by (eapply Forall_impl; [|exact F]; cbn; tauto).
    assert (FI : Forall (fun p => length (p_inval p) = N.to_nat is) (all_parts rs)) by (eapply Forall_impl; [|exact F]; cbn; tauto).
    destruct (column_part p_data ds rs k r 0 p0 FD H ltac:(lia)) as (_ & BD & _).
    destruct (column_part p_inval is rs k r 0 p0 FI H ltac:(lia)) as (_ & BI & _).
    fold (data_column rs) in BD. fold (inval_column rs) in BI. intros X.
    apply app_eq_nil in X. destruct X as [X Y]. rewrite X in BD. rewrite Y in BI. cbn in BD, BI. lia. }
  destruct (data_column rs ++ inval_column rs) as [|c0 rb] eqn:ER; [congruence|]. rewrite <- ER in *. clear ER c0 rb B NE.
  destruct (N.eqb_spec (ds + is) 0); [lia|].
  change 0 with (N.of_nat 0) at 1. rewrite (copy_rv_ok ds is rs k r 0) by (auto; try lia; apply repeat_length). cbn [bind].
  change 1 with (N.of_nat 1) at 1. rewrite (copy_rv_ok ds is rs k r 1) by (auto; lia). cbn [bind].
  change 2 with (N.of_nat 2) at 1. rewrite (copy_rv_ok ds is rs k r 2) by (auto; lia). cbn [bind]. reflexivity.
Qed.

End Values.
