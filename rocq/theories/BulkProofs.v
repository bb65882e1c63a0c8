(** SetValue of a data writer as a call of SetChannelValue. *)
From Verif Require Import Base BlockModel StreamModel QueueModel ChannelModel ChannelSpec SetProofs HistProofs MetaModel MeasModel ValueModel ValueSpec
  ValueProofs ValueProofs4 BulkModel BulkSpec.
Local Open Scope N_scope.
Local Open Scope list_scope.

(* ------------------------------------------------------------------ *)
(** ** Layouts *)

Lemma filter_shift : forall (f : nat -> bool) n m, filter f (seq (S m) n) = map S (filter (fun i => f (S i)) (seq m n)).
Proof.
  intros f. induction n as [|n IH]; intros m; [reflexivity|]. cbn [seq filter]. rewrite IH. destruct (f (S m)); reflexivity.
Qed.
Lemma layouts_nth : forall cs n y, nth_error (layouts_from n cs) y =
  match nth_error (filter (not_master cs) (seq 0 (length cs))) y with
  | Some ci => match nth_error cs ci with Some c => Some (mkLay (n + ci) (ch_byte c) (data_bytes c) (ch_dtype c)) | None => None end
  | None => None
  end.
Proof.
  induction cs as [|c cs IH]; intros n y; [destruct y; reflexivity|]. cbn [layouts_from length seq filter].
  rewrite filter_shift.
  assert (X : filter (fun i => not_master (c :: cs) (S i)) (seq 0 (length cs)) = filter (not_master cs) (seq 0 (length cs))) by reflexivity.
  rewrite X. clear X. unfold not_master at 1. cbn [nth_error].
  assert (R : forall y, nth_error (layouts_from (S n) cs) y =
     match nth_error (map S (filter (not_master cs) (seq 0 (length cs)))) y with
     | Some ci => match nth_error (c :: cs) ci with Some c => Some (mkLay (n + ci) (ch_byte c) (data_bytes c) (ch_dtype c)) | None => None end
     | None => None end).
  { intros z. rewrite IH, nth_error_map. destruct (nth_error (filter (not_master cs) (seq 0 (length cs))) z) as [ci|]; [|reflexivity].
    cbn [option_map nth_error]. destruct (nth_error cs ci); [|reflexivity]. do 2 f_equal. lia. }
  unfold is_master_type. destruct (ch_type c); try (destruct y as [|y]; [cbn [nth_error]; rewrite Nat.add_0_r; reflexivity|cbn [nth_error]; apply R]).
  apply R.
Qed.
Lemma layout_of : forall g y ci c, layout_channel g y = Some ci -> nth_error (chans_of g) ci = Some c ->
  nth_error (layouts g) y = Some (mkLay ci (ch_byte c) (data_bytes c) (ch_dtype c)).
Proof. intros g y ci c L C. unfold layouts. rewrite layouts_nth. unfold layout_channel in L. rewrite L, C. reflexivity. Qed.

(* ------------------------------------------------------------------ *)
(** ** Validity *)

Lemma splice_nth : forall i buf, (i < length buf)%nat -> splice i [nth i buf 0] buf = buf.
Proof.
  intros i buf L. apply list_eq_nth.
  - apply splice_length. cbn [length]. lia.
  - intros j Hj. rewrite splice_length in Hj by (cbn [length]; lia). destruct (Nat.eq_dec j i) as [->|NE].
    + replace i with (i + 0)%nat at 1 by lia. rewrite nth_splice_in by (cbn [length]; lia). reflexivity.
    + apply nth_splice_out; cbn [length]; lia.
Qed.
Lemma set_valid_same : forall c buf v, placed c (N.of_nat (length buf)) -> get_valid c buf 0 = v -> set_valid c buf v 0 = buf.
Proof.
  intros c buf v P G. destruct (ch_invalid c) eqn:I; [|apply set_valid_off; exact I].
  assert (EL : 0 < elems c) by (unfold elems; lia).
  pose proof (placed_inv c _ 0 P EL I) as IB. pose proof (pl_len _ _ P) as LE.
  rewrite get_valid_eq in G by auto. rewrite set_valid_eq by auto. cbv zeta.
  assert (LT : (N.to_nat (inv_bit c 0 / 8) < length buf)%nat) by (clear - IB; lia).
  set (i := N.to_nat (inv_bit c 0 / 8)) in *. set (k := inv_bit c 0 mod 8) in *. clearbody i k.
  assert (E : (if v then N.ldiff (nth i buf 0) (N.shiftl 1 k) else N.lor (nth i buf 0) (N.shiftl 1 k)) = nth i buf 0).
  { apply N.bits_inj. intros j. destruct v.
    - rewrite N.ldiff_spec, testbit_mask. destruct (N.eqb_spec j k) as [->|NE]; [|apply andb_true_r].
      apply negb_true_iff in G. rewrite G. reflexivity.
    - rewrite N.lor_spec, testbit_mask. destruct (N.eqb_spec j k) as [->|NE]; [|apply orb_false_r].
      apply negb_false_iff in G. rewrite G. reflexivity. }
  rewrite E. apply splice_nth. exact LT.
Qed.

(* ------------------------------------------------------------------ *)
(** ** Bytes *)

Lemma wr_rev : forall buf p x n, n = N.of_nat (length x) ->
  match lift (wr buf p x) with
  | Ok b => lift (wr b p (rev (slice (N.to_nat p) (N.to_nat n) b)))
  | r => r
  end = lift (wr buf p (rev x)).
Proof.
  intros buf p x n ->. rewrite Nat2N.id. unfold wr. rewrite rev_length.
  destruct (p + N.of_nat (length x) <=? N.of_nat (length buf)) eqn:L; [|reflexivity]. cbn [lift].
  apply N.leb_le in L. assert (LL : (N.to_nat p + length x <= length buf)%nat) by lia.
  rewrite slice_splice_same by exact LL. rewrite splice_length, rev_length by exact LL.
  rewrite (proj2 (N.leb_le _ _) L). cbn [lift]. f_equal. apply list_eq_nth.
  - rewrite !splice_length; rewrite ?rev_length, ?splice_length; auto.
  - intros j Hj. rewrite splice_length in Hj by (rewrite rev_length, splice_length; auto). rewrite splice_length in Hj by exact LL.
    destruct (Nat.lt_ge_cases j (N.to_nat p)) as [A|A]; [|destruct (Nat.lt_ge_cases j (N.to_nat p + length x)) as [B|B]].
    + rewrite !nth_splice_out; rewrite ?rev_length, ?splice_length; auto.
    + replace j with (N.to_nat p + (j - N.to_nat p))%nat by lia.
      rewrite !nth_splice_in; rewrite ?rev_length, ?splice_length; auto; lia.
    + rewrite !nth_splice_out; rewrite ?rev_length, ?splice_length; auto.
Qed.

Lemma memory_length : forall v, length (memory v) = size_of v.
Proof. intros [k n|k z|n|n]; cbn [memory size_of]; apply le_bytes_length. Qed.

(** What SetValue stores in a channel it takes. *)
Lemma set_value_poke : forall c v ci buf, placed c (N.of_nat (length buf)) -> takes c v = true ->
  set_value (mkLay ci (ch_byte c) (data_bytes c) (ch_dtype c)) v buf =
  poke c (match ch_dtype c with UnsignedBe | SignedBe | FloatBe => rev (memory v) | _ => memory v end) buf.
Proof.
  intros c v ci buf P TK. unfold takes in TK. apply andb_true_iff in TK. destruct TK as [NT SZ].
  destruct (fits_zero c buf P) as (D0 & BB & TB & _ & NE). unfold set_value. cbn [y_bytes y_byte y_dtype].
  rewrite SZ. cbn [negb]. apply N.eqb_eq in SZ.
  unfold too_big in TB. change (w64 (0 + 1)) with 1 in TB. rewrite N.mul_1_r in TB.
  assert (W : w64 (data_bytes c) = data_bytes c).
  { unfold w64. apply N.mod_small. pose proof (pl_data _ _ P) as D. pose proof (pl_cg _ _ P) as G. pose proof (pl_len _ _ P) as L.
    assert (EL : 1 <= elems c) by (unfold elems; lia).
    assert (B : data_bytes c <= data_bytes c * elems c) by (clear - EL; nia).
    change (2 ^ 28) with 268435456 in L. change (2 ^ 64) with 18446744073709551616. lia. }
  rewrite W in TB. rewrite TB. unfold poke.
  destruct (ch_dtype c); try discriminate NT; try reflexivity; apply wr_rev; rewrite memory_length; exact SZ.
Qed.

Lemma rev_le : forall k n, rev (le_bytes k n) = be_bytes k n.
Proof. reflexivity. Qed.

(** SetValue is SetChannelValue with the validity the channel has. *)
Lemma set_value_op : forall f2d d2f c v ci buf, placed c (N.of_nat (length buf)) -> takes c v = true -> tval_fits f2d d2f c v ->
  set_value (mkLay ci (ch_byte c) (data_bytes c) (ch_dtype c)) v buf =
  set_channel d2f c buf (value_of f2d v) (get_valid c buf 0) 0 /\ value_fits d2f c (value_of f2d v).
Proof.
  intros f2d d2f c v ci buf P TK TF. rewrite set_value_poke by auto.
  destruct (fits_zero c buf P) as (D0 & BB & TB & TBB & NE). pose proof (pl_size _ _ P) as Sz.
  pose proof (set_valid_same c buf _ P eq_refl) as SV.
  unfold takes in TK. apply andb_true_iff in TK. destruct TK as [_ SZ]. apply N.eqb_eq in SZ.
  assert (NB : exists a l, buf = a :: l) by (destruct buf; [congruence|eauto]). destruct NB as (a & l & EB).
  assert (INT : forall le k n, ch_bits c = 8 \/ ch_bits c = 16 \/ ch_bits c = 32 \/ ch_bits c = 64 -> data_bytes c = N.of_nat k ->
    poke c (enc le k n) buf = put_int c le buf n 0).
  { intros le k n B K. unfold put_int. unfold data_bytes in *.
    destruct B as [B|[B|[B|B]]]; rewrite B in *;
      [assert (K' : 1 = N.of_nat k) by exact K|assert (K' : 2 = N.of_nat k) by exact K|assert (K' : 4 = N.of_nat k) by exact K
      |assert (K' : 8 = N.of_nat k) by exact K]; clear - K' BB;
      [assert (k = 1%nat) as -> by lia|assert (k = 2%nat) as -> by lia|assert (k = 4%nat) as -> by lia|assert (k = 8%nat) as -> by lia];
      symmetry; apply put_zero; exact BB. }
  unfold tval_fits in TF. unfold value_fits, set_channel. unfold num_size in Sz.
  destruct (ch_dtype c) eqn:DT, v as [k n|k z|n|n]; try contradiction TF; cbn [value_of memory size_of] in *.
  - split; [|exact TF]. unfold set_unsigned_le. rewrite EB, <- EB, TB, SV. apply (INT true k n); auto.
  - split; [|exact TF]. unfold set_unsigned_be. rewrite EB, <- EB, TBB, SV. apply (INT false k n); auto.
  - split; [|exact TF]. unfold set_signed. rewrite EB, <- EB, TB, SV. apply (INT true k (to_u64 z)); auto.
  - split; [|exact TF]. unfold set_signed. rewrite EB, <- EB, TB, SV. apply (INT false k (to_u64 z)); auto.
  - destruct TF as [T1 T2]. assert (B : ch_bits c = 32) by (destruct Sz as [B|B]; [exact B|]; exfalso; unfold data_bytes in SZ; rewrite B in SZ; vm_compute in SZ; discriminate SZ).
    rewrite B. change (32 =? 32) with true. cbv iota. split; [|rewrite T2; exact T1].
    unfold set_float. rewrite EB, <- EB, TB, SV, SZ, T2. cbv zeta. change (N.of_nat 4) with 4. cbv iota. rewrite put_zero by exact BB. reflexivity.
  - assert (B : ch_bits c = 64) by (destruct Sz as [B|B]; [|exact B]; exfalso; unfold data_bytes in SZ; rewrite B in SZ; vm_compute in SZ; discriminate SZ).
    rewrite B. change (64 =? 32) with false. cbv iota. split; [|exact TF].
    unfold set_float. rewrite EB, <- EB, TB, SV, SZ. cbv zeta. change (N.of_nat 8) with 8. cbv iota. rewrite put_zero by exact BB. reflexivity.
  - destruct TF as [T1 T2]. assert (B : ch_bits c = 32) by (destruct Sz as [B|B]; [exact B|]; exfalso; unfold data_bytes in SZ; rewrite B in SZ; vm_compute in SZ; discriminate SZ).
    rewrite B. change (32 =? 32) with true. cbv iota. split; [|rewrite T2; exact T1].
    unfold set_float. rewrite EB, <- EB, TB, SV, SZ, T2. cbv zeta. change (N.of_nat 4) with 4. cbv iota. rewrite put_zero by exact BB. reflexivity.
  - assert (B : ch_bits c = 64) by (destruct Sz as [B|B]; [|exact B]; exfalso; unfold data_bytes in SZ; rewrite B in SZ; vm_compute in SZ; discriminate SZ).
    rewrite B. change (64 =? 32) with false. cbv iota. split; [|exact TF].
    unfold set_float. rewrite EB, <- EB, TB, SV, SZ. cbv zeta. change (N.of_nat 8) with 8. cbv iota. rewrite put_zero by exact BB. reflexivity.
Qed.

(** A value that is not taken changes nothing. *)
Lemma set_value_ignored : forall c v ci buf, takes c v = false ->
  set_value (mkLay ci (ch_byte c) (data_bytes c) (ch_dtype c)) v buf = Ok buf.
Proof.
  intros c v ci buf T. unfold takes in T. unfold set_value. cbn [y_bytes y_byte y_dtype].
  destruct (data_bytes c =? N.of_nat (size_of v)); [|reflexivity]. cbn [negb]. rewrite andb_true_r in T.
  destruct (_ <? _); [reflexivity|]. destruct (ch_dtype c); try discriminate T; reflexivity.
Qed.
