(** Property C79: the mean, minimum and maximum values of a sample reduction. *)
From Verif Require Import Base BlockModel BlockSpec BlockProofs DataModel DataSpec DataProofs DataProps ChannelModel SrModel SrSpec SrProofs SrProofs2.
Local Open Scope N_scope.

(** What the channel reads from the three records of a reduced sample. *)
Definition readings (h fl : N -> N) (c : chan) (idx : N) (r : reduced) : reading * reading * reading :=
  (get_channel h fl c (whole (r_mean r)) idx, get_channel h fl c (whole (r_min r)) idx, get_channel h fl c (whole (r_max r)) idx).

(** Data in row order, in one block, in the blocks of a list (DL) block, in a chain of list (LD) blocks of
    any length, behind header (HL) blocks or not, compressed or not: every sample is read with the values and the invalidation bits of its own three records. *)
Theorem C79_rows : forall deflate inflate h fl st xs rs ds is f nof interval type flags next,
  zlib_ok deflate inflate -> (0 < length f)%nat -> storage_ok st ->
  Forall2 (made_from deflate) (blocks_of st) xs -> Exists row_block (blocks_of st) ->
  concat xs = row_bytes rs -> sizes_ok ds is rs -> 0 < ds + is -> N.of_nat (length (row_bytes rs)) < 2 ^ 31 ->
  nof < 2 ^ 64 -> interval < 2 ^ 64 -> type < 256 -> flags < 256 -> next < 2 ^ 64 ->
  exists f1 b f2 s, write_storage st f = Ok (f1, b) /\
    write_sr nof interval type flags next (N.of_nat (b_pos b)) f1 = Ok (f2, s) /\
    forall g fuel, N.of_nat (length (f2 ++ g)) < 2 ^ 63 -> (steps st <= fuel)%nat ->
      (exists i, read_sr (f2 ++ g) (b_pos s) = Ok i /\ sr_nof i = nof /\ sr_interval i = interval /\ sr_type i = type /\
        sr_flags i = flags /\ sr_next i = next) /\
      forall c idx k r, nth_error rs k = Some r ->
        sr_get inflate h fl fuel (f2 ++ g) (b_pos s) c ds is (N.of_nat k) idx = Some (Ok (readings h fl c idx r)).
Proof.
  intros deflate inflate h fl st xs rs ds is f nof interval type flags next Z L OK M EX E S P LR B1 B2 B3 B4 B5.
  destruct (sr_file deflate inflate Z h fl st xs f nof interval type flags next L OK M ltac:(rewrite E; lia) B1 B2 B3 B4 B5)
    as (f1 & b & f2 & s & W1 & W2 & R). exists f1, b, f2, s. split; [exact W1|]. split; [exact W2|].
  intros g fuel LG FU. destruct (R g fuel LG FU) as [RS RV]. split.
  - eexists. split; [exact RS|]. repeat split.
  - intros c idx k r K. rewrite RV, E. replace (existsb is_row (blocks_of st)) with true by (symmetry; eapply existsb_rows; eauto).
    f_equal. apply value_rd; auto.
Qed.
Print Assumptions C79_rows.

(** The same for data in column order: all data bytes, then all invalidation bytes. *)
Theorem C79_columns : forall deflate inflate h fl st xs rs ds is f interval type flags next,
  zlib_ok deflate inflate -> (0 < length f)%nat -> storage_ok st ->
  Forall2 (made_from deflate) (blocks_of st) xs -> ~ Exists row_block (blocks_of st) ->
  concat xs = data_column rs ++ inval_column rs -> sizes_ok ds is rs -> 0 < ds + is ->
  N.of_nat (length (data_column rs ++ inval_column rs)) < 2 ^ 31 ->
  interval < 2 ^ 64 -> type < 256 -> flags < 256 -> next < 2 ^ 64 -> N.of_nat (length rs) < 2 ^ 64 ->
  exists f1 b f2 s, write_storage st f = Ok (f1, b) /\
    write_sr (N.of_nat (length rs)) interval type flags next (N.of_nat (b_pos b)) f1 = Ok (f2, s) /\
    forall g fuel c idx k r, N.of_nat (length (f2 ++ g)) < 2 ^ 63 -> (steps st <= fuel)%nat -> nth_error rs k = Some r ->
      sr_get inflate h fl fuel (f2 ++ g) (b_pos s) c ds is (N.of_nat k) idx = Some (Ok (readings h fl c idx r)).
Proof.
  intros deflate inflate h fl st xs rs ds is f interval type flags next Z L OK M EX E S P LR B2 B3 B4 B5 B1.
  destruct (sr_file deflate inflate Z h fl st xs f (N.of_nat (length rs)) interval type flags next L OK M ltac:(rewrite E; lia) B1 B2 B3 B4 B5)
    as (f1 & b & f2 & s & W1 & W2 & R). exists f1, b, f2, s. split; [exact W1|]. split; [exact W2|].
  intros g fuel c idx k r LG FU K. destruct (R g fuel LG FU) as [RS RV]. rewrite RV, E.
  replace (existsb is_row (blocks_of st)) with false.
  - f_equal. apply value_rv; auto.
  - symmetry. destruct (existsb is_row (blocks_of st)) eqn:X; [|reflexivity]. exfalso. apply EX. eapply existsb_rows; eauto.
Qed.
Print Assumptions C79_columns.

(** Two samples of a byte with an invalidation byte, in a list of a plain and a compressed block that cut
    a record. *)
Definition byte_chan : chan := mkChan FixedLength UnsignedLe 0 0 8 1 true 0 1 0.
Definition two_samples : list reduced :=
  [mkRed (mkPart [5] [0]) (mkPart [3] [1]) (mkPart [8] [0]); mkRed (mkPart [6] [1]) (mkPart [4] [0]) (mkPart [9] [0])].
Definition two_storage : storage :=
  ListBlock (mkDl 0 0 [0; 3] [] [] []) [BRaw [35; 35; 82; 68] [5; 0; 3]; BZip (dz_pack toy_deflate [82; 68] 0 0 [1; 8; 0; 6; 1; 4; 0; 9; 0])].
Lemma two_ok : sizes_ok 1 1 two_samples.
Proof.
  unfold sizes_ok, two_samples, parts. cbn [r_mean r_min r_max].
  repeat first [apply Forall_cons | apply Forall_nil]; split; reflexivity.
Qed.
Example C79_witness : storage_ok two_storage /\
  Forall2 (made_from toy_deflate) (blocks_of two_storage) [[5; 0; 3]; [1; 8; 0; 6; 1; 4; 0; 9; 0]] /\
  Exists row_block (blocks_of two_storage) /\ concat [[5; 0; 3]; [1; 8; 0; 6; 1; 4; 0; 9; 0]] = row_bytes two_samples /\
  sizes_ok 1 1 two_samples /\
  match write_storage two_storage (repeat 0 64) with
  | Ok (f1, b) =>
      match write_sr 2 7 1 0 0 (N.of_nat (b_pos b)) f1 with
      | Ok (f2, s) => sr_get toy_inflate (fun x => x) (fun x => x) 3 f2 (b_pos s) byte_chan 1 1 1 0
                      = Some (Ok (Ok (VU 6, false), Ok (VU 4, true), Ok (VU 9, true)))
      | _ => False
      end
  | _ => False
  end.
Proof.
  split; [repeat split; repeat constructor|]. split; [|split; [|split; [reflexivity|split; [|vm_compute; reflexivity]]]].
  - apply Forall2_cons; [|apply Forall2_cons; [|apply Forall2_nil]].
    + apply made_raw. cbn. auto 10.
    + apply made_zip; [|reflexivity|apply toy_fits].
      split; [reflexivity|]. split; [|split; reflexivity]. intros [X|[X|[]]]; discriminate.
  - left. reflexivity.
  - exact two_ok.
Qed.

(** The same samples in a chain of two list (LD) blocks behind a header block. *)
Definition chain_storage : storage :=
  Headed 1 0 (LdChain [(mkDl 2 0 [0] [5] [] [], [BRaw [35; 35; 82; 68] [5; 0; 3]]);
    (mkDl 1 9 [] [] [] [], [BZip (dz_pack toy_deflate [82; 68] 0 0 [1; 8; 0; 6; 1; 4; 0; 9; 0])])]).
Example C79_chain_witness : storage_ok chain_storage /\ blocks_of chain_storage = blocks_of two_storage /\
  match write_storage chain_storage (repeat 0 64) with
  | Ok (f1, b) =>
      match write_sr 2 7 1 0 0 (N.of_nat (b_pos b)) f1 with
      | Ok (f2, s) => sr_get toy_inflate (fun x => x) (fun x => x) 5 f2 (b_pos s) byte_chan 1 1 1 0
                      = Some (Ok (Ok (VU 6, false), Ok (VU 4, true), Ok (VU 9, true)))
      | _ => False
      end
  | _ => False
  end.
Proof.
  split; [|split; [reflexivity|vm_compute; reflexivity]]. split; [reflexivity|]. split; [reflexivity|]. split; [discriminate|].
  repeat constructor.
Qed.

(* ------------------------------------------------------------------ *)
(** ** What does not hold *)

(** A file with data and invalidation bytes in column order: an RV block, an RI block, a list (LD) block
    with both and the SR block. *)
Definition column_file (rs : list reduced) (equal interval : N) (f : file) : res (file * blk) :=
  bind (write_dblk (BRaw [35; 35; 82; 86] (data_column rs)) f) (fun '(f, v) =>
  bind (write_dblk (BRaw [35; 35; 82; 73] (inval_column rs)) f) (fun '(f, i) =>
  bind (write_ld equal [N.of_nat (b_pos v)] [N.of_nat (b_pos i)] f) (fun '(f, l) =>
  write_sr (N.of_nat (length rs)) interval 1 1 0 (N.of_nat (b_pos l)) f))).

Lemma column_read : exists f s, column_file two_samples 2 7 (repeat 0 64) = Ok (f, s) /\
  sr_get toy_inflate (fun x => x) (fun x => x) 9 f (b_pos s) byte_chan 1 1 1 0
  = Some (Ok (Ok (VU 6, true), Ok (VU 4, true), Ok (VU 9, true))).
Proof. eexists _, _. split; [vm_compute; reflexivity|]. vm_compute. reflexivity. Qed.
(** The links of an LD block to invalidation data are not followed: a value that the file marks as
    invalid is returned as valid. *)
Theorem C79_invalid_refuted : ~ forall inflate h fl rs ds is equal interval f f2 s c idx k r, (0 < length f)%nat ->
  sizes_ok ds is rs -> nth_error rs k = Some r -> column_file rs equal interval f = Ok (f2, s) ->
  sr_get inflate h fl 9 f2 (b_pos s) c ds is (N.of_nat k) idx = Some (Ok (readings h fl c idx r)).
Proof.
  intros H. destruct column_read as (f & s & E & R).
  specialize (H toy_inflate (fun x => x) (fun x => x) two_samples 1 1 2 7 (repeat 0 64) f s byte_chan 0 1%nat).
  cbn [two_samples nth_error] in H. specialize (H _ ltac:(rewrite repeat_length; lia) two_ok eq_refl E).
  change (N.of_nat 1) with 1 in H. rewrite R in H. vm_compute in H. discriminate H.
Qed.
Print Assumptions C79_invalid_refuted.

Lemma beyond_read : sr_value (fun x => x) (fun x => x) byte_chan true 2 1 1 (row_bytes two_samples) 7 0
  = Ok (Ok (VU 0, true), Ok (VU 0, true), Ok (VU 0, true)).
Proof. vm_compute. reflexivity. Qed.
(** A sample number beyond the last sample gives zeros that are marked as valid. *)
Theorem C79_beyond_refuted : ~ forall h fl c rs ds is k idx v, sizes_ok ds is rs -> (length rs <= k)%nat ->
  match sr_value h fl c true (N.of_nat (length rs)) ds is (row_bytes rs) (N.of_nat k) idx with
  | Ok (mean, _, _) => mean <> Ok (v, true)
  | _ => True
  end.
Proof.
  intros H. specialize (H (fun x => x) (fun x => x) byte_chan two_samples 1 1 7%nat 0 (VU 0) two_ok ltac:(cbn; lia)).
  change (N.of_nat (length two_samples)) with 2 in H. change (N.of_nat 7) with 7 in H. rewrite beyond_read in H. congruence.
Qed.
Print Assumptions C79_beyond_refuted.

(** Records of 64 KiB, 64 Ki samples and one more. *)
Definition long_part (x : N) : part := mkPart (x :: repeat 0 (N.to_nat 65535)) [].
Definition long_red (x : N) : reduced := mkRed (long_part x) (long_part x) (long_part x).
Definition long_samples : list reduced := repeat (long_red 1) (N.to_nat 65536) ++ [long_red 2].
Lemma long_sizes : forall x, N.of_nat (length (p_data (long_part x))) = 65536 /\ N.of_nat (length (p_inval (long_part x))) = 0.
Proof. intros x. split; [|reflexivity]. cbn [long_part p_data length]. rewrite repeat_length. lia. Qed.
Lemma long_ok : sizes_ok 65536 0 long_samples.
Proof.
  assert (A : forall x, Forall (fun p => N.of_nat (length (p_data p)) = 65536 /\ N.of_nat (length (p_inval p)) = 0) (parts (long_red x)))
    by (intros x; repeat first [apply Forall_cons | apply Forall_nil]; apply long_sizes).
  unfold sizes_ok, long_samples. apply Forall_app. split; [|apply Forall_cons; [apply A|apply Forall_nil]].
  apply Forall_forall. intros r I. apply repeat_spec in I. subst. apply A.
Qed.
Lemma long_first : nth_error long_samples 0 = Some (long_red 1).
Proof.
  unfold long_samples. rewrite nth_error_app1 by (rewrite repeat_length; lia).
  replace (N.to_nat 65536) with (S (N.to_nat 65535)) by lia. reflexivity.
Qed.
Lemma long_last : nth_error long_samples (N.to_nat 65536) = Some (long_red 2).
Proof. unfold long_samples. rewrite nth_error_app2 by (rewrite repeat_length; lia). rewrite repeat_length, Nat.sub_diag. reflexivity. Qed.
Lemma wrapped : forall data x buf, copy_rd data 65536 65536 x buf = copy_rd data 65536 0 x buf.
Proof.
  intros data x buf. unfold copy_rd. f_equal. unfold to_int32, w64.
  change (65536 * 3 * 65536) with (3 * 2 ^ 32). change (0 * 3 * 65536) with 0. rewrite N.add_0_l.
  set (y := x * 65536). clearbody y. change (2 ^ 64) with (2 ^ 32 * 2 ^ 32).
  rewrite !N.mod_mul_r by discriminate. rewrite !(N.mul_comm (2 ^ 32)). rewrite !N.mod_add by discriminate.
  rewrite !N.mod_mod by discriminate. rewrite (N.add_comm (3 * 2 ^ 32)), N.mod_add by discriminate. reflexivity.
Qed.
Lemma long_same : forall h fl c nof data idx,
  sr_value h fl c true nof 65536 0 data (N.of_nat (N.to_nat 65536)) idx = sr_value h fl c true nof 65536 0 data (N.of_nat 0) idx.
Proof.
  intros h fl c nof data idx. rewrite N2Nat.id. change (N.of_nat 0) with 0. unfold sr_value. change (65536 + 0) with 65536.
  rewrite wrapped. destruct data; [reflexivity|]. change (65536 =? 0) with false. cbn iota.
  destruct (copy_rd (n :: data) 65536 0 0 (repeat 0 (N.to_nat 65536))); reflexivity.
Qed.
Definition byte_only : chan := mkChan FixedLength UnsignedLe 0 0 8 1 false 0 65536 0.
Lemma long_differ : get_channel (fun x => x) (fun x => x) byte_only (whole (long_part 1)) 0
  <> get_channel (fun x => x) (fun x => x) byte_only (whole (long_part 2)) 0.
Proof. vm_compute. discriminate. Qed.
(** With 4 GiB of data or more the position is cut to 32 bits: the values of another sample are returned. *)
Theorem C79_large_refuted : ~ forall h fl c nof ds is rs k r idx, sizes_ok ds is rs -> nth_error rs k = Some r -> 0 < ds + is ->
  sr_value h fl c true nof ds is (row_bytes rs) (N.of_nat k) idx = Ok (readings h fl c idx r).
Proof.
  intros H. pose proof (H (fun x => x) (fun x => x) byte_only 0 65536 0 long_samples 0%nat _ 0 long_ok long_first ltac:(reflexivity)) as A.
  pose proof (H (fun x => x) (fun x => x) byte_only 0 65536 0 long_samples (N.to_nat 65536) _ 0 long_ok long_last ltac:(reflexivity)) as B.
  rewrite long_same in B. rewrite A in B. apply long_differ.
  assert (C : readings (fun x => x) (fun x => x) byte_only 0 (long_red 1) = readings (fun x => x) (fun x => x) byte_only 0 (long_red 2)) by congruence.
  unfold readings, long_red in C. cbn [r_mean r_min r_max] in C. congruence.
Qed.
Print Assumptions C79_large_refuted.

(** MDF 3: an SR block and the data behind it. *)
Definition file3 (rs : list reduced) (f : file) : file :=
  f ++ header3_bytes false [83; 82] 24 [0; N.of_nat (length f + 24)] ++ le_bytes 4 (N.of_nat (length rs)) ++ le_bytes 8 7 ++ row_bytes rs.
(** The data of an MDF 3 sample reduction is never read: whatever is asked for, no value is returned. *)
Theorem C79_mdf3_refuted : ~ forall h fl rs ds f c idx k r, sizes_ok ds 0 rs -> nth_error rs k = Some r -> 0 < ds ->
  N.of_nat (length (file3 rs f)) < 2 ^ 31 ->
  sr3_get h fl false (file3 rs f) (length f) c ds (N.of_nat k) idx = Ok (readings h fl c idx r).
Proof.
  intros H. specialize (H (fun x => x) (fun x => x) [mkRed (mkPart [5] []) (mkPart [3] []) (mkPart [8] [])] 1 (repeat 0 64) byte_only 0 0%nat).
  cbn [nth_error] in H. specialize (H _ ltac:(repeat first [apply Forall_cons | apply Forall_nil]; split; reflexivity) eq_refl ltac:(reflexivity)
    ltac:(vm_compute; reflexivity)). vm_compute in H. discriminate H.
Qed.
Print Assumptions C79_mdf3_refuted.

(** That holds for every MDF 3 file, channel and sample number. *)
Theorem C79_mdf3_none : forall h fl big f pos c size sample idx v,
  sr3_get h fl big f pos c size sample idx <> Ok v.
Proof.
  intros h fl big f pos c size sample idx v H. unfold sr3_get in H.
  destruct (read_sr3 big f pos sr3_new) as [s| |] eqn:E; try discriminate H. cbn [bind] in H.
  assert (B : s3_blocks s = []).
  { unfold read_sr3 in E. destruct (read_header3 big 2 f pos) as [[b p]| |]; try discriminate E. cbn [bind] in E.
    destruct (read_num big 4 f p) as [[x q]| |]; try discriminate E. cbn [bind] in E.
    destruct (read_num big 8 f q) as [[y q']| |]; try discriminate E. cbn [bind] in E.
    assert (X : mkSr3 x y (link b 1) (s3_blocks sr3_new) (s3_data sr3_new) = s) by congruence. rewrite <- X. reflexivity. }
  unfold sr3_read_data in H. rewrite B in H. cbn in H. discriminate H.
Qed.
Print Assumptions C79_mdf3_none.
