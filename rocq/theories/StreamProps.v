(** Theorems about record streams: C10-C16. Statements only; the proofs are in IdProofs,
    StreamProofs, StreamProofs2, RangeProofs, VlsdReadProofs and Stream3Proofs. *)
From Verif Require Import Base StreamModel StreamSpec StreamProofs StreamProofs2 RangeProofs
  VlsdReadProofs Stream3Model Stream3Proofs IdProofs StreamExtra.
Local Open Scope N_scope.

(* ================================================================== *)
(** * C10: MDF4 record ids *)

(** For every list of groups added one after the other. *)
Theorem C10_record_ids : forall gs, N.of_nat (length gs) < 2 ^ 64 ->
  length (d_groups (build4 gs)) = length gs /\
  NoDup (map g_id (d_groups (build4 gs))) /\
  In (d_idsize (build4 gs)) [0; 1; 2; 4; 8] /\
  (forall g, In g (d_groups (build4 gs)) -> g_id g < 256 ^ d_idsize (build4 gs)) /\
  (d_idsize (build4 gs) = 0 <-> (length gs < 2)%nat).
Proof.
  intros gs L. split; [apply build4_length|]. split; [apply build4_nodup|].
  split; [rewrite build4_idsize; apply id_size_in|].
  split; [intros g Hg; apply build4_fit; auto|apply build4_single].
Qed.
Print Assumptions C10_record_ids.

(** The id fields the writer stores for two different groups differ. *)
Theorem C10_id_fields_differ : forall gs g h, N.of_nat (length gs) < 2 ^ 64 ->
  In g (d_groups (build4 gs)) -> In h (d_groups (build4 gs)) -> g_id g <> g_id h ->
  put_id (d_idsize (build4 gs)) (g_id g) <> put_id (d_idsize (build4 gs)) (g_id h).
Proof. exact id_fields_differ. Qed.
Print Assumptions C10_id_fields_differ.

(** Adding a group renumbers but changes nothing else of the groups. *)
Theorem C10_groups_kept : forall gs,
  map (fun g => (g_vlsd g, g_data g, g_inval g, g_nof g)) (d_groups (build4 gs)) =
  map (fun g => (g_vlsd g, g_data g, g_inval g, g_nof g)) gs.
Proof. exact build4_attr. Qed.
Print Assumptions C10_groups_kept.

Example C10_witness :
  let d := build4 (repeat (mkGroup 77 false 4 1 0) 300) in
  d_idsize d = 2 /\ map g_id (firstn 3 (d_groups d)) = [1; 2; 3] /\ last (map g_id (d_groups d)) 0 = 300.
Proof. vm_compute. auto. Qed.

(* ================================================================== *)
(** * C11: MDF3 record ids *)

(** Distinct exactly up to 256 groups. *)
Theorem C11_record_ids_partial : forall gs link,
  NoDup (map h_id (t_groups (build3 gs link))) <-> (length gs <= 256)%nat.
Proof. exact build3_nodup. Qed.
Print Assumptions C11_record_ids_partial.

(** With 257 groups two of them share an id. *)
Theorem C11_many_groups_refuted : exists gs link g h,
  In g (t_groups (build3 gs link)) /\ In h (t_groups (build3 gs link)) /\ g <> h /\ h_id g = h_id h.
Proof.
  exists (repeat (mkG3 0 1 0 []) 256 ++ [mkG3 0 2 0 []]), 0%nat, (mkG3 1 1 0 []), (mkG3 1 2 0 []).
  vm_compute. split; [left; reflexivity|]. split; [|split; [discriminate|reflexivity]].
  repeat (try (left; reflexivity); right).
Qed.
Print Assumptions C11_many_groups_refuted.

Example C11_witness :
  map h_id (t_groups (build3 (repeat (mkG3 9 1 0 []) 3) 0)) = [1; 2; 3] /\
  map h_id (t_groups (build3 [mkG3 9 1 0 []] 0)) = [0].
Proof. vm_compute. auto. Qed.

(* ================================================================== *)
(** * C12: what is written is read back *)

(** MDF4. The groups are created in any order with any sizes; the writer stores any sequence of
    records of these groups (VLSD groups included); the bytes may be split over data blocks in any
    way. All observers are notified with exactly the records written, in order, each numbered
    within its group. *)
Theorem C12_write_read : forall gs recs blocks fuel,
  let d := build4 gs in
  gs <> [] -> N.of_nat (length gs) < 2 ^ 64 -> (forall g, In g gs -> (0 < rec_size g)%nat) ->
  Forall (rec_ok d) recs -> counts_right d recs ->
  Forall (fun b => b <> []) blocks -> concat blocks = concat (map (written d) recs) ->
  (length (concat blocks) < fuel)%nat ->
  exists evs, read_data d (fun _ => true) (fun _ => true) fuel blocks = Some (Ok evs) /\
    map ev_rec evs = recs /\
    forall i e, nth_error evs i = Some e -> e_sample e = occ (e_id e) (firstn i recs).
Proof. exact write_read4. Qed.
Print Assumptions C12_write_read.

(** The same for a data group read from a file (any ids, any declared counts, any subscription, any
    observer that may stop the reading). *)
Theorem C12_read_stream : forall d sub verdict recs blocks fuel,
  dg_ok d -> Forall (rec_ok d) recs -> Forall (fun b => b <> []) blocks ->
  concat blocks = stream d recs -> (length (stream d recs) < fuel)%nat ->
  read_data d sub verdict fuel blocks = Some (Ok (upto verdict (expected d sub [] recs))).
Proof. exact read_complete. Qed.
Print Assumptions C12_read_stream.

(** A data block cut off inside a record (crash while writing) still delivers all complete
    records. *)
Theorem C12_cut_record : forall d sub verdict recs r tail rest blocks fuel,
  dg_ok d -> Forall (rec_ok d) recs -> rec_ok d r -> sub (r_id r) = true ->
  enc_rec d r = tail ++ rest -> rest <> [] ->
  Forall (fun b => b <> []) blocks -> concat blocks = stream d recs ++ tail ->
  (length (stream d recs ++ tail) < fuel)%nat ->
  read_data d sub verdict fuel blocks = Some (Ok (upto verdict (expected d sub [] recs))).
Proof. exact read_truncated. Qed.
Print Assumptions C12_cut_record.

(** MDF3: the writer's records at the data link of the file, anything before and after. *)
Theorem C12_write_read_mdf3 : forall gs pre recs post fuel,
  let d := build3 gs (length pre) in
  gs <> [] -> (length gs <= 256)%nat -> (forall g, In g gs -> (0 < h_size g)%nat) ->
  Forall (rec3_ok d) recs -> counts3 d recs ->
  (length (concat (map (fun r => put3 (t_nrid d) (r_id r) (r_data r)) recs)) < fuel)%nat ->
  read_data3 d (fun _ => true) fuel
    (pre ++ concat (map (fun r => put3 (t_nrid d) (r_id r) (r_data r)) recs) ++ post)
  = Some (numbered (fun _ => true) [] recs) /\
  map ev_rec (numbered (fun _ => true) [] recs) = recs.
Proof. exact write_read3. Qed.
Print Assumptions C12_write_read_mdf3.

(** A group without any record bytes and without record ids makes the reader loop forever. *)
Theorem C12_zero_size_refuted : exists d blocks,
  NoDup (map g_id (d_groups d)) /\ d_idsize d = 0 /\ length (d_groups d) = 1%nat /\
  forall fuel, read_data d (fun _ => true) (fun _ => true) fuel blocks = None.
Proof.
  exists (mkDg 0 [mkGroup 0 false 0 0 0]), [[1]].
  split; [repeat constructor; intros []|]. split; [reflexivity|]. split; [reflexivity|].
  exact zero_size_loops.
Qed.
Print Assumptions C12_zero_size_refuted.

Example C12_witness :
  let d := build4 [mkGroup 0 false 2 1 2; mkGroup 0 true 4 0 1] in
  let recs := [Rec 1 [10; 11; 0]; Rec 2 [65; 66; 67; 68]; Rec 1 [12; 13; 1]] in
  dg_ok d /\ Forall (rec_ok d) recs /\ counts_right d recs /\
  concat (map (written d) recs) = [1; 10; 11; 0; 2; 4; 0; 0; 0; 65; 66; 67; 68; 1; 12; 13; 1] /\
  read_data d (fun _ => true) (fun _ => true) 20
    [[1; 10]; [11; 0; 2; 4; 0]; [0; 0; 65; 66; 67; 68; 1]; [12; 13; 1]]
  = Some (Ok [Ev 0 1 [10; 11; 0]; Ev 0 2 [65; 66; 67; 68]; Ev 1 1 [12; 13; 1]]).
Proof.
  cbv zeta. split; [apply build4_ok; try discriminate; try reflexivity;
    intros g [<-|[<-|[]]]; vm_compute; lia|].
  split; [repeat constructor; (eexists; split; [vm_compute; left; reflexivity|split; reflexivity]) ||
    (eexists; split; [vm_compute; right; left; reflexivity|split; reflexivity])|].
  split; [intros g [<-|[<-|[]]]; reflexivity|]. split; reflexivity.
Qed.

(* ================================================================== *)
(** * C13: the split in data blocks does not matter *)

Theorem C13_split_records : forall d sub verdict recs b1 b2 fuel,
  dg_ok d -> Forall (rec_ok d) recs ->
  Forall (fun b => b <> []) b1 -> Forall (fun b => b <> []) b2 ->
  concat b1 = stream d recs -> concat b2 = stream d recs -> (length (stream d recs) < fuel)%nat ->
  read_data d sub verdict fuel b1 = read_data d sub verdict fuel b2.
Proof. exact split_records. Qed.
Print Assumptions C13_split_records.

(** For arbitrary bytes (also corrupt ones) when all groups are read. *)
Theorem C13_split_any_bytes : forall d sub verdict fuel b1 b2,
  dg_ok d -> (length (d_groups d) = 1%nat -> d_idsize d = 0) ->
  (forall g, In g (d_groups d) -> sub (g_id g) = true) ->
  Forall (fun b => b <> []) b1 -> Forall (fun b => b <> []) b2 -> concat b1 = concat b2 ->
  read_data d sub verdict fuel b1 = read_data d sub verdict fuel b2.
Proof. intros; apply read_any_split; auto. apply reads_all_ok; auto. Qed.
Print Assumptions C13_split_any_bytes.

Theorem C13_split_range : forall d sub verdict mn mx recs b1 b2 fuel,
  dg_ok d -> Forall (rec_ok d) recs ->
  Forall (fun b => b <> []) b1 -> Forall (fun b => b <> []) b2 ->
  concat b1 = stream d recs -> concat b2 = stream d recs -> (length (stream d recs) < fuel)%nat ->
  mn <= mx ->
  read_partial_data d sub verdict mn mx fuel b1 = read_partial_data d sub verdict mn mx fuel b2.
Proof. exact split_range. Qed.
Print Assumptions C13_split_range.

(** An empty block in the list ends the reading: the records after it are lost. *)
Theorem C13_empty_block_refuted : exists d recs b1 b2,
  dg_ok d /\ Forall (rec_ok d) recs /\ concat b1 = stream d recs /\ concat b2 = stream d recs /\
  read_data d (fun _ => true) (fun _ => true) 100 b1 = Some (Ok [Ev 0 0 [7]; Ev 1 0 [8]]) /\
  read_data d (fun _ => true) (fun _ => true) 100 b2 = Some (Ok [Ev 0 0 [7]]).
Proof.
  exists (build4 [mkGroup 0 false 1 0 9]), [Rec 0 [7]; Rec 0 [8]], [[7]; [8]], [[7]; []; [8]].
  split; [apply build4_ok; try discriminate; try reflexivity; intros g [<-|[]]; vm_compute; lia|].
  split; [repeat constructor; (eexists; split; [vm_compute; left; reflexivity|split; reflexivity])|].
  vm_compute. auto.
Qed.
Print Assumptions C13_empty_block_refuted.

(* ================================================================== *)
(** * C14: subscribing to fewer groups *)

Theorem C14_subscription : forall d sub recs blocks fuel,
  dg_ok d -> Forall (rec_ok d) recs -> Forall (fun b => b <> []) blocks ->
  concat blocks = stream d recs -> (length (stream d recs) < fuel)%nat ->
  exists all, read_data d (fun _ => true) (fun _ => true) fuel blocks = Some (Ok all) /\
    read_data d sub (fun _ => true) fuel blocks = Some (Ok (filter (fun e => sub (e_id e)) all)).
Proof. exact subscription. Qed.
Print Assumptions C14_subscription.

(** A file cut off inside a record of a group that is not subscribed: the reader skips beyond the
    end and then reads bytes that are not at the cursor of any block. *)
Theorem C14_cut_unsubscribed_refuted : exists d sub blocks tail rest recs r,
  dg_ok d /\ Forall (rec_ok d) recs /\ rec_ok d r /\ enc_rec d r = tail ++ rest /\
  Forall (fun b => b <> []) blocks /\ concat blocks = stream d recs ++ tail /\
  read_data d sub (fun _ => true) 100 blocks = Some UB /\
  read_data d (fun _ => true) (fun _ => true) 100 blocks = Some (Ok [Ev 0 1 [7]]).
Proof.
  exists (build4 [mkGroup 0 false 1 0 9; mkGroup 0 false 4 0 9]), (N.eqb 1),
    [[1; 7; 2; 9]; [9; 9]], [2; 9; 9; 9], [9], [Rec 1 [7]], (Rec 2 [9; 9; 9; 9]).
  split; [apply build4_ok; try discriminate; try reflexivity;
    intros g [<-|[<-|[]]]; vm_compute; lia|].
  split; [repeat constructor; (eexists; split; [vm_compute; left; reflexivity|split; reflexivity])|].
  split; [eexists; split; [vm_compute; right; left; reflexivity|split; reflexivity]|].
  split; [reflexivity|]. split; [repeat constructor; discriminate|].
  vm_compute. auto.
Qed.
Print Assumptions C14_cut_unsubscribed_refuted.

(* ================================================================== *)
(** * C15: range reading *)

(** MDF4: the samples whose position (counted from 1) lies in mn..mx, with the numbers of the
    complete reading. *)
Theorem C15_range_slice_partial : forall d sub verdict mn mx recs blocks fuel,
  dg_ok d -> Forall (rec_ok d) recs -> Forall (fun b => b <> []) blocks ->
  concat blocks = stream d recs -> (length (stream d recs) < fuel)%nat -> mn <= mx ->
  exists all, read_data d sub (fun _ => true) fuel blocks = Some (Ok all) /\
    read_partial_data d sub verdict mn mx fuel blocks =
    Some (Ok (upto verdict (filter (in_range mn mx) all))).
Proof. exact range_slice. Qed.
Print Assumptions C15_range_slice_partial.

(** MDF3, for groups without sample reduction. *)
Theorem C15_range_slice_mdf3_partial : forall d sub verdict mn mx recs fuel pre post,
  dg3_ok d -> Forall (rec3_ok d) recs -> counts3 d recs ->
  (forall g, In g (t_groups d) -> h_srs g = []) ->
  t_link d = length pre -> (length (stream3 d recs) < fuel)%nat -> mn <= mx ->
  exists all, read_data3 d (fun _ => true) fuel (pre ++ stream3 d recs ++ post) = Some all /\
    read_partial_data3 d sub verdict mn mx fuel (pre ++ stream3 d recs ++ post) =
    Some (upto verdict (filter (in_range mn mx) (filter (fun e => sub (e_id e)) all))).
Proof. exact range_slice3. Qed.
Print Assumptions C15_range_slice_mdf3_partial.

(** The sample numbers handed to observers count from 0 but the range counts from 1: asking for
    sample 0 only delivers nothing, asking for 1..1 delivers sample 0. *)
Theorem C15_zero_based_refuted : exists d recs blocks,
  dg_ok d /\ Forall (rec_ok d) recs /\ concat blocks = stream d recs /\
  Forall (fun b => b <> []) blocks /\
  read_data d (fun _ => true) (fun _ => true) 100 blocks = Some (Ok [Ev 0 0 [7]; Ev 1 0 [8]]) /\
  read_partial_data d (fun _ => true) (fun _ => true) 0 0 100 blocks = Some (Ok []) /\
  read_partial_data d (fun _ => true) (fun _ => true) 1 1 100 blocks = Some (Ok [Ev 0 0 [7]]).
Proof.
  exists (build4 [mkGroup 0 false 1 0 9]), [Rec 0 [7]; Rec 0 [8]], [[7]; [8]].
  split; [apply build4_ok; try discriminate; try reflexivity; intros g [<-|[]]; vm_compute; lia|].
  split; [repeat constructor; (eexists; split; [vm_compute; left; reflexivity|split; reflexivity])|].
  split; [reflexivity|]. split; [repeat constructor; discriminate|]. vm_compute. auto.
Qed.
Print Assumptions C15_zero_based_refuted.

(** MDF3: the sample reduction data is read before the records and leaves the file position behind
    it; the range reading then takes its records from there. *)
Theorem C15_mdf3_reduction_refuted : exists d recs file,
  dg3_ok d /\ Forall (rec3_ok d) recs /\ counts3 d recs /\
  skipn (t_link d) file = stream3 d recs ++ [99; 98] /\
  read_data3 d (fun _ => true) 100 file = Some [Ev 0 0 [7]; Ev 1 0 [8]] /\
  read_partial_data3 d (fun _ => true) (fun _ => true) 1 2 100 file = Some [Ev 0 0 [8]; Ev 1 0 [99]].
Proof.
  exists (mkD3 0 [mkG3 0 1 2 [(0%nat, 1%nat)]] 0), [Rec 0 [7]; Rec 0 [8]], [7; 8; 99; 98].
  split; [constructor; try discriminate; cbn; auto;
    [repeat constructor; intros []|intros _; eexists; split; reflexivity|intros g [<-|[]]; cbn; lia]|].
  split; [repeat constructor; (eexists; split; [left; reflexivity|split; reflexivity])|].
  split; [intros g [<-|[]]; reflexivity|]. vm_compute. auto.
Qed.
Print Assumptions C15_mdf3_reduction_refuted.

(** MDF3 without record ids but with a group numbered 1 in the file: the complete reading delivers
    the records, the range reading nothing. *)
Theorem C15_mdf3_numbered_group_refuted : exists d file,
  read_data3 d (fun _ => true) 100 file = Some [Ev 0 1 [7]; Ev 1 1 [8]] /\
  read_partial_data3 d (fun _ => true) (fun _ => true) 1 2 100 file = Some [].
Proof. exists (mkD3 0 [mkG3 1 1 2 []] 0), [7; 8]. vm_compute. auto. Qed.
Print Assumptions C15_mdf3_numbered_group_refuted.

Example C15_witness :
  let d := build4 [mkGroup 0 false 1 0 3; mkGroup 0 false 1 0 2] in
  read_partial_data d (fun _ => true) (fun _ => true) 2 3 100 [[1; 7; 2; 9; 1]; [8; 2; 10; 1; 11]]
  = Some (Ok [Ev 1 1 [8]; Ev 1 2 [10]; Ev 2 1 [11]]).
Proof. vm_compute. reflexivity. Qed.

(* ================================================================== *)
(** * C16: variable length values, reading side *)

(** The values of a VLSD group, keyed by their offset among the length-prefixed values of that
    group; other groups' records in between do not disturb. *)
Theorem C16_read_vlsd_group : forall d rid flt recs blocks fuel,
  dg_ok d -> Forall (rec_ok d) recs -> vlsd_id d rid = true ->
  (forall r, In r recs -> r_id r = rid -> N.of_nat (length (r_data r)) < 2 ^ 32 - 4) ->
  Forall (fun b => b <> []) blocks -> concat blocks = stream d recs ->
  (length (stream d recs) < fuel)%nat ->
  read_vlsd_cg d rid flt fuel blocks =
  Some (Ok (requested flt (offsets_from 0 (payloads rid recs)))).
Proof. exact read_vlsd_cg_ok. Qed.
Print Assumptions C16_read_vlsd_group.

(** The values of signal data blocks: all of them, or those at a sorted list of offsets. *)
Theorem C16_read_signal_data : forall offs ps blocks fuel, Forall small ps -> increasing offs ->
  Forall (fun b => b <> []) blocks -> concat blocks = concat (map chunk ps) ->
  (forall o, In o offs -> In o (map fst (offsets_from 0 ps))) ->
  (length (concat blocks) < fuel)%nat ->
  read_signal_data offs fuel blocks = Some (Ok (requested offs (offsets_from 0 ps))).
Proof. exact read_signal_ok. Qed.
Print Assumptions C16_read_signal_data.

Example C16_witness :
  let d := build4 [mkGroup 0 false 8 0 2; mkGroup 0 true 0 0 2] in
  let recs := [Rec 2 [65; 66]; Rec 1 [0; 0; 0; 0; 0; 0; 0; 0]; Rec 2 [67]; Rec 1 [6; 0; 0; 0; 0; 0; 0; 0]] in
  read_vlsd_cg d 2 [] 100 [stream d recs] = Some (Ok [(0, [65; 66]); (6, [67])]) /\
  read_vlsd_cg d 2 [6] 100 [stream d recs] = Some (Ok [(6, [67])]) /\
  read_signal_data [6] 100 [[2; 0; 0; 0; 65; 66; 1]; [0; 0; 0; 67]] = Some (Ok [(6, [67])]).
Proof. vm_compute. auto. Qed.
