(** Theorems about the sample queue, the drains and a whole measurement: C16 (writing side),
    C20-C25 and C12 end to end. The proofs are in QueueProofs, EncProofs, QueueProofs2,
    WriterProofs and QueueExtra. *)
From Verif Require Import Base ChannelModel VlsdProofs StreamModel StreamSpec StreamProofs IdProofs QueueModel QueueSpec QueueProofs
  EncProofs QueueProofs2 WriterModel WriterProofs QueueExtra.
Local Open Scope N_scope.

(* ================================================================== *)
(** * C21: the queue loses, duplicates and reorders nothing *)

(** Uncompressed. At every moment of every schedule: samples written, then the one in the worker's
    hands, then the queue, are the samples saved so far. *)
Theorem C21_ledger : forall d has_sd stale c sch, dg_ok d -> Forall (sample_ok d) (saved sch) ->
  c_stop c = 0 -> keeps_all c (saved sch) ->
  let st := run d has_sd stale c sch ust0 in
  saved sch = u_log st ++ held (u_phase st) ++ q_list (u_q st).
Proof. exact run_ledger. Qed.
Print Assumptions C21_ledger.

(** The same for the compressed drain, with its push-back of a sample that does not fit. *)
Theorem C21_ledger_compressed : forall d has_sd stale c sch, dg_ok d -> Forall (sample_ok d) (zsaved sch) ->
  c_stop c = 0 -> keeps_all c (zsaved sch) ->
  let st := zrun d has_sd stale c sch zst0 in
  zsaved sch = z_log st ++ zheld (z_phase st) ++ q_list (z_q st) /\
  emitted d has_sd (z_log st) (zdata st) (z_enc st) /\ offsets_right (z_blocks st).
Proof. exact zrun_ledger. Qed.
Print Assumptions C21_ledger_compressed.

(** With trimming, a stop time, or samples of unknown groups: still nothing is duplicated or
    reordered, and written and dropped samples together are all that left the queue. *)
Theorem C21_ledger_any : forall d has_sd stale c sch,
  let st := run d has_sd stale c sch ust0 in
  exists left, shuffle (u_log st) (u_gone st) left /\
    saved sch = left ++ held (u_phase st) ++ q_list (u_q st).
Proof. intros. apply (run_accounted sch d has_sd stale c ust0 [] accounted0). Qed.
Print Assumptions C21_ledger_any.

(** The final drain, after any schedule: the queue is empty and the data is the records of all
    samples saved. *)
Theorem C21_finalize : forall d has_sd stale c sch n, dg_ok d -> Forall (sample_ok d) (saved sch) ->
  c_stop c = 0 -> keeps_all c (saved sch) ->
  (S (length (q_list (u_q (run d has_sd stale c sch ust0)))) <= n)%nat ->
  let st := run d has_sd stale c (sch ++ works n) ust0 in
  q_list (u_q st) = [] /\ u_phase st = Idle /\ u_log st = saved sch /\
  emitted d has_sd (saved sch) (u_out st) (u_enc st).
Proof. exact run_all. Qed.
Print Assumptions C21_finalize.

Theorem C21_finalize_compressed : forall d has_sd stale c sch n, dg_ok d ->
  Forall (sample_ok d) (zsaved sch) ->
  c_stop c = 0 -> keeps_all c (zsaved sch) ->
  (length (q_list (z_q (zrun d has_sd stale c sch zst0))) + 4 <= n)%nat ->
  let st := zrun d has_sd stale c (sch ++ zworks n) zst0 in
  q_list (z_q st) = [] /\ z_phase st = ZIdle /\ z_buf st = [] /\ z_log st = zsaved sch /\
  emitted d has_sd (zsaved sch) (concat (map snd (z_blocks st))) (z_enc st) /\
  offsets_right (z_blocks st).
Proof. exact zrun_all. Qed.
Print Assumptions C21_finalize_compressed.

(** Two groups, one with a VLSD group; saves between the worker's steps. *)
Definition ex_d : dgroup := build4 [mkGroup 0 false 9 0 0; mkGroup 0 true 0 0 0; mkGroup 0 false 2 0 0].
Definition ex_s (t : N) (v : list N) : sample := mkS t 1 [t; 0; 0; 0; 0; 0; 0; 0; 0] true v.
Definition ex_t (t : N) : sample := mkS t 3 [t; 7] false [].
Definition ex_sch : list act :=
  [Save (ex_s 1 [65; 66]); Work; Save (ex_t 2); Save (ex_s 3 [67]); Work; Save (ex_t 4); Work].

Lemma ex_ok : dg_ok ex_d /\ Forall (sample_ok ex_d) (saved ex_sch).
Proof.
  split.
  - constructor.
    + discriminate.
    + vm_compute. repeat constructor; cbn; intuition discriminate.
    + vm_compute. auto.
    + intros g [<-|[<-|[<-|[]]]] _; vm_compute; reflexivity.
    + discriminate.
    + discriminate.
  - repeat constructor; try (vm_compute; reflexivity);
      ((eexists; split; [left; reflexivity|solve [vm_compute; auto]]) ||
       (eexists; split; [right; right; left; reflexivity|solve [vm_compute; auto]])).
Qed.

Example C21_witness :
  let c := mkC 0 0 0 false in
  keeps_all c (saved ex_sch) /\
  u_out (run ex_d (fun _ => false) sample_size c (ex_sch ++ works 2) ust0) =
    [2; 2; 0; 0; 0; 65; 66] ++ [1; 1; 0; 0; 0; 0; 0; 0; 0; 0] ++ [3; 2; 7]
    ++ [2; 1; 0; 0; 0; 67] ++ [1; 3; 6; 0; 0; 0; 0; 0; 0; 0] ++ [3; 4; 7].
Proof. split; [left; reflexivity|vm_compute; reflexivity]. Qed.

(* ================================================================== *)
(** * C22: the size counter *)

(** Exact in every schedule if the size read from the destroyed record is its former size. *)
Theorem C22_size_partial : forall d has_sd c sch,
  let st := run d has_sd sample_size c sch ust0 in
  q_size (u_q st) = w64 (total_size (q_list (u_q st))).
Proof. intros. apply run_size. reflexivity. Qed.
Print Assumptions C22_size_partial.

Theorem C22_size_compressed_partial : forall d has_sd c sch,
  let st := zrun d has_sd sample_size c sch zst0 in
  q_size (z_q st) = w64 (total_size (q_list (z_q st))).
Proof. intros. apply zrun_size. reflexivity. Qed.
Print Assumptions C22_size_compressed_partial.

(** Without trimming (the converter) it is exact whatever PopSample would read. *)
Theorem C22_size_no_pop : forall d has_sd stale c sch, c_trim c = false ->
  let st := run d has_sd stale c sch ust0 in
  q_size (u_q st) = w64 (total_size (q_list (u_q st))).
Proof.
  intros d has_sd stale c sch H.
  assert (E : forall sch st, run d has_sd stale c sch st = run d has_sd sample_size c sch st).
  { induction sch0 as [|a r IH]; intros st; [reflexivity|]. destruct a; cbn [run]; rewrite IH; auto.
    unfold work, cfg_trim. rewrite H. reflexivity. }
  cbv zeta. rewrite E. apply run_size. reflexivity.
Qed.
Print Assumptions C22_size_no_pop.

(** PopSample reads the size after the record is destroyed; if it finds anything else, e.g. zero,
    the counter stays too large for ever. *)
Theorem C22_size_after_pop_refuted : exists c sch,
  let st := run ex_d (fun _ => false) (fun _ => 0) c sch ust0 in
  q_list (u_q st) = [] /\ q_size (u_q st) = 15.
Proof.
  exists (mkC 100 0 0 true), [Save (ex_s 1 [65; 66]); Save (ex_t 2); Save (ex_t 200); Work; Work; Work; Work].
  vm_compute. auto.
Qed.
Print Assumptions C22_size_after_pop_refuted.

Example C22_witness :
  let st := run ex_d (fun _ => false) sample_size (mkC 0 0 0 true) [Save (ex_s 1 [65]); Save (ex_t 2)] ust0 in
  q_size (u_q st) = 20 /\ total_size (q_list (u_q st)) = 20.
Proof. vm_compute. auto. Qed.

(* ================================================================== *)
(** * C23: pre-trigger trimming *)

(** Trimming removes a prefix and never the last sample, whatever the time stamps. *)
Theorem C23_prefix : forall stale start pre q,
  exists dropped, q_list q = dropped ++ q_list (trim_queue stale start pre q) /\
    (q_list q <> [] -> q_list (trim_queue stale start pre q) <> []).
Proof.
  intros. rewrite trim_queue_list. destruct (trim_list_suffix start pre (q_list q)) as [k E].
  exists k. split; auto. apply trim_list_nonempty.
Qed.
Print Assumptions C23_prefix.

(** Waiting for the trigger: what is dropped is older than the pre-trigger time; of what is kept
    only the first sample may be older. *)
Theorem C23_waiting : forall stale pre q x, sorted_ts (q_list q) ->
  (forall s, In s (q_list q) -> s_ts s < 2 ^ 64) ->
  let newest := s_ts (last (q_list q) x) in
  exists dropped, q_list q = dropped ++ q_list (trim_queue stale 0 pre q) /\
    (forall s, In s dropped -> s_ts s + pre < newest) /\
    (forall s, In s (tl (q_list (trim_queue stale 0 pre q))) -> newest <= s_ts s + pre).
Proof. intros stale pre q x S B. rewrite trim_queue_list. apply trim_waiting; auto. Qed.
Print Assumptions C23_waiting.

(** After the start. *)
Theorem C23_started : forall stale start pre q, 0 < start -> pre <= start -> start < 2 ^ 64 ->
  sorted_ts (q_list q) ->
  exists dropped, q_list q = dropped ++ q_list (trim_queue stale start pre q) /\
    (forall s, In s dropped -> s_ts s < start - pre) /\
    (forall s, In s (tl (q_list (trim_queue stale start pre q))) -> start - pre <= s_ts s).
Proof. intros stale start pre q H1 H2 H3 S. rewrite trim_queue_list. apply trim_started; auto. Qed.
Print Assumptions C23_started.

(** A pre-trigger time longer than the start time (relative times): the unsigned difference wraps
    and everything but the newest sample is dropped, although all samples are in the window. *)
Theorem C23_underflow_refuted : exists start pre l,
  0 < start /\ sorted_ts l /\ (forall s, In s l -> start <= s_ts s + pre) /\
  length l = 3%nat /\ length (trim_list start pre l) = 1%nat.
Proof.
  exists 10, 20, [ex_t 8; ex_t 9; ex_t 10]. split; [lia|]. split; [cbn; lia|].
  split; [intros s [<-|[<-|[<-|[]]]]; cbn; lia|]. vm_compute. auto.
Qed.
Print Assumptions C23_underflow_refuted.

(** Time stamps out of order while waiting: the difference wraps and samples inside the window are
    dropped. *)
Theorem C23_unordered_refuted : exists pre l,
  (forall s t, In s l -> In t l -> s_ts t <= s_ts s + pre) /\
  length l = 3%nat /\ length (trim_list 0 pre l) = 2%nat.
Proof.
  exists 20, [ex_t 8; ex_t 11; ex_t 10].
  split; [intros s t [<-|[<-|[<-|[]]]] [<-|[<-|[<-|[]]]]; cbn; lia|]. vm_compute. auto.
Qed.
Print Assumptions C23_unordered_refuted.

(** Over a whole measurement: see C25_stored_partial, whose conclusion says that only samples older
    than the window before the start are missing. *)
Example C23_witness :
  map s_ts (trim_list 0 5 [ex_t 1; ex_t 2; ex_t 4; ex_t 7; ex_t 9]) = [2; 4; 7; 9] /\
  map s_ts (trim_list 9 5 [ex_t 1; ex_t 2; ex_t 3; ex_t 7; ex_t 9]) = [3; 7; 9].
Proof. vm_compute. auto. Qed.

(* ================================================================== *)
(** * C20: compressed and uncompressed writing store the same stream *)

(** Any two schedules that save the same samples, both drained: the blocks of the compressed writer
    are the bytes of the uncompressed one, split; every list entry carries the sum of the sizes of
    the blocks before it. *)
Theorem C20_same_stream : forall d has_sd st1 st2 c sch zsch n1 n2, dg_ok d ->
  Forall (sample_ok d) (saved sch) -> zsaved zsch = saved sch ->
  c_stop c = 0 -> keeps_all c (saved sch) ->
  (S (length (q_list (u_q (run d has_sd st1 c sch ust0)))) <= n1)%nat ->
  (length (q_list (z_q (zrun d has_sd st2 c zsch zst0))) + 4 <= n2)%nat ->
  let u := run d has_sd st1 c (sch ++ works n1) ust0 in
  let z := zrun d has_sd st2 c (zsch ++ zworks n2) zst0 in
  concat (map snd (z_blocks z)) = u_out u /\ offsets_right (z_blocks z).
Proof.
  intros d has_sd st1 st2 c sch zsch n1 n2 H F E HS HT L1 L2 u z.
  destruct (run_all d has_sd st1 c sch n1 H F HS HT L1) as (_ & _ & _ & (U & _)).
  rewrite <- E in F, HT.
  destruct (zrun_all d has_sd st2 c zsch n2 H F HS HT L2) as (_ & _ & _ & _ & (Z & _) & O).
  split; auto. fold u in U. fold z in Z. rewrite U, Z, E. reflexivity.
Qed.
Print Assumptions C20_same_stream.

(** When every sample, with its record ids and its variable length value, is smaller than
    4,000,000 bytes, no block is empty, so all blocks are read, and no block is larger. *)
Theorem C20_no_empty_block : forall d has_sd stale c sch,
  (forall s, In s (zsaved sch) ->
     d_idsize d + N.of_nat (length (s_rec s)) +
     (if s_has s then d_idsize d + 4 + N.of_nat (length (s_vbuf s)) else 0) < 4000000) ->
  Forall (fun b => snd b <> []) (z_blocks (zrun d has_sd stale c sch zst0)).
Proof.
  intros d has_sd stale c sch F.
  apply (zrun_full sch d has_sd stale c zst0).
  - repeat split; constructor.
  - apply Forall_forall. intros s IN. unfold fits. rewrite max_index_needs. cbn [length]. apply (F s IN).
Qed.
Print Assumptions C20_no_empty_block.

Theorem C20_block_size : forall d has_sd stale c sch,
  d_idsize d = 0 \/ d_idsize d = 1 \/ d_idsize d = 2 \/ d_idsize d = 4 \/ d_idsize d = 8 ->
  (forall s, In s (zsaved sch) ->
     d_idsize d + N.of_nat (length (s_rec s)) +
     (if s_has s then d_idsize d + 4 + N.of_nat (length (s_vbuf s)) else 0) < 4000000) ->
  Forall (fun b => N.of_nat (length (snd b)) < 4000000) (z_blocks (zrun d has_sd stale c sch zst0)).
Proof.
  intros d has_sd stale c sch I F.
  apply (zrun_small sch d has_sd stale c zst0 I).
  - split; [constructor|]. split; [reflexivity|]. split; constructor.
  - apply Forall_forall. exact F.
Qed.
Print Assumptions C20_block_size.

Lemma big_empty : forall body, 4000000 <= N.of_nat (length body) ->
  map snd (z_blocks (zrun (mkDg 0 [mkGroup 0 false 4000000 0 0]) (fun _ => false) sample_size
    (mkC 0 0 0 false) (ZSave (mkS 0 0 body false []) :: zworks 5) zst0)) = [[]; body].
Proof.
  intros body L. destruct body as [|x b]; [cbn in L; lia|].
  set (s := mkS 0 0 (x :: b) false []). set (d := mkDg 0 [mkGroup 0 false 4000000 0 0]).
  assert (M : (buffer_max <=? max_index (d_idsize d) [] s) = true).
  { apply N.leb_le. unfold max_index, buffer_max, s. cbn [s_rec s_has]. lia. }
  set (c := mkC 0 0 0 false). set (h := fun _ : N => false).
  set (q0 := add_sample (mkQ [] 0) s).
  set (st1 := mkZ q0 ZOpened true [] [] 0 enc0 [] []).
  assert (E1 : zwork d h sample_size c true (zsave s zst0) = st1) by reflexivity.
  set (q1 := mkQ (@nil sample) (sub64 (q_size q0) (sample_size s))).
  set (st2 := mkZ q1 (ZHolding s) true [] [] 0 enc0 [] []).
  assert (E2 : zwork d h sample_size c true st1 = st2) by reflexivity.
  assert (E3 : zwork d h sample_size c true st2 = zwrite d h c s (flush st2)).
  { unfold zwork. change (z_phase st2) with (ZHolding s). cbv iota. change (z_buf st2) with (@nil N).
    rewrite M. reflexivity. }
  assert (E4 : z_phase (zwrite d h c s (flush st2)) = ZIdle /\
    q_list (z_q (zwrite d h c s (flush st2))) = [] /\
    map snd (z_blocks (zwrite d h c s (flush st2))) = [[]; x :: b]) by (repeat split).
  change (zworks 5) with (repeat (ZWork true) 5). cbn [repeat zrun]. rewrite E1, E2, E3.
  destruct E4 as (P & Q & B). set (st3 := zwrite d h c s (flush st2)) in *. clearbody st3.
  assert (E5 : zwork d h sample_size c true st3 = st3).
  { unfold zwork, zopen. rewrite P, Q. reflexivity. }
  rewrite !E5. exact B.
Qed.

(** A sample of 4,000,000 bytes or more saved first makes the writer store an empty block, at which
    every reader stops (C13_empty_block_refuted). *)
Theorem C20_empty_block_refuted : exists d s, dg_ok d /\ sample_ok d s /\
  exists rest, map snd (z_blocks (zrun d (fun _ => false) sample_size (mkC 0 0 0 false)
    (ZSave s :: zworks 5) zst0)) = [] :: rest.
Proof.
  exists (mkDg 0 [mkGroup 0 false 4000000 0 0]), (mkS 0 0 (repeat 0 (N.to_nat 4000000)) false []).
  split; [|split].
  - constructor.
    + discriminate.
    + repeat constructor. intros [].
    + vm_compute. auto.
    + intros g _ X. destruct (X eq_refl).
    + reflexivity.
    + intros g [<-|[]] _ _. unfold rec_size. cbn [g_data g_inval].
      change (w32 (4000000 + 0)) with 4000000. lia.
  - split; [|reflexivity].
    eexists. split; [left; reflexivity|]. split; [reflexivity|]. split; [reflexivity|].
    unfold rec_size. cbn [s_rec g_data g_inval]. rewrite repeat_length. f_equal.
  - exists [repeat 0 (N.to_nat 4000000)]. apply big_empty. rewrite repeat_length. lia.
Qed.
Print Assumptions C20_empty_block_refuted.

Example C20_witness :
  let z := zrun ex_d (fun _ => false) sample_size (mkC 0 0 0 false)
    ([ZSave (ex_s 1 [65; 66]); ZSave (ex_t 2); ZWork false; ZWork true; ZSave (ex_s 3 [67]); ZWork true; ZSave (ex_t 4)]
     ++ zworks 8) zst0 in
  map fst (z_blocks z) = [0] /\
  concat (map snd (z_blocks z)) =
  u_out (run ex_d (fun _ => false) sample_size (mkC 0 0 0 false) (ex_sch ++ works 2) ust0).
Proof. vm_compute. auto. Qed.

(* ================================================================== *)
(** * C24: sample counters *)

(** At every moment, for every group: the counter is the number of its records in the data. *)
Theorem C24_counts : forall d has_sd stale c sch g, dg_ok d -> Forall (sample_ok d) (saved sch) ->
  In g (d_groups d) ->
  let st := run d has_sd stale c sch ust0 in
  u_out st = concat (map (written d) (records_of d has_sd (u_log st))) /\
  e_cnt (u_enc st) (g_id g) = occ (g_id g) (records_of d has_sd (u_log st)) /\
  (g_vlsd g = false ->
   e_cnt (u_enc st) (g_id g) = N.of_nat (length (filter (fun s => s_id s =? g_id g) (u_log st)))) /\
  (g_vlsd g = true ->
   e_cnt (u_enc st) (g_id g) = N.of_nat (length (group_values d (g_id g) (u_log st))) /\
   e_tot (u_enc st) (g_id g) = w64 (sum_len (group_values d (g_id g) (u_log st)))).
Proof.
  intros d has_sd stale c sch g H F Hg st.
  destruct (run_emitted sch d has_sd stale c ust0 [] H accounted0 F (emitted0 d has_sd)) as (E1 & E2 & E3).
  fold st in E1, E2, E3.
  assert (FL : Forall (sample_ok d) (u_log st)).
  { destruct (run_accounted sch d has_sd stale c ust0 [] accounted0) as (left & SH & E). fold st in SH, E.
    rewrite Forall_forall in *. intros s Hs. apply F. cbn [app] in E. rewrite E. apply in_or_app. left.
    clear - SH Hs. induction SH; [destruct Hs| |right; auto].
    destruct Hs as [->|Hs]; [left; auto|right; auto]. }
  pose proof (occ_records d has_sd (u_log st) g H FL Hg) as O.
  pose proof (eo_cnt _ _ _ _ E3 (g_id g)) as C.
  split; [auto|]. split; [auto|]. split.
  - intros V. rewrite C, O, V. reflexivity.
  - intros V. rewrite C, O, V. split; [reflexivity|]. apply (eo_tot _ _ _ _ E3).
Qed.
Print Assumptions C24_counts.

Theorem C24_counts_compressed : forall d has_sd stale c sch g, dg_ok d ->
  Forall (sample_ok d) (zsaved sch) -> In g (d_groups d) ->
  let st := zrun d has_sd stale c sch zst0 in
  concat (map snd (z_blocks st)) ++ z_buf st = concat (map (written d) (records_of d has_sd (z_log st))) /\
  e_cnt (z_enc st) (g_id g) = occ (g_id g) (records_of d has_sd (z_log st)).
Proof.
  intros d has_sd stale c sch g H F Hg st.
  pose proof (zrun_ok sch d has_sd stale c zst0 [] H F (zok0 d has_sd)) as Z. fold st in Z.
  destruct (zo_emit _ _ _ _ Z) as (E1 & E2 & E3). split; auto. apply (eo_cnt _ _ _ _ E3).
Qed.
Print Assumptions C24_counts_compressed.

Example C24_witness :
  let st := run ex_d (fun _ => false) sample_size (mkC 0 0 0 false) (ex_sch ++ works 2) ust0 in
  map (e_cnt (u_enc st)) [1; 2; 3] = [2; 2; 2] /\ e_tot (u_enc st) 2 = 3.
Proof. vm_compute. auto. Qed.

(* ================================================================== *)
(** * C16: the index written in a record *)

(** VLSD channel groups. [l] are the samples stored (all samples, by C21_finalize). *)
Theorem C16_index_of_value : forall d h e out blocks fuel prev s post v,
  let l := prev ++ s :: post in
  dg_ok d -> Forall (sample_ok d) l -> emitted d h l out e ->
  vlsd_group d s = Some v -> (8 <= length (s_rec s))%nat ->
  chunks_len (group_values d (g_id v) l) < 2 ^ 64 ->
  (forall x, In x l -> N.of_nat (length (s_vbuf x)) < 2 ^ 32 - 4) ->
  Forall (fun b => b <> []) blocks -> concat blocks = out -> (length out < fuel)%nat ->
  exists r idx,
    (exists before after, records_of d h l = before ++ Rec (s_id s) r :: after /\
       occ (s_id s) before = N.of_nat (length (filter (fun x => s_id x =? s_id s) prev))) /\
    length r = length (s_rec s) /\
    firstn (length r - 8) r = firstn (length r - 8) (s_rec s) /\
    stored_index r = idx /\
    nth_error (offsets_from 0 (group_values d (g_id v) l)) (length (group_values d (g_id v) prev))
      = Some (idx, s_vbuf s) /\
    read_vlsd_cg (with_counts d e) (g_id v) [idx] fuel blocks = Some (Ok [(idx, s_vbuf s)]).
Proof. exact vlsd_index. Qed.
Print Assumptions C16_index_of_value.

(** Signal data of the channel (SD blocks). *)
Theorem C16_index_of_sd_value : forall d h e out prev s post,
  let l := prev ++ s :: post in
  dg_ok d -> Forall (sample_ok d) l -> emitted d h l out e ->
  s_has s = true -> vlsd_group d s = None -> h (s_id s) = true -> (8 <= length (s_rec s))%nat ->
  N.of_nat (length (e_sd e (s_id s))) < 2 ^ 64 ->
  exists r idx,
    (exists before after, records_of d h l = before ++ Rec (s_id s) r :: after /\
       occ (s_id s) before = N.of_nat (length (filter (fun x => s_id x =? s_id s) prev))) /\
    length r = length (s_rec s) /\
    firstn (length r - 8) r = firstn (length r - 8) (s_rec s) /\
    stored_index r = idx /\
    nth_error (offsets_from 0 (sd_values d h (s_id s) l)) (length (sd_values d h (s_id s) prev))
      = Some (idx, s_vbuf s) /\
    e_sd e (s_id s) = concat (map chunk (sd_values d h (s_id s) l)) /\
    sd_lookup (e_sd e (s_id s)) idx = Ok (s_vbuf s).
Proof. exact sd_index. Qed.
Print Assumptions C16_index_of_sd_value.

Example C16_written_witness :
  let l := [ex_s 1 [65; 66]; ex_t 2; ex_s 3 [67]] in
  Forall (sample_ok ex_d) l /\ vlsd_group ex_d (ex_s 3 [67]) = Some (mkGroup 2 true 0 0 0) /\
  stored_index (r_data (last (records_of ex_d (fun _ => false) l) (Rec 0 []))) = 6.
Proof.
  split; [|vm_compute; auto].
  repeat constructor; try (vm_compute; reflexivity);
    ((eexists; split; [left; reflexivity|solve [vm_compute; auto]]) ||
     (eexists; split; [right; right; left; reflexivity|solve [vm_compute; auto]])).
Qed.

(* ================================================================== *)
(** * C25 and C12: a whole measurement *)

(** Saves and worker turns in any order, StartMeasurement(T), saves and worker turns in any order,
    StopMeasurement. With enough worker turns the stop completes with an empty queue; the data holds
    the written samples, in order; what was saved and is not written is older than the pre-trigger
    window. Missing from C25: samples later than the stop time, see the refutation. *)
Theorem C25_stored_partial : forall d h st p pre trim ops1 T ops2, dg_ok d ->
  Forall plain ops1 -> Forall plain ops2 ->
  Forall (sample_ok d) (wsaves ops1 ++ wsaves ops2) -> sorted_ts (wsaves ops1 ++ wsaves ops2) ->
  (forall s, In s (wsaves ops1 ++ wsaves ops2) -> s_ts s < 2 ^ 64) ->
  (forall s, In s (wsaves ops1) -> s_ts s <= T) ->
  0 < T -> T < 2 ^ 64 -> pre <= T ->
  exists n0, forall n, (n0 <= n)%nat ->
  let w := wrun d h st p (measurement ops1 T ops2 n) (winit pre trim) in
  w_pc w = Finished /\ q_list (u_q (w_u w)) = [] /\
  shuffle (u_log (w_u w)) (u_gone (w_u w)) (wsaves ops1 ++ wsaves ops2) /\
  (forall s, In s (u_gone (w_u w)) -> s_ts s + pre < T) /\
  emitted d h (u_log (w_u w)) (u_out (w_u w)) (u_enc (w_u w)).
Proof. exact measurement_stored. Qed.
Print Assumptions C25_stored_partial.

(** Every save is accounted for in any sequence of calls: written, dropped by trimming, still
    there, or saved after the queues are gone. *)
Theorem C25_accounted : forall d h st p pre trim ops,
  let w := wrun d h st p ops (winit pre trim) in
  exists acc left, shuffle (u_log (w_u w)) (u_gone (w_u w)) left /\
    acc = left ++ held (u_phase (w_u w)) ++ q_list (u_q (w_u w)) /\ wsaves ops = acc ++ w_late w.
Proof.
  intros. destruct (wrun_ledger ops d h st p (winit pre trim) [] (ledger0 pre trim)) as (acc & (left & S & E) & A & _).
  exists acc, left. auto.
Qed.
Print Assumptions C25_accounted.

(** The stop time given to StopMeasurement has no effect: the sample of time 1000 is stored although
    the measurement is stopped at time 500. *)
Theorem C25_stop_time_refuted : exists ops T_stop s,
  let w := wrun ex_d (fun _ => false) sample_size true (ops ++ [OJoin T_stop]) (winit 0 true) in
  w_pc w = Finished /\ w_alive w = false /\ c_stop (w_cfg w) = T_stop /\
  In s (u_log (w_u w)) /\ T_stop < s_ts s.
Proof.
  exists (measurement [] 10 [OSave (ex_t 100); OTick; OSave (ex_t 250); OTick; OSave (mkS 1000 3 [1; 2] false [])] 6),
    500, (mkS 1000 3 [1; 2] false []).
  vm_compute. repeat split; auto.
Qed.
Print Assumptions C25_stop_time_refuted.

(** A sample saved by another thread while StopMeasurement waits can be lost although its time is
    before the stop time: it is queued after the last drain and destroyed with the queue. *)
Theorem C25_race_refuted : exists ops T_stop s,
  let w := wrun ex_d (fun _ => false) sample_size true (ops ++ [OSave s; OJoin T_stop]) (winit 0 true) in
  w_alive w = false /\ w_late w = [] /\ In s (u_gone (w_u w)) /\ s_ts s <= T_stop /\ 10 <= s_ts s.
Proof.
  exists (measurement [] 10 [OSave (ex_t 100); OTick] 4), 500, (ex_t 110).
  vm_compute. repeat split; auto; discriminate.
Qed.
Print Assumptions C25_race_refuted.

(** C12 end to end: measure, stop, then read the data of the file with the counters it holds. The
    observers get exactly the records of the written samples. *)
Theorem C12_measure_and_read : forall d h st p pre trim ops1 T ops2, dg_ok d ->
  Forall plain ops1 -> Forall plain ops2 ->
  Forall (sample_ok d) (wsaves ops1 ++ wsaves ops2) -> sorted_ts (wsaves ops1 ++ wsaves ops2) ->
  (forall s, In s (wsaves ops1 ++ wsaves ops2) -> T <= s_ts s + pre /\ s_ts s < 2 ^ 64) ->
  (forall s, In s (wsaves ops1) -> s_ts s <= T) ->
  0 < T -> T < 2 ^ 64 -> pre <= T ->
  exists n0, forall n, (n0 <= n)%nat ->
  let w := wrun d h st p (measurement ops1 T ops2 n) (winit pre trim) in
  forall blocks fuel, Forall (fun b => b <> []) blocks -> concat blocks = u_out (w_u w) ->
  (length (u_out (w_u w)) < fuel)%nat ->
  exists evs, read_data (with_counts d (u_enc (w_u w))) (fun _ => true) (fun _ => true) fuel blocks
    = Some (Ok evs) /\
    map ev_rec evs = records_of d h (wsaves ops1 ++ wsaves ops2) /\
    forall i ev, nth_error evs i = Some ev ->
      e_sample ev = occ (e_id ev) (firstn i (records_of d h (wsaves ops1 ++ wsaves ops2))).
Proof.
  intros d h st p pre trim ops1 T ops2 H P1 P2 F S B BT TP HT HP.
  destruct (measurement_stored d h st p pre trim ops1 T ops2 H P1 P2 F S) as (n0 & N0); auto.
  { intros s Hs. apply (B s Hs). }
  exists n0. intros n L w blocks fuel NB CB LF.
  destruct (N0 n L) as (_ & _ & SH & G & EM). fold w in SH, G, EM.
  assert (GN : u_gone (w_u w) = []).
  { destruct (u_gone (w_u w)) as [|x r] eqn:E; auto. exfalso.
    assert (X : s_ts x + pre < T) by (apply G; left; auto).
    assert (Hx : In x (wsaves ops1 ++ wsaves ops2)).
    { clear - SH. remember (x :: r) as b eqn:Eb.
      assert (K : forall a b c : list sample, shuffle a b c -> forall y, In y b -> In y c).
      { intros a b0 c Hs. induction Hs; intros y Hy; [destruct Hy|right; auto|].
        destruct Hy as [->|Hy]; [left; auto|right; auto]. }
      apply (K _ _ _ SH). rewrite Eb. left; auto. }
    destruct (B x Hx). lia. }
  rewrite GN in SH. apply shuffle_nil_r in SH. rewrite <- SH.
  apply (emitted_read d h (u_log (w_u w)) (u_out (w_u w))); auto.
Qed.
Print Assumptions C12_measure_and_read.

Example C25_witness :
  let ops1 := [OSave (ex_t 2); OTick; OSave (ex_t 8); OTick] in
  let ops2 := [OSave (ex_s 12 [65]); OTick; OSave (ex_t 13); OTick] in
  Forall plain ops1 /\ Forall plain ops2 /\ sorted_ts (wsaves ops1 ++ wsaves ops2) /\
  let w := wrun ex_d (fun _ => false) sample_size true (measurement ops1 10 ops2 7) (winit 3 true) in
  w_pc w = Finished /\ map s_ts (u_log (w_u w)) = [2; 8; 12; 13] /\ u_gone (w_u w) = [].
Proof.
  cbv zeta. split; [repeat constructor|]. split; [repeat constructor|]. split; [cbn; lia|].
  vm_compute. auto.
Qed.
