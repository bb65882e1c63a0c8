(** Property theorems about the observers that put samples together (C60) and about the sorting task
    (C61). *)
From Verif Require Import Base ChannelModel StreamModel StreamSpec StreamProofs IdProofs QueueModel QueueSpec QueueProofs EncProofs QueueProofs2 VlsdProofs QueueExtra ObsModel SortModel SortSpec SortProofs SortProofs2 SortProofs3.
Local Open Scope N_scope.

(* ================================================================== *)
(** * C60: samples put together by an observer *)

(** C60. A CAN group without variable length values: whatever else is in the file, each record is given
    to the callback once, in order, with its number; without a callback GetCanMessage(i) is made from
    record [i]. *)
Theorem C60_can_fixed : forall answer g rs evs,
  (forall id, In id (cg_ids g) <-> id = cg_main g) -> cg_store g <> SVlsd ->
  N.of_nat (length rs) <= cg_nof g -> cg_nof g < 2 ^ 63 ->
  filter (fun e => e_id e =? cg_main g) evs = map (fun q => Ev (fst q) (cg_main g) (snd q)) (numbered_from 0 rs) ->
  (exists s, can_run (Some answer) g evs can0 = (true, s) /\
     cn_calls s = map (fun q => (fst q, (snd q, []))) (numbered_from 0 rs)) /\
  (exists s, can_run None g evs can0 = (true, s) /\
     forall i, get_can_message s i = option_map (fun r => (r, [])) (nth_error rs (N.to_nat i))).
Proof. exact can_fixed. Qed.
Print Assumptions C60_can_fixed.

(** C60. With variable length values in a group of their own, the record and the value of each sample
    next to each other, in either order: each sample is given to the callback once, in order, with its
    own value. Partial: for other orders see C60_order_refuted. *)
Theorem C60_can_callback_partial : forall answer g v ps evs,
  (forall id, In id (cg_ids g) <-> id = cg_main g \/ id = v) -> v <> cg_main g -> cg_store g = SVlsd ->
  N.of_nat (length ps) <= cg_nof g -> cg_nof g < 2 ^ 63 ->
  filter (fun e => (e_id e =? cg_main g) || (e_id e =? v)) evs
    = flat_map (pair_events (cg_main g) v) (numbered_from 0 ps) ->
  exists s, can_run (Some answer) g evs can0 = (true, s) /\
    cn_calls s = map (fun q => (fst q, (v_rec (snd q), v_val (snd q)))) (numbered_from 0 ps).
Proof. exact can_callback. Qed.
Print Assumptions C60_can_callback_partial.

(** The same without a callback. *)
Theorem C60_can_buffer_partial : forall g v ps evs,
  (forall id, In id (cg_ids g) <-> id = cg_main g \/ id = v) -> v <> cg_main g -> cg_store g = SVlsd ->
  N.of_nat (length ps) <= cg_nof g -> cg_nof g < 2 ^ 63 ->
  filter (fun e => (e_id e =? cg_main g) || (e_id e =? v)) evs
    = flat_map (pair_events (cg_main g) v) (numbered_from 0 ps) ->
  exists s, can_run None g evs can0 = (true, s) /\
    forall i, get_can_message s i = option_map (fun p => (v_rec p, v_val p)) (nth_error ps (N.to_nat i)).
Proof. exact can_buffer. Qed.
Print Assumptions C60_can_buffer_partial.

(** C60. The sample record observer: each record is passed on once, in order, with the start time plus
    its own time. *)
Theorem C60_record_fixed : forall g rs evs,
  (forall id, In id (rg_ids g) <-> id = rg_main g) -> rg_store g <> SVlsd ->
  N.of_nat (length rs) < 2 ^ 63 -> Forall (fun r => r <> []) rs ->
  filter (fun e => e_id e =? rg_main g) evs = map (fun q => Ev (fst q) (rg_main g) (snd q)) (numbered_from 0 rs) ->
  ro_out (rec_fold g evs rec0)
  = map (fun q => mkS (to_u64 (Z.of_N (rg_base g) + rg_rel g (fst q) (snd q))) (rg_main g) (snd q) false []) (numbered_from 0 rs).
Proof.
  intros g rs evs I1 St Hl Hr F. rewrite rec_filter, (one_filter _ _ evs I1), F.
  rewrite (rec_fixed g I1 St rs 0 rec0) by (exact Hr || reflexivity || lia). reflexivity.
Qed.
Print Assumptions C60_record_fixed.

(** C60. The same with variable length values next to their records. *)
Theorem C60_record_pairs_partial : forall g v ps evs,
  (forall id, In id (rg_ids g) <-> id = rg_main g \/ id = v) -> v <> rg_main g -> rg_store g = SVlsd ->
  N.of_nat (length ps) < 2 ^ 63 -> Forall (fun p => v_rec p <> []) ps ->
  filter (fun e => (e_id e =? rg_main g) || (e_id e =? v)) evs
    = flat_map (pair_events (rg_main g) v) (numbered_from 0 ps) ->
  ro_out (rec_fold g evs rec0)
  = map (fun q => mkS (to_u64 (Z.of_N (rg_base g) + rg_rel g (fst q) (v_rec (snd q)))) (rg_main g)
                    (v_rec (snd q)) true (v_val (snd q))) (numbered_from 0 ps).
Proof.
  intros g v ps evs I1 I2 St Hl Hr F. rewrite rec_filter, (two_filter _ _ v evs I1), F.
  rewrite (rec_pairs g v I1 I2 St ps 0 rec0) by (exact Hr || reflexivity || lia). reflexivity.
Qed.
Print Assumptions C60_record_pairs_partial.

Definition ex_can : cangrp := mkCg 1 [1; 2] 2 SVlsd.
Definition ex_rec : recgrp := mkRg 1 [1; 2] SVlsd 1000 (fun _ r => Z.of_N (nth 0 r 0)).
(** Two samples with their values, among records of another group. *)
Definition ex_evs : list event :=
  [Ev 0 2 [10]; Ev 0 7 [99]; Ev 0 1 [20]; Ev 1 1 [21]; Ev 1 7 [98]; Ev 1 2 [11]].
(** The same samples, the values in front. *)
Definition ex_apart : list event := [Ev 0 2 [10]; Ev 1 2 [11]; Ev 0 1 [20]; Ev 1 1 [21]].

Example C60_witness :
  filter (fun e => (e_id e =? 1) || (e_id e =? 2)) ex_evs
    = flat_map (pair_events 1 2) (numbered_from 0 [mkV true [20] [10]; mkV false [21] [11]]) /\
  cn_calls (snd (can_run (Some (fun _ => true)) ex_can ex_evs can0)) = [(0, ([20], [10])); (1, ([21], [11]))] /\
  get_can_message (snd (can_run None ex_can ex_evs can0)) 1 = Some ([21], [11]) /\
  ro_out (rec_fold ex_rec ex_evs rec0) = [mkS 1020 1 [20] true [10]; mkS 1021 1 [21] true [11]].
Proof. vm_compute. auto. Qed.

(** C60 fails when the values of two samples precede their records, as in data sorted by group: the
    first value is lost, both messages are delivered as sample 1 with the value of the second, and the
    buffer has no first message. The sample record observer passes on the first record with the
    second value, and not the second record. *)
Theorem C60_order_refuted :
  cn_calls (snd (can_run (Some (fun _ => true)) ex_can ex_apart can0)) = [(1, ([20], [11])); (1, ([21], [11]))] /\
  get_can_message (snd (can_run None ex_can ex_apart can0)) 0 = None /\
  ro_out (rec_fold ex_rec ex_apart rec0) = [mkS 1020 1 [20] true [11]].
Proof. vm_compute. auto. Qed.
Print Assumptions C60_order_refuted.

(** C60: a value beyond the number of records, which a group shared by two channels can have, makes
    OnSample answer false, and reading stops before the remaining records. *)
Theorem C60_overrun_refuted :
  let r := can_run (Some (fun _ => true)) ex_can [Ev 0 2 [10]; Ev 0 1 [20]; Ev 1 2 [11]; Ev 2 2 [12]; Ev 1 1 [21]] can0 in
  fst r = false /\ cn_calls (snd r) = [(0, ([20], [10]))].
Proof. vm_compute. auto. Qed.
Print Assumptions C60_overrun_refuted.

(** C60: the answer of the user's callback is ignored; false does not end the reading,
    unlike the answer of DoOnSample. *)
Theorem C60_stop_refuted : forall g e s answer1 answer2,
  fst (can_on (Some answer1) g e s) = fst (can_on (Some answer2) g e s).
Proof.
  intros g e s a1 a2. unfold can_on. destruct (_ || _); [reflexivity|]. destruct (_ <=? _); [reflexivity|].
  destruct (_ <? _)%Z; reflexivity.
Qed.
Print Assumptions C60_stop_refuted.

(** C60: GetSampleTime of the sample record observer is the start time for every sample. *)
Theorem C60_sample_time_refuted : forall g evs, get_sample_time g (rec_fold g evs rec0) = rg_base g.
Proof. reflexivity. Qed.
Print Assumptions C60_sample_time_refuted.

(* ================================================================== *)
(** * C61: sorting *)

(** C61. A group without variable length values: however the data blocks are cut, whatever other groups
    are in the data group, and however saving and writing interleave, the new file holds exactly the
    records of the group, in order, numbered from 0, with the time put in again. *)
Theorem C61_fixed : forall base idsize sgs skip recs blocks fuel x,
  let d := mkDg idsize (map sg sgs) in
  dg_ok d -> Forall (rec_ok d) recs -> Forall (fun b => b <> []) blocks ->
  concat blocks = stream d recs -> (length (stream d recs) < fuel)%nat ->
  In x sgs -> g_vlsd (sg x) = false -> (skip = true -> 0 < g_nof (sg x)) ->
  sg_vlsds x = [] -> sg_store x <> SVlsd -> (0 < rec_size (sg x))%nat -> stamps x ->
  occ (g_id (sg x)) recs = g_nof (sg x) -> g_nof (sg x) < 2 ^ 63 ->
  exists out ss, sort_dg fuel base skip idsize sgs blocks = Some (Ok out) /\ In (x, ss) out /\
    forall d' data sd, new_file x ss d' data sd ->
      reads_as d' data (sorted_fixed base x (payloads (g_id (sg x)) recs)).
Proof. exact sorted_fixed_group. Qed.
Print Assumptions C61_fixed.

(** C61. A group with one variable length channel in a group of its own, record and value of each sample
    next to each other: the new file holds the records in order, each with the offset of its value in
    the last 8 bytes, and that offset finds the value. Partial: for other orders, for two such channels
    and for an offset elsewhere in the record see the theorems below. *)
Theorem C61_vlsd_partial : forall base idsize sgs skip recs blocks fuel x v ps,
  let d := mkDg idsize (map sg sgs) in
  dg_ok d -> Forall (rec_ok d) recs -> Forall (fun b => b <> []) blocks ->
  concat blocks = stream d recs -> (length (stream d recs) < fuel)%nat ->
  In x sgs -> g_vlsd (sg x) = false -> 0 < g_nof (sg x) ->
  (forall id, In id (sg_vlsds x) <-> id = v) -> v <> g_id (sg x) -> vlsd_id d v = true ->
  sg_store x = SVlsd -> sg_var x = true ->
  (8 <= rec_size (sg x))%nat -> stamps x ->
  occ (g_id (sg x)) recs = g_nof (sg x) -> occ v recs <= nof_of d v -> g_nof (sg x) < 2 ^ 63 ->
  filter (fun r => (r_id r =? g_id (sg x)) || (r_id r =? v)) recs = flat_map (pair_recs (g_id (sg x)) v) ps ->
  chunks_len (map v_val ps) < 2 ^ 64 ->
  exists out ss, sort_dg fuel base skip idsize sgs blocks = Some (Ok out) /\ In (x, ss) out /\
    forall d' data sd, new_file x ss d' data sd ->
      reads_as d' data (sorted_vlsd base x 0 0 ps) /\
      forall i p, nth_error ps i = Some p ->
        exists r, nth_error (sorted_vlsd base x 0 0 ps) i = Some (Ev (N.of_nat i) 0 r) /\
          firstn (length r - 8) r = firstn (length r - 8) (sg_stamp x (time_of base x (N.of_nat i) (v_rec p)) (v_rec p)) /\
          sd_lookup sd (last8 r) = Ok (v_val p).
Proof. exact sorted_vlsd_group. Qed.
Print Assumptions C61_vlsd_partial.

(** C61. In a file of the library's own writer the records and values are next to each other as required:
    for any samples saved, if those of group [m] all have a value. *)
Theorem C61_own_files : forall d h m l, dg_ok d -> Forall (sample_ok d) l -> m + 1 < 2 ^ 64 ->
  (forall g, In g (d_groups d) -> g_id g < 2 ^ 64) ->
  (exists g, In g (d_groups d) /\ g_id g = m /\ g_vlsd g = false) ->
  (exists g, In g (d_groups d) /\ g_id g = m + 1 /\ g_vlsd g = true) ->
  (forall s, In s l -> s_id s = m -> s_has s = true) ->
  exists ps, filter (fun r => (r_id r =? m) || (r_id r =? m + 1)) (records_of d h l)
             = flat_map (pair_recs m (m + 1)) ps /\
    map v_val ps = map s_vbuf (filter (fun s => s_id s =? m) l).
Proof. intros d h m l. exact (own_pairs d h m l []). Qed.
Print Assumptions C61_own_files.

(** Group 1 of 9 byte records with its values in group 2, and group 3 of 2 byte records. *)
Definition ex_zero : list N := [0; 0; 0; 0; 0; 0; 0; 0].
Definition ex_x1 : sgroup := mkSg (mkGroup 1 false 9 0 2) [2] SVlsd (fun _ r => Z.of_N (nth 0 r 0)) (fun _ r => r) true.
Definition ex_x2 : sgroup := mkSg (mkGroup 2 true 0 0 2) [] SFixed (fun _ _ => 0%Z) (fun _ r => r) false.
Definition ex_x3 : sgroup := mkSg (mkGroup 3 false 2 0 2) [] SFixed (fun _ r => Z.of_N (nth 0 r 0)) (fun _ r => r) false.
Definition ex_sgs : list sgroup := [ex_x1; ex_x2; ex_x3].
Definition ex_d : dgroup := mkDg 1 (map sg ex_sgs).
Definition ex_recs : list srec :=
  [Rec 2 [10; 11]; Rec 3 [5; 6]; Rec 1 (20 :: ex_zero); Rec 2 [12]; Rec 1 (21 :: ex_zero); Rec 3 [7; 8]].
Definition ex_sorted (recs : list srec) : list (sgroup * list sample) :=
  match sort_dg 100 1000 false 1 ex_sgs [stream ex_d recs] with Some (Ok l) => l | _ => [] end.

Definition ex_sch : list act :=
  [Save (mkS 1020 0 (20 :: ex_zero) true [10; 11]); Work; Save (mkS 1021 0 (21 :: ex_zero) true [12])].

Example C61_witness :
  dg_ok ex_d /\ Forall (rec_ok ex_d) ex_recs /\ stamps ex_x1 /\
  filter (fun r => (r_id r =? 1) || (r_id r =? 2)) ex_recs
    = flat_map (pair_recs 1 2) [mkV true (20 :: ex_zero) [10; 11]; mkV true (21 :: ex_zero) [12]] /\
  ex_sorted ex_recs =
    [(ex_x1, [mkS 1020 0 (20 :: ex_zero) true [10; 11]; mkS 1021 0 (21 :: ex_zero) true [12]]);
     (ex_x3, [mkS 1005 0 [5; 6] false []; mkS 1007 0 [7; 8] false []])] /\
  sorted_vlsd 1000 ex_x1 0 0 [mkV true (20 :: ex_zero) [10; 11]; mkV true (21 :: ex_zero) [12]]
    = [Ev 0 0 [20; 0; 0; 0; 0; 0; 0; 0; 0]; Ev 1 0 [21; 6; 0; 0; 0; 0; 0; 0; 0]] /\
  (exists d' data, new_file ex_x1 [mkS 1020 0 (20 :: ex_zero) true [10; 11]; mkS 1021 0 (21 :: ex_zero) true [12]]
     d' data [2; 0; 0; 0; 10; 11; 1; 0; 0; 0; 12]).
Proof.
  split.
  { constructor; cbn [ex_d d_groups d_idsize ex_sgs map sg ex_x1 ex_x2 ex_x3 g_id].
    - discriminate.
    - repeat constructor; cbn [In]; intuition discriminate.
    - right. left. reflexivity.
    - intros g [<-|[<-|[<-|[]]]] _; reflexivity.
    - discriminate.
    - discriminate. }
  split.
  { unfold ex_recs. repeat apply Forall_cons; [..|apply Forall_nil]; unfold rec_ok; cbn [r_id r_data].
    - exists (sg ex_x2). split; [cbn; auto|split; reflexivity].
    - exists (sg ex_x3). split; [cbn; auto|split; reflexivity].
    - exists (sg ex_x1). split; [cbn; auto|split; reflexivity].
    - exists (sg ex_x2). split; [cbn; auto|split; reflexivity].
    - exists (sg ex_x1). split; [cbn; auto|split; reflexivity].
    - exists (sg ex_x3). split; [cbn; auto|split; reflexivity]. }
  split; [intros t r L; exact L|].
  split; [reflexivity|]. split; [vm_compute; reflexivity|]. split; [vm_compute; reflexivity|].
  assert (E: e_sd (u_enc (run (dest_dg ex_x1) (fun _ => sg_var ex_x1) sample_size (mkC 0 0 0 false) (ex_sch ++ repeat Work 5) ust0)) 0
             = [2; 0; 0; 0; 10; 11; 1; 0; 0; 0; 12]) by (vm_compute; reflexivity).
  assert (L: (S (length (q_list (u_q (run (dest_dg ex_x1) (fun _ => sg_var ex_x1) sample_size (mkC 0 0 0 false) ex_sch ust0)))) <= 5)%nat)
    by (apply Nat.leb_le; vm_compute; reflexivity).
  rewrite <- E. eexists. eexists. exact (new_plain ex_x1 _ sample_size 0 ex_sch 5 eq_refl L).
Qed.

(** C61 fails when the values of two samples precede their records: the new file has one sample of two,
    with the value of the other. *)
Theorem C61_order_refuted :
  let recs := [Rec 2 [10; 11]; Rec 2 [12]; Rec 1 (20 :: ex_zero); Rec 1 (21 :: ex_zero)] in
  nth_error (ex_sorted recs) 0 = Some (ex_x1, [mkS 1020 0 (20 :: ex_zero) true [12]]).
Proof. vm_compute. reflexivity. Qed.
Print Assumptions C61_order_refuted.

(** C61: a group whose records have no bytes, such as a group of event markers, loses all its samples. *)
Theorem C61_empty_refuted :
  let x := mkSg (mkGroup 1 false 0 0 2) [] SFixed (fun _ _ => 0%Z) (fun _ r => r) false in
  let y := mkSg (mkGroup 2 false 1 0 1) [] SFixed (fun _ _ => 0%Z) (fun _ r => r) false in
  sort_dg 100 1000 false 1 [x; y] [stream (mkDg 1 [sg x; sg y]) [Rec 1 []; Rec 2 [7]; Rec 1 []]]
  = Some (Ok [(x, []); (y, [mkS 1000 0 [7] false []])]).
Proof. vm_compute. reflexivity. Qed.
Print Assumptions C61_empty_refuted.

(** C61: variable length values in signal data, the way the library's own writer stores them when there
    is no group for them, are not copied: the group is read as fixed length storage, the records keep
    their old offsets, and the new signal data is empty. *)
Theorem C61_signal_data_refuted :
  let x := mkSg (mkGroup 1 false 9 0 2) [] SFixed (fun _ _ => 0%Z) (fun _ r => r) true in
  let recs := [Rec 1 (20 :: ex_zero); Rec 1 [21; 6; 0; 0; 0; 0; 0; 0; 0]] in
  exists ss, sort_dg 100 1000 false 0 [x] [stream (mkDg 0 [sg x]) recs] = Some (Ok [(x, ss)]) /\
  let st := run (dest_dg x) (fun _ => sg_var x) sample_size (mkC 0 0 0 false) (map Save ss ++ repeat Work 5) ust0 in
  u_out st = (20 :: ex_zero) ++ [21; 6; 0; 0; 0; 0; 0; 0; 0] /\ e_sd (u_enc st) 0 = [] /\
  sd_lookup (e_sd (u_enc st) 0) 6 <> Ok [12].
Proof.
  cbv zeta. eexists. split; [vm_compute; reflexivity|]. split; [vm_compute; reflexivity|].
  split; [vm_compute; reflexivity|]. vm_compute. discriminate.
Qed.
Print Assumptions C61_signal_data_refuted.

(** C61: if the offset is not in the last 8 bytes of the record, the last 8 bytes are overwritten all the
    same: here the byte 77 after the offset is lost, and the offset is wrong. *)
Theorem C61_position_refuted :
  let x := mkSg (mkGroup 1 false 9 0 1) [2] SVlsd (fun _ _ => 0%Z) (fun _ r => r) true in
  let y := mkSg (mkGroup 2 true 0 0 1) [] SFixed (fun _ _ => 0%Z) (fun _ r => r) false in
  exists ss, sort_dg 100 1000 false 1 [x; y]
      [stream (mkDg 1 [sg x; sg y]) [Rec 2 [10]; Rec 1 [0; 0; 0; 0; 0; 0; 0; 0; 77]]] = Some (Ok [(x, ss)]) /\
  u_out (run (dest_dg x) (fun _ => sg_var x) sample_size (mkC 0 0 0 false) (map Save ss ++ repeat Work 5) ust0)
  = [0; 0; 0; 0; 0; 0; 0; 0; 0].
Proof. cbv zeta. eexists. split; vm_compute; reflexivity. Qed.
Print Assumptions C61_position_refuted.

(** C61: with two variable length channels the sample is passed on with the first value, and the second is
    kept for nothing. *)
Theorem C61_two_values_refuted :
  let x := mkSg (mkGroup 1 false 16 0 1) [2; 3] SVlsd (fun _ _ => 0%Z) (fun _ r => r) true in
  let y i := mkSg (mkGroup i true 0 0 1) [] SFixed (fun _ _ => 0%Z) (fun _ r => r) false in
  sort_dg 100 1000 false 1 [x; y 2; y 3]
    [stream (mkDg 1 [sg x; sg (y 2); sg (y 3)]) [Rec 1 (ex_zero ++ ex_zero); Rec 2 [10]; Rec 3 [11]]]
  = Some (Ok [(x, [mkS 1000 0 (ex_zero ++ ex_zero) true [10]])]).
Proof. vm_compute. reflexivity. Qed.
Print Assumptions C61_two_values_refuted.
