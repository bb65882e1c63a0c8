(** Property theorems about the observers of a data group (C53) and the sample lists of a channel
    observer (C52). *)
From Verif Require Import Base StreamModel StreamSpec IdProofs ObsModel ObsSpec ObsProofs.
Local Open Scope N_scope.

(* ================================================================== *)
(** * C53: notifications *)

(** Any history of construction, attaching and detaching: how often the observer is in the list. *)
Theorem C53_attach_history : forall p ops, p <> 0 ->
  length (filter (fun q => q =? p) (do_list (fold_left obs_apply ops dgo_new))) = attachments p ops.
Proof. intros p ops H. exact (proj1 (proj2 (att_ok p ops H))). Qed.
Print Assumptions C53_attach_history.

(** C53. If observers subscribe to at least two of the groups, or all attached observers subscribe to
    the group of the record, then the record goes to exactly the observers that subscribed to its id,
    in the order of the attachments, until one answers false; that is also the answer. Partial: if
    only one group has subscribers, the record goes to the others as well (next theorem). *)
Theorem C53_delivery_partial : forall needs groups g answer e w,
  In (e_id e) groups ->
  (exists a b, In a groups /\ In b groups /\ a <> b /\
     subscribers needs (do_list g) a <> [] /\ subscribers needs (do_list g) b <> []) \/
  ((exists p, In p (do_list g) /\ p <> 0) /\
   (forall p, In p (do_list g) -> p <> 0 -> needs p (e_id e) = true)) ->
  let subs := subscribers needs (do_list g) (e_id e) in
  notify_obs (noted answer) (init_fast needs groups g) e w
  = (forallb (fun q => answer q e) subs, w ++ map (fun q => (q, e)) (asked (fun q => answer q e) subs)).
Proof.
  intros needs groups g answer e w He Hc subs. subst subs.
  rewrite (notify_wants _ _ needs groups g e w He Hc). apply ask_noted.
Qed.
Print Assumptions C53_delivery_partial.

(** The same for observers of any kind, with any state of their own. *)
Theorem C53_delivery_stateful_partial : forall W (call : ptr -> event -> W -> bool * W) needs groups g e w,
  In (e_id e) groups ->
  (exists a b, In a groups /\ In b groups /\ a <> b /\
     subscribers needs (do_list g) a <> [] /\ subscribers needs (do_list g) b <> []) \/
  ((exists p, In p (do_list g) /\ p <> 0) /\
   (forall p, In p (do_list g) -> p <> 0 -> needs p (e_id e) = true)) ->
  notify_obs call (init_fast needs groups g) e w
  = ask call (subscribers needs (do_list g) (e_id e)) e w.
Proof. exact notify_wants. Qed.
Print Assumptions C53_delivery_stateful_partial.

(** If only one group has subscribers, every record that is notified goes to every attached
    observer. *)
Theorem C53_single_group : forall needs groups g answer e w a,
  In a groups -> subscribers needs (do_list g) a <> [] ->
  (forall b, In b groups -> subscribers needs (do_list g) b <> [] -> b = a) ->
  let all := filter (fun p => negb (p =? 0)) (do_list g) in
  notify_obs (noted answer) (init_fast needs groups g) e w
  = (forallb (fun q => answer q e) all, w ++ map (fun q => (q, e)) (asked (fun q => answer q e) all)).
Proof.
  intros needs groups g answer e w a Ha Wa U all. subst all.
  rewrite (notify_one _ _ needs groups g e w a Ha Wa U). apply ask_noted.
Qed.
Print Assumptions C53_single_group.

(** Nobody subscribes to any group: no observer is called and the reading is to stop. *)
Theorem C53_nobody : forall needs groups g answer e w,
  (forall a, In a groups -> subscribers needs (do_list g) a = []) ->
  notify_obs (noted answer) (init_fast needs groups g) e w = (false, w).
Proof. intros. apply notify_nobody. assumption. Qed.
Print Assumptions C53_nobody.

(** C53, reading a whole MDF4 data group. If every attached observer subscribes to some group of the
    data group, then each record of the stream that is among the first NofSamples of its group goes
    to exactly the observers that subscribed to its group, in stream order, numbered within its
    group; the reading ends at the first record for which a subscriber answers false. *)
Theorem C53_file : forall d recs blocks fuel ids g0 answer,
  let needs := needs_of ids in
  let groups := map g_id (d_groups d) in
  let g := init_fast needs groups g0 in
  let subs := subscribers needs (do_list g0) in
  dg_ok d -> Forall (rec_ok d) recs -> Forall (fun b => b <> []) blocks ->
  concat blocks = stream d recs -> (length (stream d recs) < fuel)%nat ->
  (forall q, In q (do_list g0) -> q <> 0 -> exists a, In a groups /\ needs q a = true) ->
  let evs := upto (fun e => forallb (fun q => answer q e) (subs (e_id e)))
               (expected d (fun id => existsb (fun q => negb (q =? 0) && needs q id) (do_list g0)) [] recs) in
  read_data d (subscribing needs g0) (fun e => fst (notify_obs (noted answer) g e [])) fuel blocks = Some (Ok evs) /\
  all_calls answer g evs
  = flat_map (fun e => map (fun q => (q, e)) (asked (fun q => answer q e) (subs (e_id e)))) evs.
Proof. exact file_delivery. Qed.
Print Assumptions C53_file.

(** An observer without any subscription (such as a CAN observer that did not recognise its group)
    gets the records of a group all the same when that is the only group with subscribers, and with
    MDF3, where every record is notified, the records of the other groups, too. *)
Theorem C53_unsubscribed_refuted : exists ids g groups e1 e2 p,
  e_id e1 <> e_id e2 /\ In (e_id e1) groups /\ In (e_id e2) groups /\
  In p (do_list g) /\ ids p = [] /\
  calls_of p (all_calls yes (init_fast (needs_of ids) groups g) [e1; e2]) = [e1; e2].
Proof.
  exists (fun p => if p =? 7 then [1] else []), (mkDgo [7; 9] [] (fun _ => true)), [1; 2],
    (Ev 0 1 [5]), (Ev 0 2 [6]), 9.
  vm_compute. repeat split; auto; discriminate.
Qed.
Print Assumptions C53_unsubscribed_refuted.

(** A channel observer is attached twice, by the constructors of its base class and its own, and is
    called twice for each record. *)
Theorem C53_once_refuted : exists g ids e,
  g = fold_left obs_apply [ONew 7; OAttach 7] dgo_new /\ ids 7 = [1] /\
  calls_of 7 (all_calls yes (init_fast (needs_of ids) [1; 2] g) [e]) = [e; e].
Proof.
  eexists _, (fun _ => [1]), (Ev 0 1 [5]). split; [reflexivity|]. vm_compute. auto.
Qed.
Print Assumptions C53_once_refuted.

Example C53_witness :
  let ids := fun p => if p =? 7 then [1] else if p =? 8 then [2] else [1; 2] in
  let g := fold_left obs_apply [ONew 7; ONew 8; ONew 9; ONew 3; ODetach 3; OAttach 3] dgo_new in
  let h := init_fast (needs_of ids) [1; 2; 4] g in
  do_list g = [7; 8; 9] /\
  all_calls yes h [Ev 0 1 [5]; Ev 0 2 []; Ev 0 4 []] = [(7, Ev 0 1 [5]); (9, Ev 0 1 [5]); (8, Ev 0 2 []); (9, Ev 0 2 [])] /\
  notify_obs (noted (fun p _ => negb (p =? 7))) h (Ev 0 1 [5]) [] = (false, [(7, Ev 0 1 [5])]).
Proof. vm_compute. auto. Qed.

(* ================================================================== *)
(** * C52: the samples of a channel observer *)

(** C52. After any sequence of notifications, repeated, out of order or of other groups, the observer
    shows for each sample and array index what the latest record of that sample says, or invalid if
    there was none. For channels without a separate variable length group. *)
Theorem C52_samples : forall T (t0 : T) (h : chan T) rv nof evs sample i,
  i < h_asize h -> nof * h_asize h < 2 ^ 64 -> sample < nof ->
  Forall (fits h) evs -> (h_kind h <> KVariable \/ h_vlsd h = 0) ->
  get_sample t0 h (run_obs h rv evs (cobs_new t0 h nof)) sample i = shown t0 h rv evs sample i.
Proof. intros T t0 h rv nof evs sample i Hi Hn Hs. exact (shown_ok T t0 h rv nof sample i Hi Hn Hs evs). Qed.
Print Assumptions C52_samples.

(** The offsets of a variable length channel. *)
Theorem C52_offsets : forall T (t0 : T) (h : chan T) rv nof evs sample i,
  i < h_asize h -> nof * h_asize h < 2 ^ 64 -> sample < nof ->
  Forall (fits h) evs -> h_kind h = KVariable ->
  get_offset h (run_obs h rv evs (cobs_new t0 h nof)) sample i = Some (shown_offset h evs sample i).
Proof. intros T t0 h rv nof evs sample i Hi Hn Hs. exact (shown_offset_ok T t0 h rv nof sample i Hi Hn Hs evs). Qed.
Print Assumptions C52_offsets.

(** A variable length channel whose values are in a group of their own. Partial: the value shown is
    that of the record with the same number in that group, not the one at the offset of the sample. *)
Theorem C52_vlsd_group_partial : forall T (t0 : T) (h : chan T) rv nof evs sample i,
  i < h_asize h -> nof * h_asize h < 2 ^ 64 -> sample < nof ->
  Forall (fits h) evs -> h_kind h = KVariable -> h_vlsd h <> 0 -> h_vlsd h <> h_rid h ->
  get_sample t0 h (run_obs h rv evs (cobs_new t0 h nof)) sample i = shown_vlsd t0 h evs sample i.
Proof. intros T t0 h rv nof evs sample i Hi Hn Hs. exact (shown_vlsd_ok T t0 h rv nof sample i Hi Hn Hs evs). Qed.
Print Assumptions C52_vlsd_group_partial.

(** C52, from the bytes of a data group to the samples: reading any record stream with any attached
    observers that do not stop the reading, the channel observer shows for each sample the value in
    the record of that number in its group, and invalid beyond the last record. *)
Theorem C52_file : forall T (t0 : T) (h : chan T) rv d recs blocks fuel ids g0 p,
  let needs := needs_of ids in
  let g := init_fast needs (map g_id (d_groups d)) g0 in
  let nof := nof_of d (h_rid h) in
  dg_ok d -> Forall (rec_ok d) recs -> Forall (fun b => b <> []) blocks ->
  concat blocks = stream d recs -> (length (stream d recs) < fuel)%nat ->
  p <> 0 -> In p (do_list g0) -> In (h_rid h) (ids p) -> In (h_rid h) (map g_id (d_groups d)) ->
  (h_kind h <> KVariable \/ h_vlsd h = 0) -> nof * h_asize h < 2 ^ 64 ->
  exists evs,
    read_data d (subscribing needs g0) (fun e => fst (notify_obs (noted yes) g e [])) fuel blocks
      = Some (Ok evs) /\
    forall s i, s < nof -> i < h_asize h ->
      get_sample t0 h (run_obs h rv (calls_of p (all_calls yes g evs)) (cobs_new t0 h nof)) s i
      = match nth_error (payloads (h_rid h) recs) (N.to_nat s) with
        | Some data => of_record t0 h rv s data i
        | None => (false, t0)
        end.
Proof. exact file_samples. Qed.
Print Assumptions C52_file.

(** The same for a variable length channel with a group of its own: if the offset of each sample is
    that of the value with the same number, as a file of this library has it, the observer shows the
    value at the offset. *)
Theorem C52_file_vlsd_partial : forall T (t0 : T) (h : chan T) rv d recs blocks fuel ids g0 p,
  let needs := needs_of ids in
  let g := init_fast needs (map g_id (d_groups d)) g0 in
  let nof := nof_of d (h_rid h) in
  dg_ok d -> Forall (rec_ok d) recs -> Forall (fun b => b <> []) blocks ->
  concat blocks = stream d recs -> (length (stream d recs) < fuel)%nat ->
  p <> 0 -> In p (do_list g0) -> In (h_rid h) (ids p) -> In (h_vlsd h) (ids p) ->
  In (h_rid h) (map g_id (d_groups d)) -> In (h_vlsd h) (map g_id (d_groups d)) ->
  h_kind h = KVariable -> h_vlsd h <> 0 -> h_vlsd h <> h_rid h ->
  nof_of d (h_vlsd h) = nof -> nof * h_asize h < 2 ^ 64 ->
  exists evs,
    read_data d (subscribing needs g0) (fun e => fst (notify_obs (noted yes) g e [])) fuel blocks
      = Some (Ok evs) /\
    forall s i data pay, s < nof -> i < h_asize h ->
      nth_error (payloads (h_rid h) recs) (N.to_nat s) = Some data ->
      nth_error (offsets_from 0 (payloads (h_vlsd h) recs)) (N.to_nat s) = Some (snd (h_off h data i), pay) ->
      let st := run_obs h rv (calls_of p (all_calls yes g evs)) (cobs_new t0 h nof) in
      snd (get_sample t0 h st s i) = snd (h_dec h pay i) /\
      get_offset h st s i = Some (snd (h_off h data i)).
Proof. exact file_vlsd. Qed.
Print Assumptions C52_file_vlsd_partial.

(** An example channel: bytes of the record as values; offsets in the first byte. *)
Definition demo (k : ckind) (vlsd asize : N) : chan N :=
  mkChan k 1 vlsd asize (fun r _ => (true, nth 0 r 0)) (fun r i => (true, nth (N.to_nat i) r 0)) (fun s => s).

(** Two samples with the offset of the same value, which the format allows: the observer shows an
    empty value for the second. *)
Theorem C52_shared_value_refuted : exists (h : chan N) nof evs pay,
  h_kind h = KVariable /\ h_vlsd h <> 0 /\ Forall (fits h) evs /\
  evs = [Ev 0 2 [77]; Ev 0 1 [0]; Ev 1 1 [0]] /\ pay = [77] /\
  (* both samples have the offset 0, where the value 77 is *)
  shown_offset h evs 0 0 = 0 /\ shown_offset h evs 1 0 = 0 /\ offsets_from 0 [pay] = [(0, pay)] /\
  get_sample 0 h (run_obs h true evs (cobs_new 0 h nof)) 0 0 = (true, 77) /\
  get_sample 0 h (run_obs h true evs (cobs_new 0 h nof)) 1 0 = (true, 0).
Proof.
  exists (demo KVariable 2 1), 2. eexists. exists [77].
  split; [reflexivity|]. split; [discriminate|]. split; [|split; [reflexivity|]].
  - repeat constructor; intros _; vm_compute; discriminate.
  - vm_compute. repeat split.
Qed.
Print Assumptions C52_shared_value_refuted.

(** An array index beyond the array is not refused: it gives a value of the next sample, as valid. *)
Theorem C52_index_refuted : exists (h : chan N) nof evs,
  h_asize h = 2 /\ Forall (fits h) evs /\
  get_sample 0 h (run_obs h true evs (cobs_new 0 h nof)) 0 2 = (true, 30) /\
  shown 0 h true evs 1 0 = (true, 30).
Proof.
  exists (demo KFixed 0 2), 2, [Ev 0 1 [10; 20]; Ev 1 1 [30; 40]].
  split; [reflexivity|]. split; [repeat constructor; intros _; vm_compute; discriminate|].
  vm_compute. auto.
Qed.
Print Assumptions C52_index_refuted.

(** The samples of an array of byte arrays, asked for as byte arrays: the array index is ignored and
    the sample number used as the position in the list, so sample 1 gives an element of sample 0. *)
Theorem C52_byte_array_refuted : exists (h : chan N) nof evs,
  h_asize h = 2 /\ Forall (fits h) evs /\
  get_byte_array 0 (run_obs h true evs (cobs_new 0 h nof)) 1 = (true, 20) /\
  shown 0 h true evs 1 0 = (true, 30) /\ shown 0 h true evs 0 1 = (true, 20).
Proof.
  exists (demo KFixed 0 2), 2, [Ev 0 1 [10; 20]; Ev 1 1 [30; 40]].
  split; [reflexivity|]. split; [repeat constructor; intros _; vm_compute; discriminate|].
  vm_compute. auto.
Qed.
Print Assumptions C52_byte_array_refuted.

(** Byte arrays of a channel that is not an array. *)
Theorem C52_byte_array_partial : forall T (t0 : T) (h : chan T) rv nof evs sample,
  h_asize h = 1 -> nof < 2 ^ 64 -> sample < nof ->
  Forall (fits h) evs -> (h_kind h <> KVariable \/ h_vlsd h = 0) ->
  get_byte_array t0 (run_obs h rv evs (cobs_new t0 h nof)) sample = shown t0 h rv evs sample 0.
Proof.
  intros T t0 h rv nof evs sample Ha Hn Hs Hf Hk.
  rewrite <- (C52_samples T t0 h rv nof evs sample 0); auto; try (rewrite Ha; lia).
  unfold get_byte_array, get_sample. rewrite Ha.
  rewrite index_plain by lia. replace (sample * 1 + 0) with sample by lia. reflexivity.
Qed.
Print Assumptions C52_byte_array_partial.

Example C52_witness :
  let d := build4 [mkGroup 0 false 2 0 3; mkGroup 0 false 1 0 1] in
  let recs := [Rec 1 [10; 20]; Rec 2 [5]; Rec 1 [30; 40]] in
  let h := demo KFixed 0 2 in
  let ids := fun p => if p =? 7 then [1] else [2] in
  let g0 := fold_left obs_apply [ONew 7; OAttach 7; ONew 8] dgo_new in
  let g := init_fast (needs_of ids) [1; 2] g0 in
  let evs := [Ev 0 1 [10; 20]; Ev 0 2 [5]; Ev 1 1 [30; 40]] in
  dg_ok d /\ Forall (rec_ok d) recs /\
  read_data d (subscribing (needs_of ids) g0) (fun e => fst (notify_obs (noted yes) g e [])) 20 [stream d recs]
  = Some (Ok evs) /\
  let st := run_obs h true (calls_of 7 (all_calls yes g evs)) (cobs_new 0 h 3) in
  map (fun p => get_sample 0 h st (fst p) (snd p)) [(0, 0); (0, 1); (1, 0); (1, 1); (2, 0)]
  = [(true, 10); (true, 20); (true, 30); (true, 40); (false, 0)].
Proof.
  split.
  { constructor; cbn; try discriminate; auto.
    - repeat constructor; cbn; intuition discriminate.
    - intros g [<-|[<-|[]]] _; reflexivity. }
  split.
  { repeat constructor; [exists (mkGroup 1 false 2 0 3)|exists (mkGroup 2 false 1 0 1)|exists (mkGroup 1 false 2 0 3)];
      cbn; auto. }
  vm_compute. auto.
Qed.
