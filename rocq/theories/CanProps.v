(** Property theorems about CAN messages (C41, C42, C43). *)
From Verif Require Import Base ChannelModel QueueModel BusModel BusSpec BusProofs CanModel CanSpec CanProofs CanProofs2.
Local Open Scope N_scope.

(** C41. The data length code of a payload of up to 64 bytes, set by its length or by its bytes, is the
    smallest code whose length holds the payload. *)
Theorem C41_smallest_code : forall m n, n <= 64 ->
  let d := can_dlc (can_set_length m n) in
  d < 16 /\ n <= dlc_to_length d /\ (forall d', d' < 16 -> n <= dlc_to_length d' -> d <= d').
Proof.
  intros m n Hn d.
  assert (E: d = code_for n).
  { pose proof (can_step m (CoLength n) CfDlc) as E. cbn [can_apply can_get can_effect can_arg_ok] in E.
    assert (Hlt: n < 2 ^ 8) by (change (2 ^ 8) with 256; lia). specialize (E Hlt).
    injection E as E. exact E. }
  rewrite E. destruct (code_for_facts n Hn) as (H1 & H2 & H3).
  split; [exact H1|]. split; [rewrite to_length_code by exact H1; exact H2|].
  intros d' Hd. rewrite to_length_code by exact Hd. exact (H3 d' Hd).
Qed.
Print Assumptions C41_smallest_code.

Theorem C41_data_bytes : forall m data, (length data <= 64)%nat ->
  can_dlc (can_set_data m data) = can_dlc (can_set_length m (N.of_nat (length data))) /\
  can_length (can_set_data m data) = N.of_nat (length data) /\
  can_data (can_set_data m data) = data.
Proof.
  intros m data H. unfold can_set_data.
  assert (E: w8 (N.of_nat (length data)) = N.of_nat (length data))
    by (apply N.mod_small; change (2 ^ 8) with 256; lia).
  split; [|split]; [rewrite E; reflexivity | exact E | reflexivity].
Qed.
Print Assumptions C41_data_bytes.

(** Code to length is the table of ISO 11898-1, and the two directions are inverse on valid
    lengths. *)
Theorem C41_inverse : forall m d, d < 16 ->
  dlc_to_length d = code_length d /\ can_dlc (can_set_length m (dlc_to_length d)) = d.
Proof.
  intros m d Hd. rewrite to_length_code by exact Hd. split; [reflexivity|].
  pose proof (can_step m (CoLength (code_length d)) CfDlc) as E.
  cbn [can_apply can_get can_effect can_arg_ok] in E.
  assert (Hlt: code_length d < 2 ^ 8).
  { apply N.ltb_lt. revert d Hd E. intros d Hd _.
    exact (below_all (fun d => code_length d <? 2 ^ 8) 16 ltac:(vm_compute; reflexivity) d Hd). }
  specialize (E Hlt). injection E as E. change (N.land (dlc_loop dlc_table (code_length d) 0) 15)
    with (can_dlc (can_set_length m (code_length d))) in E.
  rewrite E. apply code_of_length. exact Hd.
Qed.
Print Assumptions C41_inverse.

Theorem C41_monotone : forall m1 m2 a b, a <= b -> b <= 64 ->
  can_dlc (can_set_length m1 a) <= can_dlc (can_set_length m2 b).
Proof.
  intros m1 m2 a b Hab Hb.
  destruct (C41_smallest_code m1 a ltac:(lia)) as (_ & _ & H).
  destruct (C41_smallest_code m2 b Hb) as (H1 & H2 & _). apply H; [exact H1 | lia].
Qed.
Print Assumptions C41_monotone.

(** More than 64 bytes have no code; the message then says 0. *)
Theorem C41_too_long : forall m n, 64 < n -> n < 256 -> can_dlc (can_set_length m n) = 0.
Proof.
  intros m n H1 H2. pose proof (can_step m (CoLength n) CfDlc H2) as E.
  cbn [can_apply can_get can_effect] in E. injection E as E.
  change (N.land (dlc_loop dlc_table n 0) 15) with (can_dlc (can_set_length m n)) in E. rewrite E.
  unfold code_for. repeat (rewrite (proj2 (N.leb_gt _ _)) by lia). reflexivity.
Qed.
Print Assumptions C41_too_long.

Example C41_witness :
  map (fun n => can_dlc (can_set_length can_new n)) [0; 1; 8; 9; 12; 13; 48; 49; 64]
  = [0; 1; 8; 9; 9; 10; 14; 15; 15].
Proof. reflexivity. Qed.

(* ------------------------------------------------------------------ *)

(** C42. Every CAN message of every type, full or mandatory members only, with the data bytes in the
    record, in the signal data or in a group of their own: the time bytes of the record are kept, the
    payload handed to the writer is the data bytes, and every channel of the group yields the
    value of the message. [idx] is where the writer puts the payload in the signal data [data].
    Identifiers have 29 bits, as on the bus. An error frame is stored in the sample record of its
    group, which is not longer than the group's channels. *)
Theorem C42_channels : forall f2d data t mand max st m s idx,
  can_ok m -> can_id m < 2 ^ 29 -> (8 <= max)%nat -> N.of_nat max < 2 ^ 27 ->
  bytes_ok (r_rec s) -> (8 <= length (r_rec s))%nat -> r_vlsd s = false ->
  (t = CanError -> (length (r_rec s) <= can_size t mand st max)%nat) ->
  (st <> Mlsd -> sd_holds data idx (can_data m)) ->
  exists r, can_to_raw t mand max st m s = Ok r /\
    (r_vlsd r = true -> r_buf r = can_data m) /\
    firstn 8 (stored r idx) = firstn 8 (r_rec s) /\
    length (stored r idx) = can_size t mand st max /\
    forall f c, In (f, c) (can_channels t mand st max) ->
      read_content f2d data c (stored r idx) = Ok (can_content st max m f).
Proof.
  intros. destruct (can_round_trip f2d data t mand max st m s idx) as (r & H8' & H9 & H10 & H11 & _ & H12);
    auto.
  exists r. auto.
Qed.
Print Assumptions C42_channels.

(** The message an observer decodes from the stored record: it shows every property of the message
    that has a channel, except those of [can_lost], for which the claim is false (below). The data
    length code is computed anew from the data length; it is the one of the message unless the
    user changed it afterwards. What has no channel is as in a new message. *)
Theorem C42_observer_partial : forall data vlsd t mand max st m s idx,
  can_ok m -> can_id m < 2 ^ 29 -> (8 <= max)%nat -> N.of_nat max < 2 ^ 27 ->
  bytes_ok (r_rec s) -> (8 <= length (r_rec s))%nat -> r_vlsd s = false ->
  (t = CanError -> (length (r_rec s) <= can_size t mand st max)%nat) ->
  (st <> Mlsd -> sd_holds data idx (can_data m)) ->
  (st = VlsdGroup -> vlsd = can_data m) ->
  (st = Mlsd -> (length (can_data m) <= max)%nat /\ (length (can_data m) < 256)%nat) ->
  exists r m', can_to_raw t mand max st m s = Ok r /\
    can_parse st (can_channels t mand st max) data vlsd (stored r idx) = Ok m' /\
    (forall f c, In (f, c) (can_channels t mand st max) -> can_lost t f = false ->
       f <> CfDlc -> can_get m' f = can_get m f) /\
    (t <> CanOverload -> can_dlc m' = code_for (can_length m)) /\
    (forall f, (forall c, ~ In (f, c) (can_channels t mand st max)) -> f <> CfData ->
       can_get m' f = can_get can_new f).
Proof.
  intros data vlsd t mand max st m s idx H1 H2 H3 H4 H5 H6 H7 H8 H9 H10 H11.
  destruct (can_round_trip (fun h => h) data t mand max st m s idx H1 H2 H3 H4 H5 H6 H7 H8 H9)
    as (r & E1 & _ & _ & _ & _ & E2).
  destruct (can_observe data vlsd t mand st max m (stored r idx) H1 H10 H11 E2)
    as (m' & E3 & E4 & E5 & E6).
  exists r, m'. split; [exact E1|]. split; [exact E3|]. split; [exact E4|]. split.
  - intros Ht. apply E5. destruct t, mand; try discriminate. congruence. congruence.
  - intros f Hf. apply E6. destruct (can_find (can_channels t mand st max) f) as [c|] eqn:Ef; [|reflexivity].
    exfalso. apply (Hf c). unfold can_find in Ef.
    destruct (find _ _) as [[g c']|] eqn:Eg; [|discriminate]. cbn [option_map snd] in Ef.
    injection Ef as ->. apply find_some in Eg. destruct Eg as [Hin Heq]. cbn [fst] in Heq.
    replace f with g; [exact Hin|].
    destruct g, f; cbn [field_eqb] in Heq; try discriminate; try reflexivity.
    apply flag_eqb_eq in Heq. congruence.
Qed.
Print Assumptions C42_observer_partial.

(** A CAN FD data frame that meets the hypotheses. *)
Definition c42_message : can :=
  fold_left can_apply
    [CoBus 3; CoId 74565; CoData [1; 2; 3; 4; 5; 6; 7; 8; 9; 10; 11; 12]; CoFlag FgDir true;
     CoFlag FgEdl true; CoFlag FgBrs true; CoDur 100000; CoCrc 4660] can_new.

Example C42_witness : exists r m',
  can_ok c42_message /\ can_id c42_message < 2 ^ 29 /\
  can_to_raw CanData false 64 Mlsd c42_message (mkRaw (repeat 0 8) false []) = Ok r /\
  can_parse Mlsd (can_channels CanData false Mlsd 64) [] [] (stored r 0) = Ok m' /\
  can_data m' = [1; 2; 3; 4; 5; 6; 7; 8; 9; 10; 11; 12] /\ can_id m' = 74565 /\ can_ext m' = true /\
  can_dlc m' = 9 /\ can_has FgBrs m' = true /\ can_crc_ m' = 4660.
Proof.
  do 2 eexists. split.
  { apply (can_history _ can_new CfBus can_new_ok). repeat constructor. }
  split; [reflexivity|]. split; [vm_compute; reflexivity|].
  split; [vm_compute; reflexivity|]. repeat split; vm_compute; reflexivity.
Qed.

(** The reserved bit R0 is stored but never decoded. *)
Theorem C42_reserved_bit_refuted : exists m r m',
  can_ok m /\ can_has FgR0 m = true /\
  can_to_raw CanData false 8 Mlsd m (mkRaw (repeat 0 8) false []) = Ok r /\
  can_parse Mlsd (can_channels CanData false Mlsd 8) [] [] (stored r 0) = Ok m' /\
  can_has FgR0 m' = false.
Proof.
  exists (can_set_flag FgR0 can_new true). do 2 eexists.
  split; [exact (can_apply_ok can_new (CoFlag FgR0 true) can_new_ok Logic.I)|].
  split; [reflexivity|]. split; [vm_compute; reflexivity|]. split; vm_compute; reflexivity.
Qed.
Print Assumptions C42_reserved_bit_refuted.

(** A decoded error frame has the bit position as its frame duration, and neither bit position nor
    error type. *)
Theorem C42_error_frame_refuted : exists m r m',
  can_ok m /\ can_pos_ m = 77 /\ can_err_ m = 4 /\ can_dur_ m = 1000 /\
  can_to_raw CanError false 8 Mlsd m (mkRaw (repeat 0 8) false []) = Ok r /\
  can_parse Mlsd (can_channels CanError false Mlsd 8) [] [] (stored r 0) = Ok m' /\
  can_pos_ m' = 0 /\ can_err_ m' = 0 /\ can_dur_ m' = 77.
Proof.
  exists (fold_left can_apply [CoPos 77; CoErr 4; CoDur 1000] can_new). do 2 eexists.
  split; [apply (can_history _ can_new CfBus can_new_ok); repeat constructor|].
  split; [reflexivity|]. split; [reflexivity|]. split; [reflexivity|].
  split; [vm_compute; reflexivity|]. split; [vm_compute; reflexivity|].
  repeat split; vm_compute; reflexivity.
Qed.
Print Assumptions C42_error_frame_refuted.

(** A data length code set by the user, as a classic CAN remote or data frame may have (codes 9 to 15
    with 8 bytes), is replaced by the one of the data length. *)
Theorem C42_code_refuted : exists m r m',
  can_ok m /\ can_dlc m = 15 /\ can_length m = 8 /\
  can_to_raw CanData false 8 Mlsd m (mkRaw (repeat 0 8) false []) = Ok r /\
  can_parse Mlsd (can_channels CanData false Mlsd 8) [] [] (stored r 0) = Ok m' /\
  can_dlc m' = 8.
Proof.
  exists (fold_left can_apply [CoLength 8; CoDlc 15] can_new). do 2 eexists.
  split; [apply (can_history _ can_new CfBus can_new_ok); repeat constructor|].
  split; [reflexivity|]. split; [reflexivity|].
  split; [vm_compute; reflexivity|]. split; vm_compute; reflexivity.
Qed.
Print Assumptions C42_code_refuted.

(** An error frame does not shorten a record buffer that is too long: the index of its data then goes
    to the end of the buffer, where the channel does not look, and the data cannot be read. *)
Theorem C42_error_buffer_refuted : exists m r data,
  can_ok m /\ can_data m = [1; 2; 3] /\
  can_to_raw CanError false 8 FixedStorage m (mkRaw (repeat 0 40) false []) = Ok r /\
  sd_holds data 5 (can_data m) /\
  read_content (fun h => h) data (can_data_channel FixedStorage 8 26) (stored r 5) = Fail.
Proof.
  exists (can_set_data can_new [1; 2; 3]). do 2 eexists.
  split; [apply (can_apply_ok can_new (CoData [1; 2; 3]) can_new_ok); repeat constructor|].
  split; [reflexivity|]. split; [vm_compute; reflexivity|].
  split.
  - exists [1; 0; 0; 0; 9], []. rewrite app_nil_r. repeat split; vm_compute; reflexivity.
  - vm_compute. reflexivity.
Qed.
Print Assumptions C42_error_buffer_refuted.

(* ------------------------------------------------------------------ *)

(** C43. Any history of calls on a message: each property, seen through its getter, is what the calls
    make of it one after the other, and no call touches a property it does not name. *)
Theorem C43_setter_history : forall ops f, Forall can_arg_ok ops ->
  can_ok (fold_left can_apply ops can_new) /\
  can_get (fold_left can_apply ops can_new) f
  = fold_left (fun c o => can_effect o f c) ops (can_get can_new f).
Proof. exact (fun ops f H => can_history ops can_new f can_new_ok H). Qed.
Print Assumptions C43_setter_history.

(** A new message: zero and false, and no data bytes. *)
Theorem C43_defaults : forall f,
  can_get can_new f =
  match f with
  | CfIde | CfFlag _ => flag false
  | CfData => Bytes []
  | _ => num 0
  end.
Proof. intros f. destruct f as [| | | | | |[]| | | | |]; reflexivity. Qed.
Print Assumptions C43_defaults.

(** Each of the ten flags has the value last given to it. *)
Theorem C43_last_flag : forall ops f, Forall can_arg_ok ops ->
  can_has f (fold_left can_apply ops can_new) = last_flag f ops false.
Proof. exact (fun ops f H => can_last_flag f ops can_new can_new_ok H). Qed.
Print Assumptions C43_last_flag.

(** The identifier and the extended flag: the identifier is the one last set whatever the flag
    calls, and the flag is the one last set unless an identifier was set after it. *)
Theorem C43_identifier : forall ops id b mid tail,
  Forall can_arg_ok (ops ++ CoId id :: mid ++ CoExt b :: tail) -> id < 2 ^ 29 ->
  (forall o, In o (mid ++ CoExt b :: tail) -> match o with CoId _ | CoReset => False | _ => True end) ->
  (forall o, In o tail -> match o with CoExt _ => False | _ => True end) ->
  let m := fold_left can_apply (ops ++ CoId id :: mid ++ CoExt b :: tail) can_new in
  can_id m = id /\ can_ext m = b.
Proof.
  intros ops id b mid tail Hok Hid Hno Hlast m.
  assert (Hidkeep: forall l c, (forall o, In o l -> match o with CoId _ | CoReset => False | _ => True end) ->
            fold_left (fun c o => can_effect o CfId c) l c = c).
  { induction l as [|o l IH]; intros c H; [reflexivity|]. cbn [fold_left].
    rewrite IH by (intros; apply H; right; auto). pose proof (H o (or_introl eq_refl)).
    destruct o; try contradiction; reflexivity. }
  assert (Hextkeep: forall l c, (forall o, In o l -> match o with CoId _ | CoReset => False | _ => True end) ->
            (forall o, In o l -> match o with CoExt _ => False | _ => True end) ->
            fold_left (fun c o => can_effect o CfIde c) l c = c).
  { induction l as [|o l IH]; intros c H H'; [reflexivity|]. cbn [fold_left].
    rewrite IH by (intros; first [apply H | apply H']; right; auto). pose proof (H o (or_introl eq_refl)).
    pose proof (H' o (or_introl eq_refl)). destruct o; try contradiction; reflexivity. }
  pose proof (proj2 (can_history _ can_new CfId can_new_ok Hok)) as E1.
  pose proof (proj2 (can_history _ can_new CfIde can_new_ok Hok)) as E2.
  fold m in E1, E2. rewrite fold_left_app in E1, E2. cbn [fold_left] in E1, E2.
  rewrite Hidkeep in E1 by exact Hno.
  rewrite fold_left_app in E2. cbn [fold_left] in E2.
  rewrite Hextkeep in E2 by (try exact Hlast; intros o Ho; apply Hno, in_or_app; right; right; exact Ho).
  cbn [can_effect can_get] in E1, E2. split.
  - unfold num in E1. injection E1 as ->. apply N.mod_small.
    apply N.lt_trans with (2 ^ 29); [exact Hid | reflexivity].
  - unfold flag in E2. destruct (can_ext m), b; congruence || reflexivity.
Qed.
Print Assumptions C43_identifier.

(** But setting an identifier of 11 bits after the extended flag clears the flag. *)
Theorem C43_extended_refuted :
  can_ext (fold_left can_apply [CoExt true; CoId 291] can_new) = false /\
  can_ext (fold_left can_apply [CoId 291; CoExt true] can_new) = true.
Proof. split; reflexivity. Qed.
Print Assumptions C43_extended_refuted.

(** And Reset leaves the checksum of the old message. *)
Theorem C43_reset_refuted :
  can_crc_ (fold_left can_apply [CoCrc 4660; CoReset] can_new) = 4660 /\ can_crc_ can_new = 0.
Proof. split; reflexivity. Qed.
Print Assumptions C43_reset_refuted.

Example C43_witness :
  let m := fold_left can_apply [CoFlag FgDir true; CoId 291; CoFlag FgEdl true; CoFlag FgDir false;
                                CoExt true; CoFlag FgR1 true; CoFlag FgDir true] can_new in
  can_id m = 291 /\ can_ext m = true /\ can_has FgDir m = true /\ can_has FgEdl m = true /\
  can_has FgBrs m = false /\ can_has FgR1 m = true.
Proof. vm_compute. repeat split; reflexivity. Qed.
