(** Property theorems about MOST messages (C59). *)
From Verif Require Import Base ChannelModel QueueModel BusModel BusSpec BusRun MostModel MostSpec
  MostProofs.
Local Open Scope N_scope.

(** C59. For every MOST message of every type, full or mandatory members only, and whatever was in the
    record buffer: the message is stored, the time bytes are kept, the record has the size of the
    group, the variable length data go to the signal data exactly when the type has some, and then
    every channel of the group yields the value of the message. *)
Theorem C59_round_trip : forall f2d data t mand m rec0 idx,
  most_ok t m -> bytes_ok rec0 -> (8 <= length rec0)%nat ->
  (forall p, most_payload t m = Some p -> sd_holds data idx p) ->
  exists r, most_to_raw t mand m rec0 = Ok r /\
    (if r_vlsd r then Some (r_buf r) else None) = most_payload t m /\
    firstn 8 (stored r idx) = firstn 8 rec0 /\
    length (stored r idx) = most_size t mand /\
    forall f c, In (f, c) (most_channels t mand) ->
      read_content f2d data c (stored r idx) = Ok (most_content m f).
Proof. exact most_round_trip. Qed.
Print Assumptions C59_round_trip.

(** The properties of a message type. *)
Definition most_has (t : most_type) (f : most_field) : bool :=
  match f with
  | MxBus => true
  | MxSpeed | MxNode | MxTx | MxSrc | MxDst | MxSpec | MxRecv | MxLength | MxData | MxCrc | MxCack
  | MxPack | MxTxack =>
      match t with MostMessage | MostPacket | MostEthernetPacket => true | _ => false end
  | MxPindex => match t with MostMessage | MostPacket => true | _ => false end
  | MxFailed | MxCtype => match t with MostMessage => true | _ => false end
  | MxState => match t with MostSignalState => true | _ => false end
  | MxDevice => match t with MostMaxPosInfo => true | _ => false end
  | MxBound => match t with MostBoundDesc => true | _ => false end
  | MxFree | MxLayout | MxTable | MxTableLength =>
      match t with MostAllocTable => true | _ => false end
  | MxClosed => match t with MostSysLockState => true | _ => false end
  | MxShutdown => match t with MostShutdownFlag => true | _ => false end
  end.

(** The full groups have a channel for exactly the properties of the message type. *)
Theorem C59_complete : forall t f,
  most_has t f = true <-> exists c, In (f, c) (most_channels t false).
Proof.
  intros t f. split.
  - intros H. destruct t, f; try discriminate H; eexists; cbn; eauto 30.
  - intros (c & H). destruct t; cbn in H; repeat destruct H as [H|H]; try contradiction;
      injection H as <- _; reflexivity.
Qed.
Print Assumptions C59_complete.

(** Any history of setter calls on a new message: each property has the value of the last call that
    determines it, the byte counts excepted (next theorem). *)
Theorem C59_setter_history : forall t ops f,
  Forall (most_arg_ok t) ops ->
  most_ok t (fold_left most_apply ops most_new) /\
  (f <> MxSpec -> f <> MxRecv ->
   most_content (fold_left most_apply ops most_new) f =
   match most_last ops f with Some v => v | None => most_content most_new f end).
Proof. exact (fun t ops f H => most_history t ops most_new f (most_new_ok t) H). Qed.
Print Assumptions C59_setter_history.

(** A new message: zero and false, no bytes, and the two acknowledge codes are "ok" (4). *)
Theorem C59_defaults : forall f,
  most_content most_new f =
  match f with
  | MxData | MxTable => Bytes []
  | MxCack | MxPack => num 4
  | MxNode | MxTx | MxFailed | MxClosed | MxShutdown => flag false
  | _ => num 0
  end.
Proof. intros f. destruct f; reflexivity. Qed.
Print Assumptions C59_defaults.

(** The specified and the received number of bytes after any history: the last value set, raised to
    the largest number of data bytes given since. *)
Theorem C59_byte_counts : forall t ops,
  Forall (most_arg_ok t) ops ->
  most_spec_ (fold_left most_apply ops most_new) = most_count sets_spec ops /\
  most_recv_ (fold_left most_apply ops most_new) = most_count sets_recv ops.
Proof. exact (fun t ops H => most_counts_history t ops most_new (most_new_ok t) H). Qed.
Print Assumptions C59_byte_counts.

(** The byte counts never say less than the data bytes of the message, as long as the user does not
    set them. *)
Theorem C59_counts_cover_data : forall t ops l more,
  Forall (most_arg_ok t) (ops ++ MoData l :: more) ->
  Forall (fun o => sets_spec o = None /\ sets_recv o = None) more ->
  let m := fold_left most_apply (ops ++ MoData l :: more) most_new in
  N.of_nat (length l) <= most_spec_ m /\ N.of_nat (length l) <= most_recv_ m.
Proof.
  intros t ops l more H Hm m. subst m.
  destruct (C59_byte_counts t _ H) as (-> & ->). unfold most_count. rewrite !fold_left_app.
  cbn [fold_left sets_spec sets_recv].
  generalize (fold_left (fun n o => match sets_spec o with
                        | Some v => v
                        | None => match o with MoData l => N.max n (N.of_nat (length l)) | _ => n end
                        end) ops 0).
  generalize (fold_left (fun n o => match sets_recv o with
                        | Some v => v
                        | None => match o with MoData l => N.max n (N.of_nat (length l)) | _ => n end
                        end) ops 0).
  intros b a. clear H.
  assert (Ha: N.of_nat (length l) <= N.max a (N.of_nat (length l))) by lia.
  assert (Hb: N.of_nat (length l) <= N.max b (N.of_nat (length l))) by lia.
  revert Ha Hb. generalize (N.max a (N.of_nat (length l))) (N.max b (N.of_nat (length l))).
  induction Hm as [|o more (H1 & H2) _ IH]; intros x y Hx Hy; cbn [fold_left]; [split; assumption|].
  rewrite H1, H2. apply IH; destruct o; lia.
Qed.
Print Assumptions C59_counts_cover_data.

(** More than 65535 data bytes: the payload is stored, but the counts and the data length are cut to
    16 bits. *)
Theorem C59_long_data_refuted : forall l, N.of_nat (length l) = 65536 ->
  let m := most_apply most_new (MoData l) in
  most_data_ m = l /\ most_spec_ m = 0 /\ most_recv_ m = 0.
Proof.
  intros l H m. subst m. cbn [most_apply]. unfold most_set_data.
  cbn [most_data_ most_spec_ most_recv_ most_new]. rewrite H. repeat split; reflexivity.
Qed.
Print Assumptions C59_long_data_refuted.

(** TxAck takes any byte, but the channel of a packet has four bits: larger values are cut. *)
Theorem C59_tx_ack_refuted :
  exists r c, most_to_raw MostPacket false (most_apply most_new (MoTxack 0x12)) (repeat 0 8) = Ok r /\
    In (MxTxack, c) (most_channels MostPacket false) /\
    read_content (fun x => x) [] c (stored r 0) = Ok (num 2).
Proof.
  eexists _, (bits_channel 25 0 4). split; [vm_compute; reflexivity|].
  split; [cbn; eauto 20 | vm_compute; reflexivity].
Qed.
Print Assumptions C59_tx_ack_refuted.

Definition most_example : most :=
  fold_left most_apply
    [MoBus 2; MoSpeed 2; MoNode true; MoSrc 0x1234; MoDst 0xABCD; MoRecv 2; MoData [1; 2; 3];
     MoSpec 9; MoCrc 0xDEADBEEF; MoCack 1; MoTxack 14; MoPindex 7; MoFailed true; MoCtype 5] most_new.

Example C59_witness :
  most_ok MostMessage most_example /\
  most_payload MostMessage most_example = Some [1; 2; 3] /\
  sd_holds [9; 9; 3; 0; 0; 0; 1; 2; 3; 7] 2 [1; 2; 3] /\
  exists r, most_to_raw MostMessage false most_example (repeat 5 8) = Ok r /\
    stored r 2 = [5; 5; 5; 5; 5; 5; 5; 5; 2; 6; 52; 18; 205; 171; 9; 0; 3; 0; 3; 0; 239; 190; 173; 222;
                  97; 94; 7; 2; 0; 0; 0; 0; 0; 0; 0].
Proof.
  split.
  { refine (proj1 (most_history MostMessage _ most_new MxBus (most_new_ok _) _)).
    repeat (apply Forall_cons;
            [cbn [most_arg_ok most_width]; try reflexivity; try exact Logic.I;
             try (split; [repeat (apply Forall_cons; [reflexivity|]); apply Forall_nil | reflexivity])|]).
    apply Forall_nil. }
  split; [reflexivity|].
  split; [exists [9; 9], [7]; repeat split; vm_compute; reflexivity|].
  eexists. split; vm_compute; reflexivity.
Qed.
