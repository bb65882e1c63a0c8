(** Property theorems about Ethernet messages (C57). *)
From Verif Require Import Base ChannelModel QueueModel BusModel BusSpec BusRun EthModel EthSpec
  EthProofs.
Local Open Scope N_scope.

(** C57. For every Ethernet message of every type, full or mandatory members only, and whatever was
    in the record buffer: the message is stored, the time bytes are kept, the record has the size
    of the group, the payload goes to the signal data when the group has a channel for it, and
    then every channel of the group yields the value of the message. *)
Theorem C57_round_trip : forall f2d data t mand m rec0 idx,
  eth_ok m -> bytes_ok rec0 -> (8 <= length rec0)%nat ->
  (eth_has_data t mand = true -> sd_holds data idx (eth_data_ m)) ->
  exists r, eth_to_raw t mand m rec0 = Ok r /\
    r_vlsd r = eth_has_data t mand /\ (r_vlsd r = true -> r_buf r = eth_data_ m) /\
    firstn 8 (stored r idx) = firstn 8 rec0 /\
    length (stored r idx) = eth_size t mand /\
    forall f c, In (f, c) (eth_channels t mand) ->
      read_content f2d data c (stored r idx) = Ok (eth_content m f).
Proof. exact eth_round_trip. Qed.
Print Assumptions C57_round_trip.

(** The groups have a channel for every property that belongs to the message type. *)
Theorem C57_complete : forall t f,
  (f = EfExpected -> t = EthChecksumError) -> (f = EfError -> t = EthReceiveError) ->
  exists c, In (f, c) (eth_channels t false).
Proof.
  intros t f H1 H2.
  destruct t, f; try (specialize (H1 eq_refl); discriminate); try (specialize (H2 eq_refl); discriminate);
    eexists; cbn; eauto 20.
Qed.
Print Assumptions C57_complete.

(** Any history of setter calls on a new message: each property has the value of the last call that
    determines it. *)
Theorem C57_setter_history : forall ops f,
  Forall eth_arg_ok ops ->
  eth_ok (fold_left eth_apply ops eth_new) /\
  eth_content (fold_left eth_apply ops eth_new) f =
  match eth_last ops f with Some v => v | None => eth_content eth_new f end.
Proof. exact (fun ops f H => eth_history ops eth_new f eth_new_ok H). Qed.
Print Assumptions C57_setter_history.

(** A new message: everything is zero but the type, which is IPv4 (0x0800). *)
Theorem C57_defaults : forall f,
  eth_content eth_new f =
  match f with
  | EfSource | EfDestination => Bytes [0; 0; 0; 0; 0; 0]
  | EfType => num 2048
  | EfData => Bytes []
  | EfDir => flag false
  | _ => num 0
  end.
Proof. intros f. destruct f; reflexivity. Qed.
Print Assumptions C57_defaults.

(** The data length follows the data bytes only modulo 2^16, whatever was set before. *)
Theorem C57_data_length : forall m d,
  eth_data_ (eth_set_data m d) = d /\ eth_len_ (eth_set_data m d) = N.of_nat (length d) mod 2 ^ 16.
Proof. intros m d. split; reflexivity. Qed.
Print Assumptions C57_data_length.

(** A reset message is not a new message: the direction and the error type stay. *)
Theorem C57_reset_refuted :
  let m := fold_left eth_apply [EoDir true; EoErr ErrCollision; EoReset] eth_new in
  eth_dir_ m = true /\ eth_err_ m = ErrCollision /\
  eth_dir_ eth_new = false /\ eth_err_ eth_new = ErrUnknown.
Proof. repeat split; reflexivity. Qed.
Print Assumptions C57_reset_refuted.

Definition eth_example : eth :=
  fold_left eth_apply
    [EoBus 3; EoSource [1; 2; 3; 4; 5; 6]; EoDestination [7; 8; 9; 10; 11; 12]; EoType 0x86DD;
     EoData [170; 187; 204]; EoCrc 0xDEADBEEF; EoErr ErrCollision; EoDir true; EoReceived 64;
     EoPad 43] eth_new.

Example C57_witness :
  eth_ok eth_example /\
  sd_holds [9; 9; 3; 0; 0; 0; 170; 187; 204; 7] 2 (eth_data_ eth_example) /\
  exists r, eth_to_raw EthReceiveError false eth_example (repeat 5 8) = Ok r /\
    stored r 2 = [5; 5; 5; 5; 5; 5; 5; 5; 3; 1; 2; 3; 4; 5; 6; 7; 8; 9; 10; 11; 12; 221; 134; 64; 0;
                  3; 0; 239; 190; 173; 222; 3; 43; 0; 2; 0; 0; 0; 0; 0; 0; 0].
Proof.
  split.
  { refine (proj1 (eth_history _ eth_new EfBus eth_new_ok _)).
    repeat (apply Forall_cons;
            [cbn [eth_arg_ok]; try reflexivity; try exact Logic.I;
             try (split; [|reflexivity]); repeat (apply Forall_cons; [reflexivity|]); apply Forall_nil|]).
    apply Forall_nil. }
  split; [exists [9; 9], [7]; repeat split; vm_compute; reflexivity|].
  eexists. split; vm_compute; reflexivity.
Qed.
