(** Property theorems about LIN messages (C44). *)
From Verif Require Import Base ChannelModel BusModel BusSpec BusProofs LinModel LinSpec LinProofs.
Local Open Scope N_scope.

(** C44. For every LIN message of every type, full or mandatory members only, and whatever was in the
    record buffer: the time bytes are kept and every channel of the group yields the value of
    the message, except the channels of [lin_mismatch], for which the claim is false
    (below). *)
Theorem C44_round_trip_partial : forall f2d data t mand m rec0,
  lin_ok m -> bytes_ok rec0 -> (8 <= length rec0)%nat ->
  exists rec, lin_to_raw t mand m rec0 = Ok (mkRaw rec false []) /\
    firstn 8 rec = firstn 8 rec0 /\
    forall f c, In (f, c) (lin_channels t mand) -> lin_mismatch t f = false ->
      read_content f2d data c rec = Ok (lin_content f2d m f).
Proof.
  intros f2d data t mand m rec0 H1 H2 H3.
  destruct (lin_round_trip f2d data t mand m rec0 H1 H2 H3) as (rec & R1 & R2 & _ & _ & R3).
  exists rec. auto.
Qed.
Print Assumptions C44_round_trip_partial.

(** Up to 8 data bytes are stored completely and in order, with their number. *)
Theorem C44_data_bytes : forall f2d data mand m d rec0,
  lin_ok m -> bytes_ok d -> (length d <= 8)%nat -> bytes_ok rec0 -> (8 <= length rec0)%nat ->
  exists rec bytes, lin_to_raw LinFrame mand (lin_set_data m d) rec0 = Ok (mkRaw rec false []) /\
    read_content f2d data (mlsd_channel 11 8) rec = Ok (Bytes bytes) /\
    read_content f2d data (bits_channel 10 4 4) rec = Ok (num (N.of_nat (length d))) /\
    firstn (length d) bytes = d.
Proof.
  intros f2d data mand m d rec0 H1 Hd Hl H2 H3.
  assert (Ho: lin_arg_ok (OpData d)).
  { split; auto. change (2 ^ 16) with 65536. lia. }
  assert (Hok: lin_ok (lin_set_data m d)) by exact (lin_apply_ok m (OpData d) H1 Ho).
  destruct (lin_round_trip f2d data LinFrame mand _ rec0 Hok H2 H3) as (rec & R1 & _ & _ & _ & R3).
  exists rec, (padded 255 8 d). split; [exact R1|]. split; [|split].
  - apply (R3 LfData); [|reflexivity]. apply in_or_app. left. cbn. tauto.
  - pose proof (lin_step m (OpData d) LfLength H1 Ho) as E. cbn [lin_apply lin_expect lin_content] in E.
    rewrite N.mod_small in E by lia.
    rewrite <- E. apply (R3 LfLength); [|reflexivity]. apply in_or_app. left. cbn. tauto.
  - unfold padded. rewrite firstn_firstn, Nat.min_l by auto.
    rewrite firstn_app, firstn_all, Nat.sub_diag. apply app_nil_r.
Qed.
Print Assumptions C44_data_bytes.

(** Any history of setter calls on a new message: each property has the value of the last call that
    sets it. *)
Theorem C44_setter_history : forall ops f,
  Forall lin_arg_ok ops ->
  lin_ok (fold_left lin_apply ops lin_new) /\
  lin_content (fun x => x) (fold_left lin_apply ops lin_new) f =
  match lin_last ops f with Some v => v | None => lin_content (fun x => x) lin_new f end.
Proof. exact (fun ops f H => lin_history ops lin_new f lin_new_ok H). Qed.
Print Assumptions C44_setter_history.

(** A new message: everything is zero, there are no data bytes, and the checksum model is unknown. *)
Theorem C44_defaults : forall f2d f,
  lin_content f2d lin_new f =
  match f with
  | LfDir => flag false
  | LfData => Bytes (repeat 255 8)
  | LfModel => Num (VS (-1))
  | LfBaud | LfRespBaud => Num (VF (f2d 0))
  | _ => num 0
  end.
Proof. intros f2d f. destruct f; reflexivity. Qed.
Print Assumptions C44_defaults.

(** The records of wake up and spike messages hold the whole start of frame, although the channel shows
    one byte of it (C44_start_of_frame_refuted): a 64 bit channel would read it. *)
Theorem C44_start_of_frame_stored : forall f2d data t mand m rec0,
  t = LinWakeUp \/ t = LinSpike -> lin_ok m -> bytes_ok rec0 -> (8 <= length rec0)%nat ->
  exists rec, lin_to_raw t mand m rec0 = Ok (mkRaw rec false []) /\
    read_content f2d data (bits_channel 13 0 64) rec = Ok (num (lin_sof_ m)).
Proof. exact lin_sof_stored. Qed.
Print Assumptions C44_start_of_frame_stored.

(** The direction bit is stored at bit 6 of the identifier byte, its channel is at bit 7. *)
Theorem C44_direction_refuted : forall t, t = LinFrame \/ t = LinChecksumError ->
  exists m rec c, lin_ok m /\ lin_dir m = true /\ In (LfDir, c) (lin_channels t false) /\
    lin_to_raw t false m (repeat 0 8) = Ok (mkRaw rec false []) /\
    read_content (fun x => x) [] c rec = Ok (flag false).
Proof.
  intros t Ht. exists (lin_set_dir lin_new true).
  assert (H: lin_ok (lin_set_dir lin_new true))
    by exact (lin_apply_ok lin_new (OpDir true) lin_new_ok Logic.I).
  destruct Ht as [-> | ->]; eexists; exists (bit_channel 9 7);
    (split; [exact H | split; [reflexivity | split; [cbn; tauto | split; reflexivity]]]).
Qed.
Print Assumptions C44_direction_refuted.

(** Only the low 8 bits of the start of frame of a wake up or spike message can be read. *)
Theorem C44_start_of_frame_refuted : forall t, t = LinWakeUp \/ t = LinSpike ->
  exists m rec c, lin_ok m /\ lin_sof_ m = 1000 /\ In (LfSof, c) (lin_channels t false) /\
    lin_to_raw t false m (repeat 0 8) = Ok (mkRaw rec false []) /\
    read_content (fun x => x) [] c rec = Ok (num 232).
Proof.
  intros t Ht. exists (lin_set_sof lin_new 1000).
  assert (H: lin_ok (lin_set_sof lin_new 1000))
    by exact (lin_apply_ok lin_new (OpSof 1000) lin_new_ok eq_refl).
  destruct Ht as [-> | ->]; eexists; exists (bits_channel 13 0 8);
    (split; [exact H | split; [reflexivity | split; [cbn; tauto | split; reflexivity]]]).
Qed.
Print Assumptions C44_start_of_frame_refuted.

(** The checksum model of a receive error is read from the identifier byte. *)
Theorem C44_checksum_model_refuted :
  exists m rec c, lin_ok m /\ lin_model_ m = ModelEnhanced /\
    In (LfModel, c) (lin_channels LinReceiveError false) /\
    lin_to_raw LinReceiveError false m (repeat 0 8) = Ok (mkRaw rec false []) /\
    read_content (fun x => x) [] c rec = Ok (Num (VS 0)).
Proof.
  exists (lin_set_model lin_new ModelEnhanced). eexists. exists (signed_channel 9 6 2).
  split; [exact (lin_apply_ok lin_new (OpModel ModelEnhanced) lin_new_ok Logic.I)|].
  split; [reflexivity | split; [cbn; tauto | split; reflexivity]].
Qed.
Print Assumptions C44_checksum_model_refuted.

Definition lin_example : lin :=
  fold_left lin_apply
    [OpId 21; OpData [1; 2; 3]; OpBus 4; OpDir true; OpReceived 3; OpCrc 99; OpModel ModelClassic;
     OpSof 123456789012; OpId 77; OpBreak 7000] lin_new.

Example C44_witness :
  lin_id lin_example = 13 /\ lin_length lin_example = 3 /\
  (exists rec, lin_to_raw LinFrame false lin_example (repeat 9 60) = Ok (mkRaw rec false []) /\
    length rec = 45%nat /\
    read_content (fun x => x) [] (bits_channel 9 0 6) rec = Ok (num 13) /\
    read_content (fun x => x) [] (bits_channel 21 0 64) rec = Ok (num 123456789012) /\
    read_content (fun x => x) [] (mlsd_channel 11 8) rec
      = Ok (Bytes [1; 2; 3; 255; 255; 255; 255; 255])).
Proof.
  split; [reflexivity|]. split; [reflexivity|]. eexists. split; [reflexivity|].
  split; [reflexivity|]. split; [reflexivity|]. split; reflexivity.
Qed.
