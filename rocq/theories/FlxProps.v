(** Property theorems about FlexRay messages (C58). *)
From Verif Require Import Base ChannelModel QueueModel BusModel BusSpec BusRun FlxModel FlxSpec
  FlxProofs.
Local Open Scope N_scope.

(** C58. For every FlexRay message of every type, full or mandatory members only, and whatever was in
    the record buffer: the message is stored, the time bytes are kept, the record has the size of
    the group, the payload goes to the signal data when the group has a channel for it, and every
    channel of the group yields the value of the message, except the FlexRay channel, the channel
    mask and the data bytes, for which the claim is false (below). *)
Theorem C58_round_trip_partial : forall f2d data t mand m rec0 idx,
  flx_ok m -> bytes_ok rec0 -> (8 <= length rec0)%nat ->
  exists r, flx_to_raw t mand m rec0 = Ok r /\
    r_vlsd r = flx_has_data t mand /\ (r_vlsd r = true -> r_buf r = flx_data_ m) /\
    firstn 8 (stored r idx) = firstn 8 rec0 /\
    length (stored r idx) = flx_size t mand /\
    forall f c, In (f, c) (flx_channels t mand) -> f <> FxChan -> f <> FxMask -> f <> FxData ->
      read_content f2d data c (stored r idx) = Ok (flx_content m f).
Proof.
  intros f2d data t mand m rec0 idx H1 H2 H3.
  destruct (flx_record f2d data t mand m rec0 idx H1 H2 H3)
    as (r & R1 & R2 & R3 & (R4 & R5 & R6) & _ & _).
  exists r. repeat (split; [assumption|]). intros f c Hin N1 N2 N3.
  rewrite (R6 f c).
  - destruct f; try reflexivity; contradiction.
  - apply filter_In. split; [exact Hin|]. destruct f; try reflexivity; contradiction.
Qed.
Print Assumptions C58_round_trip_partial.

(** A full PDU keeps its data bytes, wherever they are in the signal data. *)
Theorem C58_pdu_data : forall f2d data m rec0 idx r c,
  flx_ok m -> bytes_ok rec0 -> (8 <= length rec0)%nat ->
  flx_to_raw FlxPdu false m rec0 = Ok r -> In (FxData, c) (flx_channels FlxPdu false) ->
  sd_holds data idx (flx_data_ m) ->
  read_content f2d data c (stored r idx) = Ok (Bytes (flx_data_ m)).
Proof.
  intros f2d data m rec0 idx r c H1 H2 H3 H4 H5 H6.
  exact (flx_data_read f2d data FlxPdu false m rec0 idx _ r c H1 H2 H3 H4 H5 H6).
Qed.
Print Assumptions C58_pdu_data.

(** In every group the payload that comes first in the signal data is found. *)
Theorem C58_first_data : forall f2d data t mand m rec0 r c,
  flx_ok m -> bytes_ok rec0 -> (8 <= length rec0)%nat ->
  flx_to_raw t mand m rec0 = Ok r -> In (FxData, c) (flx_channels t mand) ->
  sd_holds data 0 (flx_data_ m) ->
  read_content f2d data c (stored r 0) = Ok (Bytes (flx_data_ m)).
Proof.
  intros f2d data t mand m rec0 r c H1 H2 H3 H4 H5 H6.
  apply (flx_data_read f2d data t mand m rec0 0 _ r c H1 H2 H3 H4 H5).
  replace (data_index t mand 0) with 0 by (destruct t, mand; reflexivity). exact H6.
Qed.
Print Assumptions C58_first_data.

(** Any history of setter calls on a new message: each property has the value of the last call that
    determines it. *)
Theorem C58_setter_history : forall t ops f,
  Forall flx_arg_ok ops ->
  flx_ok (fold_left flx_apply ops (flx_new t)) /\
  flx_content (fold_left flx_apply ops (flx_new t)) f =
  match flx_last ops f with Some v => v | None => flx_content (flx_new t) f end.
Proof. exact (fun t ops f H => flx_history ops (flx_new t) f (flx_new_ok t) H). Qed.
Print Assumptions C58_setter_history.

(** A new message: zero and false, but a PDU is valid and has no update bit (0xFFF), the channel mask is
    both channels, and the null frame flag says normal frame unless the message is a null frame. *)
Theorem C58_defaults : forall t f,
  flx_content (flx_new t) f =
  match f with
  | FxData => Bytes []
  | FxNormal => flag (match t with FlxNullFrame => false | _ => true end)
  | FxPvalid => flag true
  | FxUpd => num 4095
  | FxMask => num 3
  | FxChan | FxTx | FxRes | FxPre | FxSync | FxStartup | FxMux | FxSyntax | FxContent | FxBoundary
  | FxConflict | FxEvalid => flag false
  | _ => num 0
  end.
Proof. intros t f. destruct f; reflexivity. Qed.
Print Assumptions C58_defaults.

(** The FlexRay channel of a message is never stored: a message on channel B reads as channel A, in
    every group that has the channel. *)
Theorem C58_channel_refuted : forall f2d data t mand m rec0 idx c,
  flx_ok m -> bytes_ok rec0 -> (8 <= length rec0)%nat -> flx_chan_ m = true ->
  In (FxChan, c) (flx_channels t mand) ->
  flx_content m FxChan = flag true /\
  exists r, flx_to_raw t mand m rec0 = Ok r /\
    read_content f2d data c (stored r idx) = Ok (flag false).
Proof.
  intros f2d data t mand m rec0 idx c H1 H2 H3 H4 H5.
  split; [cbn [flx_content]; rewrite H4; reflexivity|].
  destruct (flx_record f2d data t mand m rec0 idx H1 H2 H3) as (r & R1 & _ & _ & (_ & _ & R6) & _).
  exists r. split; [exact R1|]. rewrite (R6 FxChan c); [reflexivity|].
  apply filter_In. split; [exact H5 | reflexivity].
Qed.
Print Assumptions C58_channel_refuted.

(** The channel mask of a symbol is never stored: it always reads as 0, which is none of its values. *)
Theorem C58_mask_refuted : forall f2d data mand m rec0 idx c,
  flx_ok m -> bytes_ok rec0 -> (8 <= length rec0)%nat -> flx_mask_ m <> 0 ->
  In (FxMask, c) (flx_channels FlxSymbol mand) ->
  flx_content m FxMask <> num 0 /\
  exists r, flx_to_raw FlxSymbol mand m rec0 = Ok r /\
    read_content f2d data c (stored r idx) = Ok (num 0).
Proof.
  intros f2d data mand m rec0 idx c H1 H2 H3 H4 H5.
  split; [cbn [flx_content]; intro E; injection E as E; contradiction|].
  destruct (flx_record f2d data FlxSymbol mand m rec0 idx H1 H2 H3)
    as (r & R1 & _ & _ & (_ & _ & R6) & _).
  exists r. split; [exact R1|]. rewrite (R6 FxMask c); [reflexivity|].
  apply filter_In. split; [exact H5 | reflexivity].
Qed.
Print Assumptions C58_mask_refuted.

(** In every group with data bytes but the full PDU, the index of the payload is stored two bytes
    behind the place the data channel reads, so the channel looks for the payload at 65536 times
    its index: with two payloads in the signal data the second one is not found. *)
Theorem C58_data_refuted : forall t mand, flx_has_data t mand = true ->
  (t, mand) <> (FlxPdu, false) ->
  exists m r c data, flx_ok m /\ flx_data_ m = [187] /\
    flx_to_raw t mand m (repeat 0 8) = Ok r /\ In (FxData, c) (flx_channels t mand) /\
    sd_holds data 5 [187] /\
    read_content (fun x => x) data c (stored r 5) <> Ok (Bytes [187]).
Proof.
  intros t mand H N.
  set (m := flx_apply (flx_new t) (FoData [187])).
  assert (Hm: flx_ok m).
  { apply flx_apply_ok; [apply flx_new_ok|]. split; [|cbn; lia].
    apply Forall_cons; [reflexivity|apply Forall_nil]. }
  destruct t, mand; try discriminate H; try (exfalso; apply N; reflexivity);
    (eexists m, _, _, [1; 0; 0; 0; 170; 1; 0; 0; 0; 187]; split; [exact Hm|]; split; [reflexivity|];
     split; [vm_compute; reflexivity|]; split; [cbn; repeat (first [left; reflexivity | right])|];
     split; [exists [1; 0; 0; 0; 170], []; repeat split; vm_compute; reflexivity|];
     vm_compute; discriminate).
Qed.
Print Assumptions C58_data_refuted.

Definition flx_example : flx :=
  fold_left flx_apply
    [FoBus 2; FoId 0x7A5; FoCycle 63; FoChan true; FoTx true; FoData [1; 2; 3]; FoPlen 3; FoMux true;
     FoSwitch 0xBEEF; FoUpd 0xABC; FoByteoff 9; FoBitoff 5] (flx_new FlxPdu).

Example C58_witness :
  flx_ok flx_example /\
  sd_holds [9; 9; 3; 0; 0; 0; 1; 2; 3; 7] 2 (flx_data_ flx_example) /\
  exists r, flx_to_raw FlxPdu false flx_example (repeat 5 8) = Ok r /\
    stored r 2 = [5; 5; 5; 5; 5; 5; 5; 5; 2; 165; 7; 63; 3; 3; 23; 239; 190; 188; 10; 9; 2; 0; 0; 0; 0;
                  0; 0; 0].
Proof.
  split.
  { refine (proj1 (flx_history _ (flx_new FlxPdu) FxBus (flx_new_ok _) _)).
    repeat (apply Forall_cons;
            [cbn [flx_arg_ok]; try reflexivity; try exact Logic.I;
             try (split; [repeat (apply Forall_cons; [reflexivity|]); apply Forall_nil | cbn; lia])|]).
    apply Forall_nil. }
  split; [exists [9; 9], [7]; repeat split; vm_compute; reflexivity|].
  eexists. split; vm_compute; reflexivity.
Qed.
