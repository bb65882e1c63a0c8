(** Proofs about Ethernet messages: the record and its channels, histories of setter calls. *)
From Verif Require Import Base ChannelModel ChannelSpec QueueModel BusModel BusSpec BusProofs BusBits
  BusRun EthModel EthSpec.
Local Open Scope N_scope.

Lemma eth_round_trip : forall f2d data t mand m rec0 idx,
  eth_ok m -> bytes_ok rec0 -> (8 <= length rec0)%nat ->
  (eth_has_data t mand = true -> sd_holds data idx (eth_data_ m)) ->
  exists r, eth_to_raw t mand m rec0 = Ok r /\
    r_vlsd r = eth_has_data t mand /\ (r_vlsd r = true -> r_buf r = eth_data_ m) /\
    good f2d data (eth_content m) (eth_channels t mand) (firstn 8 rec0) (eth_size t mand)
      (stored r idx).
Proof.
  intros f2d data t mand m rec0 idx Hm Hok Hl Hd.
  destruct (resize_facts (eth_size t mand) rec0 Hok Hl) as (a & Er & Ha & Haok & H8).
  { destruct t, mand; cbn [eth_size]; lia. }
  rewrite <- H8. clear H8 Hl Hok.
  destruct Hm as [H1 [H2 H2l] [H3 H3l] H4 H5 H6 H7 H9 H10 H11].
  destruct m as [bus dir err src dst kind recv len dat crc exp pad].
  cbn [eth_bus_ eth_dir_ eth_err_ eth_src_ eth_dst_ eth_kind_ eth_recv_ eth_len_ eth_data_ eth_crc_
       eth_exp_ eth_pad_] in *.
  explode src H2l. explode dst H3l. unfold bytes_ok in *.
  destruct t, mand;
    unfold eth_to_raw, eth_frame, eth_checksum_error, eth_length_error, eth_receive_error;
    cbn [eth_bus_ eth_dir_ eth_err_ eth_src_ eth_dst_ eth_kind_ eth_recv_ eth_len_ eth_data_ eth_crc_
       eth_exp_ eth_pad_ eth_size eth_has_data negb app eth_channels] in *;
    (rewrite (run_step _ _ rec0 _ (f_equal Ok Er)); clear Er; explode a Ha; split_bytes; bus_run;
     unfold plain, with_data; cbn [bind]; eexists; split; [reflexivity|]; split; [reflexivity|];
     split; [intros; first [reflexivity | discriminate]|]);
    try specialize (Hd eq_refl);
    unfold eth_frame_channels, eth_checksum_channels, eth_length_channels, eth_receive_channels,
      eth_source_channel, eth_destination_channel;
    cbn [app].
  all: (bus_good fits).
  all: (cbn [eth_content eth_bus_ eth_dir_ eth_err_ eth_src_ eth_dst_ eth_kind_ eth_recv_
    eth_len_ eth_data_ eth_crc_ eth_exp_ eth_pad_]; bus_read fits).
  all: rewrite N.div_1_r || idtac.
  all: try (apply N.mod_small; assumption).
  all: try (destruct dir; reflexivity).
  all: destruct dir, err; reflexivity.
Qed.

Lemma eth_new_ok : eth_ok eth_new.
Proof.
  constructor; cbn [eth_new eth_bus_ eth_src_ eth_dst_ eth_kind_ eth_recv_ eth_len_ eth_data_ eth_crc_
    eth_exp_ eth_pad_ repeat]; try reflexivity; try apply Forall_nil;
    split; try reflexivity; repeat (apply Forall_cons; [reflexivity|]); apply Forall_nil.
Qed.

Lemma eth_apply_ok : forall m o, eth_ok m -> eth_arg_ok o -> eth_ok (eth_apply m o).
Proof.
  intros m o [] Ho. destruct o; cbn [eth_arg_ok] in Ho;
    try (constructor; cbn [eth_apply eth_set_bus eth_set_dir eth_set_err eth_set_src eth_set_dst
      eth_set_kind eth_set_recv eth_set_len eth_set_data eth_set_crc eth_set_exp eth_set_pad
      eth_bus_ eth_src_ eth_dst_ eth_kind_ eth_recv_ eth_len_ eth_data_ eth_crc_ eth_exp_ eth_pad_];
      assumption || (apply N.mod_lt; discriminate)).
  pose proof eth_new_ok as []. constructor; assumption.
Qed.

Lemma eth_step : forall m o f,
  eth_content (eth_apply m o) f =
  match eth_effect o f with Some v => v | None => eth_content m f end.
Proof. intros m o f. destruct o, f; reflexivity. Qed.

Lemma eth_history : forall ops m f, eth_ok m -> Forall eth_arg_ok ops ->
  eth_ok (fold_left eth_apply ops m) /\
  eth_content (fold_left eth_apply ops m) f =
  match eth_last ops f with Some v => v | None => eth_content m f end.
Proof.
  induction ops as [|o ops IH]; intros m f Hm Ho; [split; [exact Hm | reflexivity]|].
  cbn [fold_left eth_last].
  destruct (IH (eth_apply m o) f (eth_apply_ok m o Hm (Forall_inv Ho)) (Forall_inv_tail Ho))
    as (H1 & H2).
  split; [exact H1|]. rewrite H2. destruct (eth_last ops f); [reflexivity|]. apply eth_step.
Qed.
