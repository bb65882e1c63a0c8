(** Model of mdflib/src/linmessage.cpp, include/mdf/linmessage.h and the channels created by
    mdflib/src/linconfigadapter.cpp.

    Simplifications: baud rates are carried as their IEEE binary32 bit patterns. *)
From Verif Require Import Base ChannelModel BusModel.
Local Open Scope N_scope.

(** include/mdf/linmessage.h:19-28 LinMessageType. *)
Inductive lin_type : Type :=
| LinFrame | LinWakeUp | LinChecksumError | LinTransmissionError | LinSyncError
| LinReceiveError | LinSpike | LinLongDominant.

(** linmessage.h:30-40 LinChecksumModel (-1, 0, 1) and LinTypeOfLongDominantSignal (0, 1, 2). *)
Inductive lin_model : Type := ModelUnknown | ModelClassic | ModelEnhanced.
Inductive lin_dominant : Type := FirstDetection | CyclicReport | EndOfDetection.

Definition model_z (m : lin_model) : Z :=
  match m with ModelUnknown => -1 | ModelClassic => 0 | ModelEnhanced => 1 end.
Definition dominant_n (t : lin_dominant) : N :=
  match t with FirstDetection => 0 | CyclicReport => 1 | EndOfDetection => 2 end.

(** The members of LinMessage, linmessage.h:124-199. *)
Record lin : Type := mkLin {
  lin_bus_ : N;        (* bus_channel_, uint8_t *)
  lin_id_ : N;         (* lin_id_, uint8_t: identifier and direction *)
  lin_len_ : N;        (* data_length_, uint8_t: received count and data length *)
  lin_crc_ : N;        (* crc_, uint8_t *)
  lin_sof_ : N;        (* sof_, uint64_t *)
  lin_model_ : lin_model;
  lin_baud_ : N;       (* baudrate_, float *)
  lin_rbaud_ : N;      (* response_baudrate_, float *)
  lin_break_ : N;      (* break_length_, uint32_t *)
  lin_delim_ : N;      (* delimiter_break_length_, uint32_t *)
  lin_data_ : list N;  (* data_bytes_ *)
  lin_spare_ : N;      (* spare_, uint8_t *)
  lin_total_ : N       (* total_signal_length_, uint32_t *)
}.

(** A default constructed message, the initial values of linmessage.h:129-199. *)
Definition lin_new : lin := mkLin 0 0 0 0 0 ModelUnknown 0 0 0 0 [] 0 0.

(** [x &= ~mask; x |= v] on a uint8_t. *)
Definition mask_set (x mask v : N) : N := w8 (N.lor (N.ldiff x mask) v).

(** linmessage.cpp:46-52 BusChannel. *)
Definition lin_set_bus (m : lin) (v : N) : lin :=
  mkLin v (lin_id_ m) (lin_len_ m) (lin_crc_ m) (lin_sof_ m) (lin_model_ m) (lin_baud_ m)
    (lin_rbaud_ m) (lin_break_ m) (lin_delim_ m) (lin_data_ m) (lin_spare_ m) (lin_total_ m).
Definition lin_bus (m : lin) : N := lin_bus_ m.

Definition lin_with_id (m : lin) (v : N) : lin :=
  mkLin (lin_bus_ m) v (lin_len_ m) (lin_crc_ m) (lin_sof_ m) (lin_model_ m) (lin_baud_ m)
    (lin_rbaud_ m) (lin_break_ m) (lin_delim_ m) (lin_data_ m) (lin_spare_ m) (lin_total_ m).

(** linmessage.cpp:54-61 LinId. *)
Definition lin_set_id (m : lin) (id : N) : lin :=
  lin_with_id m (mask_set (lin_id_ m) 63 (N.land id 63)).
Definition lin_id (m : lin) : N := N.land (lin_id_ m) 63.

(** linmessage.cpp:63-73 Dir. *)
Definition lin_set_dir (m : lin) (d : bool) : lin :=
  lin_with_id m (if d then w8 (N.lor (lin_id_ m) 128) else N.ldiff (lin_id_ m) 128).
Definition lin_dir (m : lin) : bool := negb (N.land (lin_id_ m) 128 =? 0).

Definition lin_with_len (m : lin) (v : N) : lin :=
  mkLin (lin_bus_ m) (lin_id_ m) v (lin_crc_ m) (lin_sof_ m) (lin_model_ m) (lin_baud_ m)
    (lin_rbaud_ m) (lin_break_ m) (lin_delim_ m) (lin_data_ m) (lin_spare_ m) (lin_total_ m).

(** linmessage.cpp:75-82 ReceivedDataByteCount. *)
Definition lin_set_received (m : lin) (n : N) : lin :=
  lin_with_len m (mask_set (lin_len_ m) 15 (N.land n 15)).
Definition lin_received (m : lin) : N := N.land (lin_len_ m) 15.

(** linmessage.cpp:84-91 DataLength. *)
Definition lin_set_length (m : lin) (n : N) : lin :=
  lin_with_len m (mask_set (lin_len_ m) 240 (N.land (N.shiftl n 4) 240)).
Definition lin_length (m : lin) : N := N.shiftr (N.land (lin_len_ m) 240) 4.

(** linmessage.cpp:411-414 DataBytes. *)
Definition lin_set_data (m : lin) (d : list N) : lin :=
  let m1 := lin_set_length m (w8 (N.of_nat (length d))) in
  mkLin (lin_bus_ m1) (lin_id_ m1) (lin_len_ m1) (lin_crc_ m1) (lin_sof_ m1) (lin_model_ m1)
    (lin_baud_ m1) (lin_rbaud_ m1) (lin_break_ m1) (lin_delim_ m1) d (lin_spare_ m1)
    (lin_total_ m1).
Definition lin_data (m : lin) : list N := lin_data_ m.

(** linmessage.h:73-108 Checksum, StartOfFrame, Baudrate, ResponseBaudrate, BreakLength,
    DelimiterBreakLength, TotalSignalLength and linmessage.cpp:93-99 ChecksumModel. *)
Definition lin_set_crc (m : lin) (v : N) : lin :=
  mkLin (lin_bus_ m) (lin_id_ m) (lin_len_ m) v (lin_sof_ m) (lin_model_ m) (lin_baud_ m)
    (lin_rbaud_ m) (lin_break_ m) (lin_delim_ m) (lin_data_ m) (lin_spare_ m) (lin_total_ m).
Definition lin_set_sof (m : lin) (v : N) : lin :=
  mkLin (lin_bus_ m) (lin_id_ m) (lin_len_ m) (lin_crc_ m) v (lin_model_ m) (lin_baud_ m)
    (lin_rbaud_ m) (lin_break_ m) (lin_delim_ m) (lin_data_ m) (lin_spare_ m) (lin_total_ m).
Definition lin_set_model (m : lin) (v : lin_model) : lin :=
  mkLin (lin_bus_ m) (lin_id_ m) (lin_len_ m) (lin_crc_ m) (lin_sof_ m) v (lin_baud_ m)
    (lin_rbaud_ m) (lin_break_ m) (lin_delim_ m) (lin_data_ m) (lin_spare_ m) (lin_total_ m).
Definition lin_set_baud (m : lin) (v : N) : lin :=
  mkLin (lin_bus_ m) (lin_id_ m) (lin_len_ m) (lin_crc_ m) (lin_sof_ m) (lin_model_ m) v
    (lin_rbaud_ m) (lin_break_ m) (lin_delim_ m) (lin_data_ m) (lin_spare_ m) (lin_total_ m).
Definition lin_set_rbaud (m : lin) (v : N) : lin :=
  mkLin (lin_bus_ m) (lin_id_ m) (lin_len_ m) (lin_crc_ m) (lin_sof_ m) (lin_model_ m) (lin_baud_ m)
    v (lin_break_ m) (lin_delim_ m) (lin_data_ m) (lin_spare_ m) (lin_total_ m).
Definition lin_set_break (m : lin) (v : N) : lin :=
  mkLin (lin_bus_ m) (lin_id_ m) (lin_len_ m) (lin_crc_ m) (lin_sof_ m) (lin_model_ m) (lin_baud_ m)
    (lin_rbaud_ m) v (lin_delim_ m) (lin_data_ m) (lin_spare_ m) (lin_total_ m).
Definition lin_set_delim (m : lin) (v : N) : lin :=
  mkLin (lin_bus_ m) (lin_id_ m) (lin_len_ m) (lin_crc_ m) (lin_sof_ m) (lin_model_ m) (lin_baud_ m)
    (lin_rbaud_ m) (lin_break_ m) v (lin_data_ m) (lin_spare_ m) (lin_total_ m).
Definition lin_set_total (m : lin) (v : N) : lin :=
  mkLin (lin_bus_ m) (lin_id_ m) (lin_len_ m) (lin_crc_ m) (lin_sof_ m) (lin_model_ m) (lin_baud_ m)
    (lin_rbaud_ m) (lin_break_ m) (lin_delim_ m) (lin_data_ m) (lin_spare_ m) v.

Definition lin_with_spare (m : lin) (v : N) : lin :=
  mkLin (lin_bus_ m) (lin_id_ m) (lin_len_ m) (lin_crc_ m) (lin_sof_ m) (lin_model_ m) (lin_baud_ m)
    (lin_rbaud_ m) (lin_break_ m) (lin_delim_ m) (lin_data_ m) v (lin_total_ m).

(** linmessage.cpp:391-398 ExpectedDataByteCount. *)
Definition lin_set_expected (m : lin) (n : N) : lin :=
  lin_with_spare m (mask_set (lin_spare_ m) 15 (N.land n 15)).
Definition lin_expected (m : lin) : N := N.land (lin_spare_ m) 15.

(** linmessage.cpp:400-409 TypeOfLongDominantSignal; the result as its number. *)
Definition lin_set_dominant (m : lin) (t : lin_dominant) : lin :=
  lin_with_spare m (mask_set (lin_spare_ m) 48 (N.shiftl (dominant_n t) 4)).
Definition lin_dominant_n (m : lin) : N := N.shiftr (N.land (lin_spare_ m) 48) 4.

(** linmessage.cpp:101-116 Reset. *)
Definition lin_reset (m : lin) : lin := lin_new.

(* ------------------------------------------------------------------ *)
(** ** ToRaw *)

(** linmessage.cpp:23-35 FillDataBytes: uint16_t size, at most 8 bytes, padded with 0xFF. *)
Definition fill_data (off : nat) (d : list N) : stmt :=
  let n := Nat.min (N.to_nat (w16 (N.of_nat (length d)))) 8 in
  fun rec => bind (copy_at off (firstn n d) rec) (copy_at (off + n) (repeat 255 (8 - n))).

(** static_cast<int8_t>(ChecksumModel()) & 0x03. *)
Definition model_bits (m : lin) : N := Z.to_N (Z.land (model_z (lin_model_ m)) 3).

(** linmessage.cpp:158-199 MakeDataFrame. *)
Definition lin_data_frame (mand : bool) (m : lin) : list stmt :=
  [ do_resize (if mand then 19 else 45);
    poke 8 (lin_bus m);
    poke 9 (N.land (lin_id m) 63);
    poke_or 9 (N.shiftl (b2n (lin_dir m)) 6);
    poke 10 (lin_received m);
    poke_or 10 (N.shiftl (N.land (lin_length m) 15) 4);
    fill_data 11 (lin_data_ m) ]
  ++ (if mand then [] else
  [ poke 19 (lin_crc_ m);
    poke 20 (model_bits m);
    copy_num 21 8 (lin_sof_ m);
    copy_num 29 4 (lin_baud_ m);
    copy_num 33 4 (lin_rbaud_ m);
    copy_num 37 4 (lin_break_ m);
    copy_num 41 4 (lin_delim_ m) ]).

(** linmessage.cpp:201-214 MakeWakeUp. *)
Definition lin_wake_up (m : lin) : list stmt :=
  [ do_resize 21;
    poke 8 (lin_bus m);
    copy_num 9 4 (lin_baud_ m);
    copy_num 13 8 (lin_sof_ m) ].

(** linmessage.cpp:216-256 MakeChecksumError. *)
Definition lin_checksum_error (mand : bool) (m : lin) : list stmt :=
  [ do_resize (if mand then 10 else 45);
    poke 8 (lin_bus m);
    poke 9 (N.land (lin_id m) 63) ]
  ++ (if mand then [] else
  [ poke_or 9 (N.shiftl (b2n (lin_dir m)) 6);
    poke 10 (lin_received m);
    poke_or 10 (N.shiftl (N.land (lin_length m) 15) 4);
    fill_data 11 (lin_data_ m);
    poke 19 (lin_crc_ m);
    poke 20 (model_bits m);
    copy_num 21 8 (lin_sof_ m);
    copy_num 29 4 (lin_baud_ m);
    copy_num 33 4 (lin_rbaud_ m);
    copy_num 37 4 (lin_break_ m);
    copy_num 41 4 (lin_delim_ m) ]).

(** linmessage.cpp:258-290 MakeTransmissionError. *)
Definition lin_transmission_error (mand : bool) (m : lin) : list stmt :=
  [ do_resize (if mand then 10 else 31);
    poke 8 (lin_bus m);
    poke 9 (N.land (lin_id_ m) 63) ]
  ++ (if mand then [] else
  [ poke 10 (N.land (lin_expected m) 15);
    poke_or 10 (N.shiftl (model_bits m) 4);
    copy_num 11 8 (lin_sof_ m);
    copy_num 19 4 (lin_baud_ m);
    copy_num 23 4 (lin_break_ m);
    copy_num 27 4 (lin_delim_ m) ]).

(** linmessage.cpp:292-314 MakeSyncError. *)
Definition lin_sync_error (m : lin) : list stmt :=
  [ do_resize 29;
    poke 8 (lin_bus m);
    copy_num 9 8 (lin_sof_ m);
    copy_num 17 4 (lin_baud_ m);
    copy_num 21 4 (lin_break_ m);
    copy_num 25 4 (lin_delim_ m) ].

(** linmessage.cpp:316-350 MakeReceiveError. *)
Definition lin_receive_error (m : lin) : list stmt :=
  [ do_resize 44;
    poke 8 (lin_bus m);
    poke 9 (N.land (lin_id m) 63);
    poke 10 (N.land (lin_received m) 15);
    poke_or 10 (N.shiftl (N.land (lin_expected m) 15) 4);
    poke 11 (N.land (lin_length m) 15);
    poke_or 11 (N.shiftl (model_bits m) 4);
    fill_data 12 (lin_data_ m);
    copy_num 20 8 (lin_sof_ m);
    copy_num 28 4 (lin_baud_ m);
    copy_num 32 4 (lin_rbaud_ m);
    copy_num 36 4 (lin_break_ m);
    copy_num 40 4 (lin_delim_ m) ].

(** linmessage.cpp:352-368 MakeSpike. *)
Definition lin_spike (m : lin) : list stmt :=
  [ do_resize 21;
    poke 8 (lin_bus m);
    copy_num 9 4 (lin_baud_ m);
    copy_num 13 8 (lin_sof_ m) ].

(** linmessage.cpp:370-389 MakeLongDominantSignal. *)
Definition lin_long_dominant (m : lin) : list stmt :=
  [ do_resize 26;
    poke 8 (lin_bus m);
    copy_num 9 4 (lin_baud_ m);
    copy_num 13 8 (lin_sof_ m);
    copy_num 21 4 (lin_total_ m);
    poke 25 (lin_dominant_n m) ].

(** linmessage.cpp:118-156 ToRaw; [mand] is MandatoryMembersOnly() of the data group. *)
Definition lin_to_raw (t : lin_type) (mand : bool) (m : lin) (rec : list N) : res raw :=
  plain (run match t with
             | LinFrame => lin_data_frame mand m
             | LinWakeUp => lin_wake_up m
             | LinChecksumError => lin_checksum_error mand m
             | LinTransmissionError => lin_transmission_error mand m
             | LinSyncError => lin_sync_error m
             | LinReceiveError => lin_receive_error m
             | LinSpike => lin_spike m
             | LinLongDominant => lin_long_dominant m
             end rec).

(* ------------------------------------------------------------------ *)
(** ** The channels of the LIN configuration *)

(** The properties of a LIN message that have a channel. *)
Inductive lin_field : Type :=
| LfBus | LfId | LfDir | LfReceived | LfLength | LfData | LfCrc | LfModel | LfSof | LfBaud
| LfRespBaud | LfBreak | LfDelim | LfExpected | LfTotal | LfDominant.

(** linconfigadapter.cpp:108-188 CreateFrameChannels. *)
Definition lin_frame_channels (mand : bool) : list (lin_field * chan) :=
  [ (LfBus, bus_channel); (LfId, bits_channel 9 0 6); (LfDir, bit_channel 9 7);
    (LfReceived, bits_channel 10 0 4); (LfLength, bits_channel 10 4 4);
    (LfData, mlsd_channel 11 8) ]
  ++ (if mand then [] else
  [ (LfCrc, bits_channel 19 0 8); (LfModel, signed_channel 20 0 2);
    (LfSof, bits_channel 21 0 64); (LfBaud, float_channel 29 0 32);
    (LfRespBaud, float_channel 33 0 32); (LfBreak, bits_channel 37 0 32);
    (LfDelim, bits_channel 41 0 32) ]).

(** linconfigadapter.cpp:190-271 CreateChecksumErrorChannels. *)
Definition lin_checksum_channels (mand : bool) : list (lin_field * chan) :=
  [ (LfBus, bus_channel); (LfId, bits_channel 9 0 6); (LfDir, bit_channel 9 7) ]
  ++ (if mand then [] else
  [ (LfReceived, bits_channel 10 0 4); (LfLength, bits_channel 10 4 4);
    (LfData, mlsd_channel 11 8);
    (LfCrc, bits_channel 19 0 8); (LfModel, signed_channel 20 0 2);
    (LfSof, bits_channel 21 0 64); (LfBaud, float_channel 29 0 32);
    (LfRespBaud, float_channel 33 0 32); (LfBreak, bits_channel 37 0 32);
    (LfDelim, bits_channel 41 0 32) ]).

(** linconfigadapter.cpp:273-350 CreateReceiveErrorChannels. *)
Definition lin_receive_channels : list (lin_field * chan) :=
  [ (LfBus, bus_channel); (LfId, bits_channel 9 0 6); (LfExpected, bits_channel 10 4 4);
    (LfReceived, bits_channel 10 0 4); (LfLength, bits_channel 11 0 4);
    (LfData, mlsd_channel 12 8); (LfModel, signed_channel 9 6 2);
    (LfSof, bits_channel 20 0 64); (LfBaud, float_channel 28 0 32);
    (LfRespBaud, float_channel 32 0 32); (LfBreak, bits_channel 36 0 32);
    (LfDelim, bits_channel 40 0 32) ].

(** linconfigadapter.cpp:352-386 CreateSyncChannels. *)
Definition lin_sync_channels : list (lin_field * chan) :=
  [ (LfBus, bus_channel); (LfSof, bits_channel 9 0 64); (LfBaud, float_channel 17 0 32);
    (LfBreak, bits_channel 21 0 32); (LfDelim, bits_channel 25 0 32) ].

(** linconfigadapter.cpp:388-415 CreateWakeUpChannels and 471-498 CreateSpikeChannels: the start of
    frame channel is 8 bits wide. *)
Definition lin_wake_up_channels : list (lin_field * chan) :=
  [ (LfBus, bus_channel); (LfBaud, float_channel 9 0 32); (LfSof, bits_channel 13 0 8) ].
Definition lin_spike_channels : list (lin_field * chan) :=
  [ (LfBus, bus_channel); (LfBaud, float_channel 9 0 32); (LfSof, bits_channel 13 0 8) ].

(** linconfigadapter.cpp:417-469 CreateTransmissionErrorChannels. *)
Definition lin_transmission_channels (mand : bool) : list (lin_field * chan) :=
  [ (LfBus, bus_channel); (LfId, bits_channel 9 0 6) ]
  ++ (if mand then [] else
  [ (LfExpected, bits_channel 10 0 4); (LfModel, signed_channel 10 4 2);
    (LfSof, bits_channel 11 0 64); (LfBaud, float_channel 19 0 32);
    (LfBreak, bits_channel 23 0 32); (LfDelim, bits_channel 27 0 32) ]).

(** linconfigadapter.cpp:500-534 CreateLongDominantChannels. *)
Definition lin_dominant_channels : list (lin_field * chan) :=
  [ (LfBus, bus_channel); (LfBaud, float_channel 9 0 32); (LfSof, bits_channel 13 0 64);
    (LfTotal, bits_channel 21 0 32); (LfDominant, bits_channel 25 0 2) ].

(** linconfigadapter.cpp:20-106 CreateConfig: one channel group per message type. *)
Definition lin_channels (t : lin_type) (mand : bool) : list (lin_field * chan) :=
  match t with
  | LinFrame => lin_frame_channels mand
  | LinWakeUp => lin_wake_up_channels
  | LinChecksumError => lin_checksum_channels mand
  | LinTransmissionError => lin_transmission_channels mand
  | LinSyncError => lin_sync_channels
  | LinReceiveError => lin_receive_channels
  | LinSpike => lin_spike_channels
  | LinLongDominant => lin_dominant_channels
  end.
