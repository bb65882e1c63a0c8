(** Model of mdflib/src/ethmessage.cpp, include/mdf/ethmessage.h and the channels created by
    mdflib/src/ethconfigadapter.cpp. *)
From Verif Require Import Base ChannelModel BusModel.
Local Open Scope N_scope.

(** ethmessage.h:21-26 EthMessageType and 28-31 EthErrorType. *)
Inductive eth_type : Type := EthFrame | EthChecksumError | EthLengthError | EthReceiveError.
Inductive eth_error : Type := ErrUnknown | ErrCollision.
Definition error_n (e : eth_error) : N := match e with ErrUnknown => 0 | ErrCollision => 1 end.

(** The members of EthMessage, ethmessage.h:128-139. *)
Record eth : Type := mkEth {
  eth_bus_ : N;         (* bus_channel_, uint8_t *)
  eth_dir_ : bool;      (* dir_ *)
  eth_err_ : eth_error; (* error_type_ *)
  eth_src_ : list N;    (* source_, 6 bytes *)
  eth_dst_ : list N;    (* destination_, 6 bytes *)
  eth_kind_ : N;        (* eth_type_, uint16_t *)
  eth_recv_ : N;        (* received_data_byte_count_, uint16_t *)
  eth_len_ : N;         (* data_length_, uint16_t *)
  eth_data_ : list N;   (* data_bytes_ *)
  eth_crc_ : N;         (* crc_, uint32_t *)
  eth_exp_ : N;         (* expected_crc_, uint32_t *)
  eth_pad_ : N          (* padding_byte_count_, uint16_t *)
}.

(** The initial values of ethmessage.h:128-139. *)
Definition eth_new : eth :=
  mkEth 0 false ErrUnknown (repeat 0 6) (repeat 0 6) 0x0800 0 0 [] 0 0 0.

(** The setters, ethmessage.h:43-113, and ethmessage.cpp:20-23 DataBytes. *)
Definition eth_set_bus (m : eth) (v : N) : eth :=
  mkEth v (eth_dir_ m) (eth_err_ m) (eth_src_ m) (eth_dst_ m) (eth_kind_ m) (eth_recv_ m)
    (eth_len_ m) (eth_data_ m) (eth_crc_ m) (eth_exp_ m) (eth_pad_ m).
Definition eth_set_dir (m : eth) (v : bool) : eth :=
  mkEth (eth_bus_ m) v (eth_err_ m) (eth_src_ m) (eth_dst_ m) (eth_kind_ m) (eth_recv_ m)
    (eth_len_ m) (eth_data_ m) (eth_crc_ m) (eth_exp_ m) (eth_pad_ m).
Definition eth_set_err (m : eth) (v : eth_error) : eth :=
  mkEth (eth_bus_ m) (eth_dir_ m) v (eth_src_ m) (eth_dst_ m) (eth_kind_ m) (eth_recv_ m)
    (eth_len_ m) (eth_data_ m) (eth_crc_ m) (eth_exp_ m) (eth_pad_ m).
Definition eth_set_src (m : eth) (v : list N) : eth :=
  mkEth (eth_bus_ m) (eth_dir_ m) (eth_err_ m) v (eth_dst_ m) (eth_kind_ m) (eth_recv_ m)
    (eth_len_ m) (eth_data_ m) (eth_crc_ m) (eth_exp_ m) (eth_pad_ m).
Definition eth_set_dst (m : eth) (v : list N) : eth :=
  mkEth (eth_bus_ m) (eth_dir_ m) (eth_err_ m) (eth_src_ m) v (eth_kind_ m) (eth_recv_ m)
    (eth_len_ m) (eth_data_ m) (eth_crc_ m) (eth_exp_ m) (eth_pad_ m).
Definition eth_set_kind (m : eth) (v : N) : eth :=
  mkEth (eth_bus_ m) (eth_dir_ m) (eth_err_ m) (eth_src_ m) (eth_dst_ m) v (eth_recv_ m)
    (eth_len_ m) (eth_data_ m) (eth_crc_ m) (eth_exp_ m) (eth_pad_ m).
Definition eth_set_recv (m : eth) (v : N) : eth :=
  mkEth (eth_bus_ m) (eth_dir_ m) (eth_err_ m) (eth_src_ m) (eth_dst_ m) (eth_kind_ m) v
    (eth_len_ m) (eth_data_ m) (eth_crc_ m) (eth_exp_ m) (eth_pad_ m).
Definition eth_set_len (m : eth) (v : N) : eth :=
  mkEth (eth_bus_ m) (eth_dir_ m) (eth_err_ m) (eth_src_ m) (eth_dst_ m) (eth_kind_ m) (eth_recv_ m)
    v (eth_data_ m) (eth_crc_ m) (eth_exp_ m) (eth_pad_ m).
Definition eth_set_data (m : eth) (v : list N) : eth :=
  mkEth (eth_bus_ m) (eth_dir_ m) (eth_err_ m) (eth_src_ m) (eth_dst_ m) (eth_kind_ m) (eth_recv_ m)
    (w16 (N.of_nat (length v))) v (eth_crc_ m) (eth_exp_ m) (eth_pad_ m).
Definition eth_set_crc (m : eth) (v : N) : eth :=
  mkEth (eth_bus_ m) (eth_dir_ m) (eth_err_ m) (eth_src_ m) (eth_dst_ m) (eth_kind_ m) (eth_recv_ m)
    (eth_len_ m) (eth_data_ m) v (eth_exp_ m) (eth_pad_ m).
Definition eth_set_exp (m : eth) (v : N) : eth :=
  mkEth (eth_bus_ m) (eth_dir_ m) (eth_err_ m) (eth_src_ m) (eth_dst_ m) (eth_kind_ m) (eth_recv_ m)
    (eth_len_ m) (eth_data_ m) (eth_crc_ m) v (eth_pad_ m).
Definition eth_set_pad (m : eth) (v : N) : eth :=
  mkEth (eth_bus_ m) (eth_dir_ m) (eth_err_ m) (eth_src_ m) (eth_dst_ m) (eth_kind_ m) (eth_recv_ m)
    (eth_len_ m) (eth_data_ m) (eth_crc_ m) (eth_exp_ m) v.

(** ethmessage.cpp:25-38 Reset: the direction and the error type are left as they are. *)
Definition eth_reset (m : eth) : eth :=
  mkEth 0 (eth_dir_ m) (eth_err_ m) (repeat 0 6) (repeat 0 6) 0x0800 0 0 [] 0 0 0.

(* ------------------------------------------------------------------ *)
(** ** ToRaw *)

(** ethmessage.cpp:64-111 MakeDataFrame. *)
Definition eth_frame (mand : bool) (m : eth) : list stmt :=
  [ do_resize (if mand then 35 else 42);
    poke 8 (eth_bus_ m);
    copy_at 9 (eth_src_ m);
    copy_at 15 (eth_dst_ m);
    copy_num 21 2 (eth_kind_ m);
    copy_num 23 2 (eth_recv_ m);
    copy_num 25 2 (eth_len_ m) ]
  ++ (if mand then [ copy_num 27 8 0 ] else
  [ copy_num 27 4 (eth_crc_ m);
    poke 31 (b2n (eth_dir_ m));
    copy_num 32 2 (eth_pad_ m);
    copy_num 34 8 0 ]).

(** ethmessage.cpp:113-162 MakeChecksumError. *)
Definition eth_checksum_error (mand : bool) (m : eth) : list stmt :=
  [ do_resize (if mand then 33 else 46);
    poke 8 (eth_bus_ m);
    copy_at 9 (eth_src_ m);
    copy_at 15 (eth_dst_ m);
    copy_num 21 2 (eth_kind_ m);
    copy_num 23 2 (eth_len_ m);
    copy_num 25 4 (eth_crc_ m);
    copy_num 29 4 (eth_exp_ m) ]
  ++ (if mand then [] else
  [ copy_num 33 2 (eth_recv_ m);
    poke 35 (b2n (eth_dir_ m));
    copy_num 36 2 (eth_pad_ m);
    copy_num 38 8 0 ]).

(** ethmessage.cpp:164-210 MakeLengthError. *)
Definition eth_length_error (mand : bool) (m : eth) : list stmt :=
  [ do_resize (if mand then 25 else 42);
    poke 8 (eth_bus_ m);
    copy_at 9 (eth_src_ m);
    copy_at 15 (eth_dst_ m);
    copy_num 21 2 (eth_kind_ m);
    copy_num 23 2 (eth_recv_ m) ]
  ++ (if mand then [] else
  [ copy_num 25 2 (eth_len_ m);
    copy_num 27 4 (eth_crc_ m);
    poke 31 (b2n (eth_dir_ m));
    copy_num 32 2 (eth_pad_ m);
    copy_num 34 8 0 ]).

(** ethmessage.cpp:212-259 MakeReceiveError. *)
Definition eth_receive_error (mand : bool) (m : eth) : list stmt :=
  [ do_resize (if mand then 25 else 42);
    poke 8 (eth_bus_ m);
    copy_at 9 (eth_src_ m);
    copy_at 15 (eth_dst_ m);
    copy_num 21 2 (eth_kind_ m);
    copy_num 23 2 (eth_recv_ m) ]
  ++ (if mand then [] else
  [ copy_num 25 2 (eth_len_ m);
    copy_num 27 4 (eth_crc_ m);
    poke 31 (b2n (eth_dir_ m));
    poke_or 31 (N.shiftl (error_n (eth_err_ m)) 1);
    copy_num 32 2 (eth_pad_ m);
    copy_num 34 8 0 ]).

(** ethmessage.cpp:40-62 ToRaw; [mand] is MandatoryMembersOnly() of the data group. Error messages
    with mandatory members only have no data bytes (lines 139-144, 184-189, 232-237). *)
Definition eth_to_raw (t : eth_type) (mand : bool) (m : eth) (rec : list N) : res raw :=
  match t with
  | EthFrame => with_data (eth_data_ m) (run (eth_frame mand m) rec)
  | EthChecksumError =>
      if mand then plain (run (eth_checksum_error mand m) rec)
      else with_data (eth_data_ m) (run (eth_checksum_error mand m) rec)
  | EthLengthError =>
      if mand then plain (run (eth_length_error mand m) rec)
      else with_data (eth_data_ m) (run (eth_length_error mand m) rec)
  | EthReceiveError =>
      if mand then plain (run (eth_receive_error mand m) rec)
      else with_data (eth_data_ m) (run (eth_receive_error mand m) rec)
  end.

(* ------------------------------------------------------------------ *)
(** ** The channels of the Ethernet configuration *)

(** The properties of an Ethernet message that have a channel. *)
Inductive eth_field : Type :=
| EfBus | EfSource | EfDestination | EfType | EfReceived | EfLength | EfData | EfCrc | EfExpected
| EfDir | EfError | EfPad.

(** ethconfigadapter.cpp:16-44 CreateSource and CreateDestination. *)
Definition eth_source_channel : chan := bytes_channel 9 6.
Definition eth_destination_channel : chan := bytes_channel 15 6.

(** ethconfigadapter.cpp:169-210 CreateFrameChannels. *)
Definition eth_frame_channels (mand : bool) : list (eth_field * chan) :=
  [ (EfBus, bus_channel); (EfSource, eth_source_channel); (EfDestination, eth_destination_channel);
    (EfType, bits_channel 21 0 16); (EfReceived, bits_channel 23 0 16);
    (EfLength, bits_channel 25 0 16) ]
  ++ (if mand then [ (EfData, vlsd_channel 27) ] else
  [ (EfCrc, bits_channel 27 0 32); (EfDir, bit_channel 31 0); (EfPad, bits_channel 32 0 16);
    (EfData, vlsd_channel 34) ]).

(** ethconfigadapter.cpp:212-254 CreateChecksumErrorChannels. *)
Definition eth_checksum_channels (mand : bool) : list (eth_field * chan) :=
  [ (EfBus, bus_channel); (EfSource, eth_source_channel); (EfDestination, eth_destination_channel);
    (EfType, bits_channel 21 0 16); (EfLength, bits_channel 23 0 16);
    (EfCrc, bits_channel 25 0 32); (EfExpected, bits_channel 29 0 32) ]
  ++ (if mand then [] else
  [ (EfReceived, bits_channel 33 0 16); (EfDir, bit_channel 35 0); (EfPad, bits_channel 36 0 16);
    (EfData, vlsd_channel 38) ]).

(** ethconfigadapter.cpp:256-296 CreateLengthErrorChannels. *)
Definition eth_length_channels (mand : bool) : list (eth_field * chan) :=
  [ (EfBus, bus_channel); (EfSource, eth_source_channel); (EfDestination, eth_destination_channel);
    (EfType, bits_channel 21 0 16); (EfReceived, bits_channel 23 0 16) ]
  ++ (if mand then [] else
  [ (EfLength, bits_channel 25 0 16); (EfCrc, bits_channel 27 0 32); (EfDir, bit_channel 31 0);
    (EfPad, bits_channel 32 0 16); (EfData, vlsd_channel 34) ]).

(** ethconfigadapter.cpp:298-340 CreateReceiveErrorChannels. *)
Definition eth_receive_channels (mand : bool) : list (eth_field * chan) :=
  [ (EfBus, bus_channel); (EfSource, eth_source_channel); (EfDestination, eth_destination_channel);
    (EfType, bits_channel 21 0 16); (EfReceived, bits_channel 23 0 16) ]
  ++ (if mand then [] else
  [ (EfLength, bits_channel 25 0 16); (EfCrc, bits_channel 27 0 32); (EfDir, bit_channel 31 0);
    (EfError, bit_channel 31 1); (EfPad, bits_channel 32 0 16); (EfData, vlsd_channel 34) ]).

(** ethconfigadapter.cpp:70-167 CreateConfig: one channel group per message type. The variable
    length data go to a group of their own or to SD blocks, as the storage type says; the channel
    is the same. *)
Definition eth_channels (t : eth_type) (mand : bool) : list (eth_field * chan) :=
  match t with
  | EthFrame => eth_frame_channels mand
  | EthChecksumError => eth_checksum_channels mand
  | EthLengthError => eth_length_channels mand
  | EthReceiveError => eth_receive_channels mand
  end.
