(** Model of mdflib/src/mostmessage.cpp, include/mdf/mostmessage.h and the channels created by
    mdflib/src/mostconfigadapter.cpp. *)
From Verif Require Import Base ChannelModel BusModel.
Local Open Scope N_scope.

(** mostmessage.h:19-29 MostMessageType. *)
Inductive most_type : Type :=
| MostMessage | MostPacket | MostEthernetPacket | MostSignalState | MostMaxPosInfo | MostBoundDesc
| MostAllocTable | MostSysLockState | MostShutdownFlag.

(** The members of IMostEvent and its derived classes, mostmessage.h:115-303, in one record: an
    object has only the members of its class, the other ones keep their initial value. *)
Record most : Type := mkMost {
  most_bus_ : N; (* bus_channel_, uint8_t *)
  most_speed_ : N; (* speed_, 0..2 *)
  most_node_ : bool; (* transfer_type_, true for Node *)
  most_tx_ : bool; (* direction_, true for Tx *)
  most_src_ : N; (* source_, uint64_t *)
  most_dst_ : N; (* destination_, uint64_t *)
  most_spec_ : N; (* specified_nof_bytes_, uint16_t *)
  most_recv_ : N; (* received_nof_bytes_, uint16_t *)
  most_data_ : list N; (* data_bytes_ *)
  most_crc_ : N; (* crc_, uint32_t *)
  most_cack_ : N; (* complete_ack_, 0, 1 or 4 *)
  most_pack_ : N; (* preemptive_ack_, 0, 1 or 4 *)
  most_txack_ : N; (* tx_ack_, uint8_t, the enumerators are below 16 *)
  most_pindex_ : N; (* packet_index_, uint8_t *)
  most_failed_ : bool; (* tx_failed_ *)
  most_ctype_ : N; (* control_message_type_, 0..5 *)
  most_state_ : N; (* state_, uint8_t *)
  most_device_ : N; (* device_count_, uint8_t *)
  most_bound_ : N; (* boundary_count_, uint16_t *)
  most_free_ : N; (* free_byte_count_, uint16_t *)
  most_layout_ : N; (* layout_, 0 or 1 *)
  most_table_ : list N; (* table_data_ *)
  most_closed_ : bool; (* ring_is_closed_ *)
  most_shutdown_ : bool (* shutdown_flag_ *)
}.

(** A new message, the initial values of the members. *)
Definition most_new : most :=
  mkMost
    0 0 false false 0 0 0 0 [] 0 4 4 0 0 false 0 0 0 0 0 0 [] false false.

(** mostmessage.cpp:21-30 DataBytes: the byte counts are raised to the number of bytes; the
    comparison has 32 bits and the assignment cuts to 16. *)
Definition most_set_data (m : most) (v : list N) : most :=
  let n := w32 (N.of_nat (length v)) in
  let spec := if most_spec_ m <? n then w16 n else most_spec_ m in
  let recv := if most_recv_ m <? n then w16 n else most_recv_ m in
  mkMost
    (most_bus_ m) (most_speed_ m) (most_node_ m) (most_tx_ m) (most_src_ m) (most_dst_ m) spec
    recv v (most_crc_ m) (most_cack_ m) (most_pack_ m) (most_txack_ m) (most_pindex_ m)
    (most_failed_ m) (most_ctype_ m) (most_state_ m) (most_device_ m) (most_bound_ m)
    (most_free_ m) (most_layout_ m) (most_table_ m) (most_closed_ m) (most_shutdown_ m).

(** The setter calls of mostmessage.h. *)
Inductive most_op : Type :=
| MoBus (v : N)
| MoSpeed (v : N)
| MoNode (v : bool)
| MoTx (v : bool)
| MoSrc (v : N)
| MoDst (v : N)
| MoSpec (v : N)
| MoRecv (v : N)
| MoData (v : list N)
| MoCrc (v : N)
| MoCack (v : N)
| MoPack (v : N)
| MoTxack (v : N)
| MoPindex (v : N)
| MoFailed (v : bool)
| MoCtype (v : N)
| MoState (v : N)
| MoDevice (v : N)
| MoBound (v : N)
| MoFree (v : N)
| MoLayout (v : N)
| MoTable (v : list N)
| MoClosed (v : bool)
| MoShutdown (v : bool).

(** Each setter but DataBytes assigns one member. *)
Definition most_apply (m : most) (o : most_op) : most :=
  match o with
  | MoBus v => mkMost
    v (most_speed_ m) (most_node_ m) (most_tx_ m) (most_src_ m) (most_dst_ m) (most_spec_ m)
    (most_recv_ m) (most_data_ m) (most_crc_ m) (most_cack_ m) (most_pack_ m) (most_txack_ m)
    (most_pindex_ m) (most_failed_ m) (most_ctype_ m) (most_state_ m) (most_device_ m)
    (most_bound_ m) (most_free_ m) (most_layout_ m) (most_table_ m) (most_closed_ m)
    (most_shutdown_ m)
  | MoSpeed v => mkMost
    (most_bus_ m) v (most_node_ m) (most_tx_ m) (most_src_ m) (most_dst_ m) (most_spec_ m)
    (most_recv_ m) (most_data_ m) (most_crc_ m) (most_cack_ m) (most_pack_ m) (most_txack_ m)
    (most_pindex_ m) (most_failed_ m) (most_ctype_ m) (most_state_ m) (most_device_ m)
    (most_bound_ m) (most_free_ m) (most_layout_ m) (most_table_ m) (most_closed_ m)
    (most_shutdown_ m)
  | MoNode v => mkMost
    (most_bus_ m) (most_speed_ m) v (most_tx_ m) (most_src_ m) (most_dst_ m) (most_spec_ m)
    (most_recv_ m) (most_data_ m) (most_crc_ m) (most_cack_ m) (most_pack_ m) (most_txack_ m)
    (most_pindex_ m) (most_failed_ m) (most_ctype_ m) (most_state_ m) (most_device_ m)
    (most_bound_ m) (most_free_ m) (most_layout_ m) (most_table_ m) (most_closed_ m)
    (most_shutdown_ m)
  | MoTx v => mkMost
    (most_bus_ m) (most_speed_ m) (most_node_ m) v (most_src_ m) (most_dst_ m) (most_spec_ m)
    (most_recv_ m) (most_data_ m) (most_crc_ m) (most_cack_ m) (most_pack_ m) (most_txack_ m)
    (most_pindex_ m) (most_failed_ m) (most_ctype_ m) (most_state_ m) (most_device_ m)
    (most_bound_ m) (most_free_ m) (most_layout_ m) (most_table_ m) (most_closed_ m)
    (most_shutdown_ m)
  | MoSrc v => mkMost
    (most_bus_ m) (most_speed_ m) (most_node_ m) (most_tx_ m) v (most_dst_ m) (most_spec_ m)
    (most_recv_ m) (most_data_ m) (most_crc_ m) (most_cack_ m) (most_pack_ m) (most_txack_ m)
    (most_pindex_ m) (most_failed_ m) (most_ctype_ m) (most_state_ m) (most_device_ m)
    (most_bound_ m) (most_free_ m) (most_layout_ m) (most_table_ m) (most_closed_ m)
    (most_shutdown_ m)
  | MoDst v => mkMost
    (most_bus_ m) (most_speed_ m) (most_node_ m) (most_tx_ m) (most_src_ m) v (most_spec_ m)
    (most_recv_ m) (most_data_ m) (most_crc_ m) (most_cack_ m) (most_pack_ m) (most_txack_ m)
    (most_pindex_ m) (most_failed_ m) (most_ctype_ m) (most_state_ m) (most_device_ m)
    (most_bound_ m) (most_free_ m) (most_layout_ m) (most_table_ m) (most_closed_ m)
    (most_shutdown_ m)
  | MoSpec v => mkMost
    (most_bus_ m) (most_speed_ m) (most_node_ m) (most_tx_ m) (most_src_ m) (most_dst_ m) v
    (most_recv_ m) (most_data_ m) (most_crc_ m) (most_cack_ m) (most_pack_ m) (most_txack_ m)
    (most_pindex_ m) (most_failed_ m) (most_ctype_ m) (most_state_ m) (most_device_ m)
    (most_bound_ m) (most_free_ m) (most_layout_ m) (most_table_ m) (most_closed_ m)
    (most_shutdown_ m)
  | MoRecv v => mkMost
    (most_bus_ m) (most_speed_ m) (most_node_ m) (most_tx_ m) (most_src_ m) (most_dst_ m)
    (most_spec_ m) v (most_data_ m) (most_crc_ m) (most_cack_ m) (most_pack_ m) (most_txack_ m)
    (most_pindex_ m) (most_failed_ m) (most_ctype_ m) (most_state_ m) (most_device_ m)
    (most_bound_ m) (most_free_ m) (most_layout_ m) (most_table_ m) (most_closed_ m)
    (most_shutdown_ m)
  | MoData v => most_set_data m v
  | MoCrc v => mkMost
    (most_bus_ m) (most_speed_ m) (most_node_ m) (most_tx_ m) (most_src_ m) (most_dst_ m)
    (most_spec_ m) (most_recv_ m) (most_data_ m) v (most_cack_ m) (most_pack_ m) (most_txack_ m)
    (most_pindex_ m) (most_failed_ m) (most_ctype_ m) (most_state_ m) (most_device_ m)
    (most_bound_ m) (most_free_ m) (most_layout_ m) (most_table_ m) (most_closed_ m)
    (most_shutdown_ m)
  | MoCack v => mkMost
    (most_bus_ m) (most_speed_ m) (most_node_ m) (most_tx_ m) (most_src_ m) (most_dst_ m)
    (most_spec_ m) (most_recv_ m) (most_data_ m) (most_crc_ m) v (most_pack_ m) (most_txack_ m)
    (most_pindex_ m) (most_failed_ m) (most_ctype_ m) (most_state_ m) (most_device_ m)
    (most_bound_ m) (most_free_ m) (most_layout_ m) (most_table_ m) (most_closed_ m)
    (most_shutdown_ m)
  | MoPack v => mkMost
    (most_bus_ m) (most_speed_ m) (most_node_ m) (most_tx_ m) (most_src_ m) (most_dst_ m)
    (most_spec_ m) (most_recv_ m) (most_data_ m) (most_crc_ m) (most_cack_ m) v (most_txack_ m)
    (most_pindex_ m) (most_failed_ m) (most_ctype_ m) (most_state_ m) (most_device_ m)
    (most_bound_ m) (most_free_ m) (most_layout_ m) (most_table_ m) (most_closed_ m)
    (most_shutdown_ m)
  | MoTxack v => mkMost
    (most_bus_ m) (most_speed_ m) (most_node_ m) (most_tx_ m) (most_src_ m) (most_dst_ m)
    (most_spec_ m) (most_recv_ m) (most_data_ m) (most_crc_ m) (most_cack_ m) (most_pack_ m) v
    (most_pindex_ m) (most_failed_ m) (most_ctype_ m) (most_state_ m) (most_device_ m)
    (most_bound_ m) (most_free_ m) (most_layout_ m) (most_table_ m) (most_closed_ m)
    (most_shutdown_ m)
  | MoPindex v => mkMost
    (most_bus_ m) (most_speed_ m) (most_node_ m) (most_tx_ m) (most_src_ m) (most_dst_ m)
    (most_spec_ m) (most_recv_ m) (most_data_ m) (most_crc_ m) (most_cack_ m) (most_pack_ m)
    (most_txack_ m) v (most_failed_ m) (most_ctype_ m) (most_state_ m) (most_device_ m)
    (most_bound_ m) (most_free_ m) (most_layout_ m) (most_table_ m) (most_closed_ m)
    (most_shutdown_ m)
  | MoFailed v => mkMost
    (most_bus_ m) (most_speed_ m) (most_node_ m) (most_tx_ m) (most_src_ m) (most_dst_ m)
    (most_spec_ m) (most_recv_ m) (most_data_ m) (most_crc_ m) (most_cack_ m) (most_pack_ m)
    (most_txack_ m) (most_pindex_ m) v (most_ctype_ m) (most_state_ m) (most_device_ m)
    (most_bound_ m) (most_free_ m) (most_layout_ m) (most_table_ m) (most_closed_ m)
    (most_shutdown_ m)
  | MoCtype v => mkMost
    (most_bus_ m) (most_speed_ m) (most_node_ m) (most_tx_ m) (most_src_ m) (most_dst_ m)
    (most_spec_ m) (most_recv_ m) (most_data_ m) (most_crc_ m) (most_cack_ m) (most_pack_ m)
    (most_txack_ m) (most_pindex_ m) (most_failed_ m) v (most_state_ m) (most_device_ m)
    (most_bound_ m) (most_free_ m) (most_layout_ m) (most_table_ m) (most_closed_ m)
    (most_shutdown_ m)
  | MoState v => mkMost
    (most_bus_ m) (most_speed_ m) (most_node_ m) (most_tx_ m) (most_src_ m) (most_dst_ m)
    (most_spec_ m) (most_recv_ m) (most_data_ m) (most_crc_ m) (most_cack_ m) (most_pack_ m)
    (most_txack_ m) (most_pindex_ m) (most_failed_ m) (most_ctype_ m) v (most_device_ m)
    (most_bound_ m) (most_free_ m) (most_layout_ m) (most_table_ m) (most_closed_ m)
    (most_shutdown_ m)
  | MoDevice v => mkMost
    (most_bus_ m) (most_speed_ m) (most_node_ m) (most_tx_ m) (most_src_ m) (most_dst_ m)
    (most_spec_ m) (most_recv_ m) (most_data_ m) (most_crc_ m) (most_cack_ m) (most_pack_ m)
    (most_txack_ m) (most_pindex_ m) (most_failed_ m) (most_ctype_ m) (most_state_ m) v
    (most_bound_ m) (most_free_ m) (most_layout_ m) (most_table_ m) (most_closed_ m)
    (most_shutdown_ m)
  | MoBound v => mkMost
    (most_bus_ m) (most_speed_ m) (most_node_ m) (most_tx_ m) (most_src_ m) (most_dst_ m)
    (most_spec_ m) (most_recv_ m) (most_data_ m) (most_crc_ m) (most_cack_ m) (most_pack_ m)
    (most_txack_ m) (most_pindex_ m) (most_failed_ m) (most_ctype_ m) (most_state_ m)
    (most_device_ m) v (most_free_ m) (most_layout_ m) (most_table_ m) (most_closed_ m)
    (most_shutdown_ m)
  | MoFree v => mkMost
    (most_bus_ m) (most_speed_ m) (most_node_ m) (most_tx_ m) (most_src_ m) (most_dst_ m)
    (most_spec_ m) (most_recv_ m) (most_data_ m) (most_crc_ m) (most_cack_ m) (most_pack_ m)
    (most_txack_ m) (most_pindex_ m) (most_failed_ m) (most_ctype_ m) (most_state_ m)
    (most_device_ m) (most_bound_ m) v (most_layout_ m) (most_table_ m) (most_closed_ m)
    (most_shutdown_ m)
  | MoLayout v => mkMost
    (most_bus_ m) (most_speed_ m) (most_node_ m) (most_tx_ m) (most_src_ m) (most_dst_ m)
    (most_spec_ m) (most_recv_ m) (most_data_ m) (most_crc_ m) (most_cack_ m) (most_pack_ m)
    (most_txack_ m) (most_pindex_ m) (most_failed_ m) (most_ctype_ m) (most_state_ m)
    (most_device_ m) (most_bound_ m) (most_free_ m) v (most_table_ m) (most_closed_ m)
    (most_shutdown_ m)
  | MoTable v => mkMost
    (most_bus_ m) (most_speed_ m) (most_node_ m) (most_tx_ m) (most_src_ m) (most_dst_ m)
    (most_spec_ m) (most_recv_ m) (most_data_ m) (most_crc_ m) (most_cack_ m) (most_pack_ m)
    (most_txack_ m) (most_pindex_ m) (most_failed_ m) (most_ctype_ m) (most_state_ m)
    (most_device_ m) (most_bound_ m) (most_free_ m) (most_layout_ m) v (most_closed_ m)
    (most_shutdown_ m)
  | MoClosed v => mkMost
    (most_bus_ m) (most_speed_ m) (most_node_ m) (most_tx_ m) (most_src_ m) (most_dst_ m)
    (most_spec_ m) (most_recv_ m) (most_data_ m) (most_crc_ m) (most_cack_ m) (most_pack_ m)
    (most_txack_ m) (most_pindex_ m) (most_failed_ m) (most_ctype_ m) (most_state_ m)
    (most_device_ m) (most_bound_ m) (most_free_ m) (most_layout_ m) (most_table_ m) v
    (most_shutdown_ m)
  | MoShutdown v => mkMost
    (most_bus_ m) (most_speed_ m) (most_node_ m) (most_tx_ m) (most_src_ m) (most_dst_ m)
    (most_spec_ m) (most_recv_ m) (most_data_ m) (most_crc_ m) (most_cack_ m) (most_pack_ m)
    (most_txack_ m) (most_pindex_ m) (most_failed_ m) (most_ctype_ m) (most_state_ m)
    (most_device_ m) (most_bound_ m) (most_free_ m) (most_layout_ m) (most_table_ m)
    (most_closed_ m) v
  end.

(* ------------------------------------------------------------------ *)
(** ** ToRaw *)

(** mostmessage.cpp:50-53 and the same lines of the other packets. *)
Definition most_head (n : nat) (m : most) : list stmt :=
  [ do_resize n;
    poke 8 (most_bus_ m);
    poke 9 (N.land (most_speed_ m) 0x03);
    poke_or 9 (N.shiftl (N.land (b2n (most_node_ m)) 0x01) 2);
    poke_or 9 (N.shiftl (N.land (b2n (most_tx_ m)) 0x01) 3) ].

(** mostmessage.cpp:41-76 MostEthernetPacket::ToRaw. *)
Definition most_ethernet (mand : bool) (m : most) : list stmt :=
  most_head (if mand then 36 else 42) m ++
  [ put_num 48 (most_src_ m) 10;
    put_num 48 (most_dst_ m) 16;
    put_num 16 (most_spec_ m) 22;
    put_num 16 (most_recv_ m) 24;
    put_num 16 (N.of_nat (length (most_data_ m))) 26 ]
  ++ (if mand then [ put_num 64 0 28 ] else
  [ put_num 32 (most_crc_ m) 28;
    poke 32 (N.land (most_cack_ m) 0x07);
    poke_or 32 (N.shiftl (N.land (most_pack_ m) 0x07) 3);
    poke 33 (most_txack_ m);
    put_num 64 0 34 ]).

(** mostmessage.cpp:95-103 and 139-147. *)
Definition most_counts (m : most) : list stmt :=
  [ put_num 16 (most_src_ m) 10;
    put_num 16 (most_dst_ m) 12;
    put_num 16 (most_spec_ m) 14;
    put_num 16 (most_recv_ m) 16;
    put_num 16 (N.of_nat (length (most_data_ m))) 18 ].

(** mostmessage.cpp:85-121 MostPacket::ToRaw. *)
Definition most_packet (mand : bool) (m : most) : list stmt :=
  most_head (if mand then 28 else 35) m ++ most_counts m
  ++ (if mand then [ put_num 64 0 20 ] else
  [ put_num 32 (most_crc_ m) 20;
    poke 24 (N.land (most_cack_ m) 0x07);
    poke_or 24 (N.shiftl (N.land (most_pack_ m) 0x07) 3);
    poke 25 (most_txack_ m);
    poke 26 (most_pindex_ m);
    put_num 64 0 27 ]).

(** mostmessage.cpp:128-167 MostMessage::ToRaw. *)
Definition most_message (mand : bool) (m : most) : list stmt :=
  most_head (if mand then 28 else 35) m ++ most_counts m
  ++ (if mand then [ put_num 64 0 20 ] else
  [ put_num 32 (most_crc_ m) 20;
    poke 24 (N.land (most_cack_ m) 0x07);
    poke_or 24 (N.shiftl (N.land (most_pack_ m) 0x07) 3);
    poke_or 24 (N.shiftl (N.land (b2n (most_failed_ m)) 0x01) 6);
    poke 25 (N.land (most_txack_ m) 0x0F);
    poke_or 25 (N.shiftl (N.land (most_ctype_ m) 0x0F) 4);
    poke 26 (most_pindex_ m);
    put_num 64 0 27 ]).

(** mostmessage.cpp:174-185 MostSignalState::ToRaw. *)
Definition most_signal_state (m : most) : list stmt :=
  [ do_resize 10; poke 8 (most_bus_ m); poke 9 (most_state_ m) ].
(** mostmessage.cpp:191-202 MostMaxPosInfo::ToRaw. *)
Definition most_max_pos (m : most) : list stmt :=
  [ do_resize 10; poke 8 (most_bus_ m); poke 9 (most_device_ m) ].
(** mostmessage.cpp:209-220 MostBoundDesc::ToRaw. *)
Definition most_bound_desc (m : most) : list stmt :=
  [ do_resize 11; poke 8 (most_bus_ m); put_num 16 (most_bound_ m) 9 ].
(** mostmessage.cpp:235-257 MostAllocTable::ToRaw. *)
Definition most_alloc_table (m : most) : list stmt :=
  [ do_resize 22;
    poke 8 (most_bus_ m);
    put_num 16 (most_free_ m) 9;
    poke 11 (most_layout_ m);
    put_num 16 (w16 (N.of_nat (length (most_table_ m)))) 12;
    put_num 64 0 14 ].
(** mostmessage.cpp:265-276 MostSysLockState::ToRaw. *)
Definition most_lock_state (m : most) : list stmt :=
  [ do_resize 10; poke 8 (most_bus_ m); poke 9 (b2n (most_closed_ m)) ].
(** mostmessage.cpp:283-294 MostShutdownFlag::ToRaw. *)
Definition most_shutdown (m : most) : list stmt :=
  [ do_resize 10; poke 8 (most_bus_ m); poke 9 (b2n (most_shutdown_ m)) ].

(** The ToRaw functions; [mand] is MandatoryMembersOnly() of the data group, which only the packets
    look at. *)
Definition most_to_raw (t : most_type) (mand : bool) (m : most) (rec : list N) : res raw :=
  match t with
  | MostMessage => with_data (most_data_ m) (run (most_message mand m) rec)
  | MostPacket => with_data (most_data_ m) (run (most_packet mand m) rec)
  | MostEthernetPacket => with_data (most_data_ m) (run (most_ethernet mand m) rec)
  | MostSignalState => plain (run (most_signal_state m) rec)
  | MostMaxPosInfo => plain (run (most_max_pos m) rec)
  | MostBoundDesc => plain (run (most_bound_desc m) rec)
  | MostAllocTable => with_data (most_table_ m) (run (most_alloc_table m) rec)
  | MostSysLockState => plain (run (most_lock_state m) rec)
  | MostShutdownFlag => plain (run (most_shutdown m) rec)
  end.

(* ------------------------------------------------------------------ *)
(** ** The channels of the MOST configuration *)

(** The properties of a MOST message that have a channel. *)
Inductive most_field : Type :=
| MxBus | MxSpeed | MxNode | MxTx | MxSrc | MxDst | MxSpec | MxRecv | MxData | MxCrc | MxCack
| MxPack | MxTxack | MxPindex | MxFailed | MxCtype | MxState | MxDevice | MxBound | MxFree
| MxLayout | MxTable | MxClosed | MxShutdown | MxLength | MxTableLength.

(** mostconfigadapter.cpp:227-230 and 432-436. *)
Definition most_head_channels : list (most_field * chan) :=
  [ (MxBus, bus_channel); (MxSpeed, bits_channel 9 0 2); (MxNode, bit_channel 9 2);
    (MxTx, bit_channel 9 3) ].

(** mostconfigadapter.cpp:206-244 CreateEthernetPacketChannel. *)
Definition most_ethernet_channels (mand : bool) : list (most_field * chan) :=
  most_head_channels ++
  [ (MxSrc, bits_channel 10 0 48); (MxDst, bits_channel 16 0 48); (MxSpec, bits_channel 22 0 16);
    (MxRecv, bits_channel 24 0 16); (MxLength, bits_channel 26 0 16) ]
  ++ (if mand then [ (MxData, vlsd_channel 28) ] else
  [ (MxCrc, bits_channel 28 0 32); (MxCack, bits_channel 32 0 3); (MxPack, bits_channel 32 3 3);
    (MxTxack, bits_channel 33 0 4); (MxData, vlsd_channel 34) ]).

(** mostconfigadapter.cpp:432-443 CreateMandatoryMembers. *)
Definition most_mandatory_channels : list (most_field * chan) :=
  most_head_channels ++
  [ (MxSrc, bits_channel 10 0 16); (MxDst, bits_channel 12 0 16); (MxSpec, bits_channel 14 0 16);
    (MxRecv, bits_channel 16 0 16); (MxLength, bits_channel 18 0 16) ].

(** mostconfigadapter.cpp:246-277 CreatePacketChannel. *)
Definition most_packet_channels (mand : bool) : list (most_field * chan) :=
  most_mandatory_channels
  ++ (if mand then [ (MxData, vlsd_channel 20) ] else
  [ (MxCrc, bits_channel 20 0 32); (MxCack, bits_channel 24 0 3); (MxPack, bits_channel 24 3 3);
    (MxTxack, bits_channel 25 0 4); (MxPindex, bits_channel 26 0 8); (MxData, vlsd_channel 27) ]).

(** mostconfigadapter.cpp:279-313 CreateMessageChannel. *)
Definition most_message_channels (mand : bool) : list (most_field * chan) :=
  most_mandatory_channels
  ++ (if mand then [ (MxData, vlsd_channel 20) ] else
  [ (MxFailed, bit_channel 24 6); (MxCrc, bits_channel 20 0 32); (MxCack, bits_channel 24 0 3);
    (MxPack, bits_channel 24 3 3); (MxTxack, bits_channel 25 0 4); (MxPindex, bits_channel 26 0 8);
    (MxCtype, bits_channel 25 4 4); (MxData, vlsd_channel 27) ]).

(** mostconfigadapter.cpp:20-204 CreateConfig: one channel group per message type. The small groups
    are made in lines 315-430. *)
Definition most_channels (t : most_type) (mand : bool) : list (most_field * chan) :=
  match t with
  | MostMessage => most_message_channels mand
  | MostPacket => most_packet_channels mand
  | MostEthernetPacket => most_ethernet_channels mand
  | MostSignalState => [ (MxBus, bus_channel); (MxState, bits_channel 9 0 8) ]
  | MostMaxPosInfo => [ (MxBus, bus_channel); (MxDevice, bits_channel 9 0 8) ]
  | MostBoundDesc => [ (MxBus, bus_channel); (MxBound, bits_channel 9 0 16) ]
  | MostAllocTable =>
      [ (MxBus, bus_channel); (MxFree, bits_channel 9 0 16); (MxLayout, bits_channel 11 0 8);
        (MxTableLength, bits_channel 12 0 16); (MxTable, vlsd_channel 14) ]
  | MostSysLockState => [ (MxBus, bus_channel); (MxClosed, bit_channel 9 0) ]
  | MostShutdownFlag => [ (MxBus, bus_channel); (MxShutdown, bit_channel 9 0) ]
  end.
