(** Model of mdflib/src/canmessage.cpp, include/mdf/canmessage.h, the channels created by
    mdflib/src/canconfigadapter.cpp and CanBusObserver::ParseCanMessage of
    mdflib/src/canbusobserver.cpp.

    Simplifications: the time stamp is carried as its IEEE binary64 bit pattern; the data group
    and channel group pointers are the arguments [mand] and [st]. *)
From Verif Require Import Base ChannelModel BusModel.
Local Open Scope N_scope.

(** include/mdf/canmessage.h:30-35 MessageType. *)
Inductive can_type : Type := CanData | CanRemote | CanError | CanOverload.

(** The members of CanMessage, canmessage.h:199-212. flags_ is a bitset as a number, the error type is
    its number. *)
Record can : Type := mkCan {
  can_time_ : N;       (* timestamp_, double *)
  can_bus_ : N;        (* bus_channel_, uint8_t *)
  can_id_ : N;         (* message_id_, uint32_t: bit 31 is the extended flag *)
  can_dlc_ : N;        (* dlc_, uint8_t *)
  can_flags_ : N;      (* flags_, std::bitset<16> *)
  can_data_ : list N;  (* data_bytes_ *)
  can_pos_ : N;        (* bit_position_, uint16_t *)
  can_err_ : N;        (* error_type_, CanErrorType *)
  can_dur_ : N;        (* frame_duration_, uint32_t *)
  can_crc_ : N         (* crc_, uint32_t *)
}.

(** A default constructed message, canmessage.h:199-212. *)
Definition can_new : can := mkCan 0 0 0 0 0 [] 0 0 0 0.

Definition can_with_id (m : can) (v : N) : can :=
  mkCan (can_time_ m) (can_bus_ m) v (can_dlc_ m) (can_flags_ m) (can_data_ m) (can_pos_ m)
    (can_err_ m) (can_dur_ m) (can_crc_ m).

(** canmessage.cpp:17-18 kExtendedBit, k11BitMask. *)
Definition ext_bit : N := 2147483648.
Definition mask_11 : N := 2047.

(** canmessage.cpp:37-47 MessageId, CanId. *)
Definition can_set_id (m : can) (id : N) : can :=
  can_with_id m (if mask_11 <? id then N.lor id ext_bit else id).
Definition can_message_id (m : can) : N := can_id_ m.
Definition can_id (m : can) : N := N.ldiff (can_id_ m) ext_bit.

(** canmessage.cpp:49-59 ExtendedId. *)
Definition can_set_ext (m : can) (e : bool) : can :=
  can_with_id m (if e then N.lor (can_id_ m) ext_bit else N.ldiff (can_id_ m) ext_bit).
Definition can_ext (m : can) : bool := negb (N.land (can_id_ m) ext_bit =? 0).

(** canmessage.cpp:61-65 Dlc. *)
Definition can_set_dlc (m : can) (v : N) : can :=
  mkCan (can_time_ m) (can_bus_ m) (can_id_ m) v (can_flags_ m) (can_data_ m) (can_pos_ m)
    (can_err_ m) (can_dur_ m) (can_crc_ m).
Definition can_dlc (m : can) : N := N.land (can_dlc_ m) 15.

(** canmessage.cpp:30-31 kDataLengthCode. *)
Definition dlc_table : list N := [0; 1; 2; 3; 4; 5; 6; 7; 8; 12; 16; 20; 24; 32; 48; 64].

(** canmessage.cpp:72-78, the loop over the table. *)
Fixpoint dlc_loop (table : list N) (len dlc : N) : N :=
  match table with
  | [] => dlc
  | size :: r => if len <=? size then dlc else dlc_loop r len (dlc + 1)
  end.

(** canmessage.cpp:223-225 DlcToLength. *)
Definition dlc_to_length (dlc : N) : N :=
  if dlc <? N.of_nat (length dlc_table) then nth (N.to_nat dlc) dlc_table 0 else 0.

Definition can_with_data (m : can) (d : list N) : can :=
  mkCan (can_time_ m) (can_bus_ m) (can_id_ m) (can_dlc_ m) (can_flags_ m) d (can_pos_ m)
    (can_err_ m) (can_dur_ m) (can_crc_ m).

(** canmessage.cpp:67-84 DataLength, for a uint8_t [n]. *)
Definition can_set_length (m : can) (n : N) : can :=
  let m1 := can_with_data m (resize (N.to_nat n) (can_data_ m)) in
  can_set_dlc m1 (dlc_loop dlc_table n 0).
Definition can_length (m : can) : N := w8 (N.of_nat (length (can_data_ m))).

(** canmessage.cpp:86-93 DataBytes. *)
Definition can_set_data (m : can) (d : list N) : can :=
  can_with_data (can_set_length m (w8 (N.of_nat (length d)))) d.
Definition can_data (m : can) : list N := can_data_ m.

(** canmessage.cpp:19-28, the positions of the flags. *)
Inductive can_flag : Type :=
| FgDir | FgSrr | FgEdl | FgBrs | FgEsi | FgWakeUp | FgSingleWire | FgRtr | FgR0 | FgR1.
Definition flag_bit (f : can_flag) : N :=
  match f with
  | FgDir => 0 | FgSrr => 1 | FgEdl => 2 | FgBrs => 3 | FgEsi => 4 | FgWakeUp => 5
  | FgSingleWire => 6 | FgRtr => 7 | FgR0 => 8 | FgR1 => 9
  end.

(** canmessage.cpp:95-173 Dir, Srr, Edl, Brs, Esi, Rtr, WakeUp, SingleWire, R0, R1. *)
Definition can_set_flag (f : can_flag) (m : can) (b : bool) : can :=
  mkCan (can_time_ m) (can_bus_ m) (can_id_ m) (can_dlc_ m)
    (if b then N.setbit (can_flags_ m) (flag_bit f) else N.clearbit (can_flags_ m) (flag_bit f))
    (can_data_ m) (can_pos_ m) (can_err_ m) (can_dur_ m) (can_crc_ m).
Definition can_has (f : can_flag) (m : can) : bool := N.testbit (can_flags_ m) (flag_bit f).

(** canmessage.cpp:175-221 BusChannel, BitPosition, ErrorType, FrameDuration, Crc, Timestamp. *)
Definition can_set_bus (m : can) (v : N) : can :=
  mkCan (can_time_ m) v (can_id_ m) (can_dlc_ m) (can_flags_ m) (can_data_ m) (can_pos_ m)
    (can_err_ m) (can_dur_ m) (can_crc_ m).
Definition can_set_pos (m : can) (v : N) : can :=
  mkCan (can_time_ m) (can_bus_ m) (can_id_ m) (can_dlc_ m) (can_flags_ m) (can_data_ m) v
    (can_err_ m) (can_dur_ m) (can_crc_ m).
Definition can_set_err (m : can) (v : N) : can :=
  mkCan (can_time_ m) (can_bus_ m) (can_id_ m) (can_dlc_ m) (can_flags_ m) (can_data_ m)
    (can_pos_ m) v (can_dur_ m) (can_crc_ m).
Definition can_set_dur (m : can) (v : N) : can :=
  mkCan (can_time_ m) (can_bus_ m) (can_id_ m) (can_dlc_ m) (can_flags_ m) (can_data_ m)
    (can_pos_ m) (can_err_ m) v (can_crc_ m).
Definition can_set_crc (m : can) (v : N) : can :=
  mkCan (can_time_ m) (can_bus_ m) (can_id_ m) (can_dlc_ m) (can_flags_ m) (can_data_ m)
    (can_pos_ m) (can_err_ m) (can_dur_ m) v.
Definition can_set_time (m : can) (v : N) : can :=
  mkCan v (can_bus_ m) (can_id_ m) (can_dlc_ m) (can_flags_ m) (can_data_ m)
    (can_pos_ m) (can_err_ m) (can_dur_ m) (can_crc_ m).

(** canmessage.cpp:375-387 Reset: the checksum and the time stamp are kept. *)
Definition can_reset (m : can) : can := mkCan (can_time_ m) 0 0 0 0 [] 0 0 0 (can_crc_ m).

(* ------------------------------------------------------------------ *)
(** ** ToRaw *)

(** for (index = 0; index < max; ++index)
      record[off + index] = index < data_bytes_.size() ? data_bytes_[index] : 0xFF. *)
Fixpoint data_loop (off max : nat) (d : list N) : stmt := fun rec =>
  match max with
  | O => Ok rec
  | S k => bind (poke off (hd 255 d) rec) (data_loop (S off) k (tl d))
  end.

(** record[i] |= (flag ? 0x01 : 0x00) << k. *)
Definition or_flag (i : nat) (m : can) (f : can_flag) (k : N) : stmt :=
  poke_or i (N.shiftl (b2n (can_has f m)) k).

(** if (record.size() < n) record.resize(n). *)
Definition do_grow (n : nat) : stmt := fun rec =>
  if (length rec <? n)%nat then Ok (resize n rec) else Ok rec.

(** The index or the data bytes at the end of the record. *)
Definition put_data (off : nat) (save : bool) (max : nat) (m : can) : stmt :=
  if save then put_num 64 0 off else data_loop off max (can_data_ m).

(** canmessage.cpp:239-295. *)
Definition can_data_frame (mand save : bool) (max : nat) (m : can) : list stmt :=
  [ do_resize ((if mand then 15 else 24) + (if save then 8 else max));
    poke 8 (can_bus_ m);
    put_num 32 (can_message_id m) 9;
    poke 13 (can_dlc m);
    poke 14 (can_length m) ]
  ++ (if mand then [ put_data 15 save max m ] else
  [ or_flag 13 m FgDir 4;
    or_flag 13 m FgSrr 5;
    or_flag 13 m FgEdl 6;
    or_flag 13 m FgBrs 7;
    poke 15 (b2n (can_has FgEsi m));
    or_flag 15 m FgWakeUp 1;
    or_flag 15 m FgSingleWire 2;
    or_flag 15 m FgR0 3;
    or_flag 15 m FgR1 4;
    put_num 32 (can_dur_ m) 16;
    put_num 32 (can_crc_ m) 20;
    put_data 24 save max m ]).

(** canmessage.cpp:297-317. *)
Definition can_remote_frame (mand : bool) (m : can) : list stmt :=
  [ do_resize (if mand then 15 else 24);
    poke 8 (can_bus_ m);
    put_num 32 (can_message_id m) 9;
    poke 13 (N.land (can_dlc m) 15);
    poke 14 (can_length m) ]
  ++ (if mand then [] else
  [ or_flag 13 m FgDir 4;
    or_flag 13 m FgSrr 5;
    or_flag 13 m FgWakeUp 6;
    or_flag 13 m FgSingleWire 7;
    poke 15 (b2n (can_has FgR0 m));
    or_flag 15 m FgR1 1;
    put_num 32 (can_dur_ m) 16;
    put_num 32 (can_crc_ m) 20 ]).

(** canmessage.cpp:319-358. *)
Definition can_error_frame (save : bool) (max : nat) (m : can) : list stmt :=
  [ do_grow (26 + (if save then 8 else max));
    poke 8 (can_bus_ m);
    put_num 32 (can_message_id m) 9;
    poke 13 (N.land (can_dlc m) 15);
    poke 14 (can_length m);
    or_flag 13 m FgDir 4;
    or_flag 13 m FgSrr 5;
    or_flag 13 m FgEdl 6;
    or_flag 13 m FgBrs 7;
    poke 15 (b2n (can_has FgEsi m));
    or_flag 15 m FgWakeUp 1;
    or_flag 15 m FgSingleWire 2;
    or_flag 15 m FgR0 3;
    or_flag 15 m FgR1 4;
    poke_or 15 (N.shiftl (N.land (can_err_ m) 7) 5);
    put_num 32 (can_dur_ m) 16;
    put_num 16 (can_pos_ m) 20;
    put_num 32 (can_crc_ m) 22;
    put_data 26 save max m ].

(** canmessage.cpp:361-368. *)
Definition can_overload_frame (m : can) : list stmt :=
  [ do_resize 10;
    poke 8 (can_bus_ m);
    poke 9 (b2n (can_has FgDir m)) ].

(** How the data bytes are stored: in the record, in the signal data (SD) block of the channel, or in
    records of a separate group (VLSD CG). include/mdf/mdfenumerates.h:43 MdfStorageType. *)
Inductive storage : Type := Mlsd | FixedStorage | VlsdGroup.
Definition save_index (st : storage) : bool := match st with Mlsd => false | _ => true end.

(** canmessage.cpp:227-373 ToRaw, on a sample record as the caller (samplequeue.cpp:174-206
    SaveCanMessage) hands it over: remote and overload frames leave vlsd_data and vlsd_buffer as
    they are. *)
Definition can_to_raw (t : can_type) (mand : bool) (max0 : nat) (st : storage) (m : can) (s : raw)
  : res raw :=
  let max := if (max0 <? 8)%nat then 8%nat else max0 in
  let save := save_index st in
  let finish r := if save then with_data (can_data_ m) r else plain r in
  match t with
  | CanData => finish (run (can_data_frame mand save max m) (r_rec s))
  | CanRemote => bind (run (can_remote_frame mand m) (r_rec s))
                   (fun l => Ok (mkRaw l (r_vlsd s) (r_buf s)))
  | CanError => finish (run (can_error_frame save max m) (r_rec s))
  | CanOverload => bind (run (can_overload_frame m) (r_rec s))
                     (fun l => Ok (mkRaw l (r_vlsd s) (r_buf s)))
  end.

(* ------------------------------------------------------------------ *)
(** ** The channels of the CAN configuration *)

(** The properties of a CAN message; all but [CfRtr] and [CfTime] have a channel of their own. *)
Inductive can_field : Type :=
| CfBus | CfId | CfIde | CfDlc | CfLength | CfData | CfFlag (f : can_flag) | CfDur | CfCrc
| CfErr | CfPos | CfTime.

Definition CfDir := CfFlag FgDir.

(** canconfigadapter.cpp:283-309 CreateDataBytesChannel; [max] is MaxLength() of the writer. *)
Definition can_data_channel (st : storage) (max : nat) (off : N) : chan :=
  match st with
  | Mlsd => mlsd_channel off (N.of_nat max)
  | _ => vlsd_channel off
  end.

(** canconfigadapter.cpp:116-173 CreateCanDataFrameChannel. *)
Definition can_data_channels (mand : bool) (st : storage) (max : nat) : list (can_field * chan) :=
  [ (CfBus, bus_channel); (CfId, bits_channel 9 0 29); (CfIde, bit_channel 12 7);
    (CfDlc, bits_channel 13 0 4); (CfLength, bits_channel 14 0 8) ]
  ++ (if mand then [ (CfData, can_data_channel st max 15) ] else
  [ (CfFlag FgDir, bit_channel 13 4); (CfFlag FgSrr, bit_channel 13 5);
    (CfFlag FgEdl, bit_channel 13 6); (CfFlag FgBrs, bit_channel 13 7);
    (CfFlag FgEsi, bit_channel 15 0); (CfFlag FgWakeUp, bit_channel 15 1);
    (CfFlag FgSingleWire, bit_channel 15 2); (CfFlag FgR0, bit_channel 15 3);
    (CfFlag FgR1, bit_channel 15 4); (CfDur, bits_channel 16 0 32);
    (CfCrc, bits_channel 20 0 32); (CfData, can_data_channel st max 24) ]).

(** canconfigadapter.cpp:175-214 CreateCanRemoteFrameChannel. *)
Definition can_remote_channels (mand : bool) : list (can_field * chan) :=
  [ (CfBus, bus_channel); (CfId, bits_channel 9 0 29); (CfIde, bit_channel 12 7);
    (CfDlc, bits_channel 13 0 4); (CfLength, bits_channel 14 0 8) ]
  ++ (if mand then [] else
  [ (CfFlag FgDir, bit_channel 13 4); (CfFlag FgSrr, bit_channel 13 5);
    (CfFlag FgWakeUp, bit_channel 13 6); (CfFlag FgSingleWire, bit_channel 13 7);
    (CfFlag FgR0, bit_channel 15 0); (CfFlag FgR1, bit_channel 15 1);
    (CfDur, bits_channel 16 0 32); (CfCrc, bits_channel 20 0 32) ]).

(** canconfigadapter.cpp:216-262 CreateCanErrorFrameChannel. *)
Definition can_error_channels (st : storage) (max : nat) : list (can_field * chan) :=
  [ (CfBus, bus_channel); (CfId, bits_channel 9 0 29); (CfIde, bit_channel 12 7);
    (CfDlc, bits_channel 13 0 4); (CfLength, bits_channel 14 0 8);
    (CfFlag FgDir, bit_channel 13 4); (CfFlag FgSrr, bit_channel 13 5);
    (CfFlag FgEdl, bit_channel 13 6); (CfFlag FgBrs, bit_channel 13 7);
    (CfFlag FgEsi, bit_channel 15 0); (CfFlag FgWakeUp, bit_channel 15 1);
    (CfFlag FgSingleWire, bit_channel 15 2); (CfFlag FgR0, bit_channel 15 3);
    (CfFlag FgR1, bit_channel 15 4); (CfErr, bits_channel 15 5 3);
    (CfDur, bits_channel 16 0 32); (CfPos, bits_channel 20 0 16);
    (CfCrc, bits_channel 22 0 32); (CfData, can_data_channel st max 26) ].

(** canconfigadapter.cpp:264-281 CreateCanOverloadFrameChannel. *)
Definition can_overload_channels : list (can_field * chan) :=
  [ (CfBus, bus_channel); (CfFlag FgDir, bit_channel 9 0) ].

(** canconfigadapter.cpp:21-114 CreateConfig: one channel group per message type. *)
Definition can_channels (t : can_type) (mand : bool) (st : storage) (max : nat)
  : list (can_field * chan) :=
  match t with
  | CanData => can_data_channels mand st max
  | CanRemote => can_remote_channels mand
  | CanError => can_error_channels st max
  | CanOverload => can_overload_channels
  end.

(* ------------------------------------------------------------------ *)
(** ** Decoding *)

Definition flag_eqb (a b : can_flag) : bool := flag_bit a =? flag_bit b.
Definition field_eqb (a b : can_field) : bool :=
  match a, b with
  | CfBus, CfBus | CfId, CfId | CfIde, CfIde | CfDlc, CfDlc | CfLength, CfLength | CfData, CfData
  | CfDur, CfDur | CfCrc, CfCrc | CfErr, CfErr | CfPos, CfPos | CfTime, CfTime => true
  | CfFlag f, CfFlag g => flag_eqb f g
  | _, _ => false
  end.

(** canbusobserver.cpp:257-265 GetChannel: the channel of the group with the name. *)
Definition can_find (l : list (can_field * chan)) (f : can_field) : option chan :=
  option_map snd (find (fun p => field_eqb (fst p) f) l).

(** ISampleObserver::GetChannelValue (isampleobserver.h:106-150) and, as no CAN channel has a
    conversion, GetEngValue for an unsigned channel: 0 if the value is not valid. *)
Definition obs_num (c : chan) (rec : list N) : res N :=
  match get_channel (fun h => h) (fun h => h) c rec 0 with
  | Ok (VU u, true) => Ok u
  | UB => UB
  | _ => Ok 0
  end.
(** The same for a byte array. *)
Definition obs_bytes (data : list N) (c : chan) (rec : list N) : res (list N) :=
  match get_bytes c None data rec with
  | Ok l => Ok l
  | Fail => Ok []
  | UB => UB
  end.

(** One block of ParseCanMessage: nothing if the channel was not found. *)
Definition obs (l : list (can_field * chan)) (rec : list N) (f : can_field) (set : can -> N -> can)
  (m : can) : res can :=
  match can_find l f with
  | None => Ok m
  | Some c => bind (obs_num c rec) (fun v => Ok (set m v))
  end.
Definition obs_flag (l : list (can_field * chan)) (rec : list N) (f : can_flag) : can -> res can :=
  obs l rec (CfFlag f) (fun m v => can_set_flag f m (negb (v =? 0))).

(** canbusobserver.cpp:313-341; [vlsd] is the VLSD record that came with the sample. *)
Definition obs_data (st : storage) (l : list (can_field * chan)) (data vlsd rec : list N) (m : can)
  : res can :=
  match can_find l CfData with
  | None => Ok m
  | Some c =>
      match st with
      | VlsdGroup => Ok (can_set_data m vlsd)
      | Mlsd => bind (obs_bytes data c rec) (fun d =>
                Ok (can_set_data m
                      (if can_length m <? N.of_nat (length d)
                       then resize (N.to_nat (can_length m)) d else d)))
      | FixedStorage => bind (obs_bytes data c rec) (fun d => Ok (can_set_data m d))
      end
  end.

Fixpoint obs_all (l : list (can -> res can)) (m : can) : res can :=
  match l with
  | [] => Ok m
  | s :: r => bind (s m) (obs_all r)
  end.

(** canbusobserver.cpp:272-422 ParseCanMessage on a new message, without the time stamp. The channel
    R0 is looked up under the name RO (line 83) and so is never found; error_type_channel_ is never
    assigned (lines 70-88); the bit position goes into the frame duration (line 414). *)
Definition can_parse (st : storage) (l : list (can_field * chan)) (data vlsd rec : list N)
  : res can :=
  obs_all
  [ obs l rec CfBus (fun m v => can_set_bus m (w8 v));
    obs l rec CfId (fun m v => can_set_id m (w32 v));
    obs l rec CfIde (fun m v => can_set_ext m (negb (v =? 0)));
    obs l rec CfDlc (fun m v => can_set_dlc m (w8 v));
    obs l rec CfLength (fun m v => can_set_length m (w8 v));
    obs_data st l data vlsd rec;
    obs_flag l rec FgDir;
    obs l rec CfCrc (fun m v => can_set_crc m (w32 v));
    obs_flag l rec FgSrr;
    obs_flag l rec FgEdl;
    obs_flag l rec FgBrs;
    obs_flag l rec FgEsi;
    obs_flag l rec FgR1;
    obs_flag l rec FgWakeUp;
    obs_flag l rec FgSingleWire;
    obs l rec CfDur (fun m v => can_set_dur m (w32 v));
    obs l rec CfPos (fun m v => can_set_dur m (w16 v)) ] can_new.
