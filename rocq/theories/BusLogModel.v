(** Model of a CAN bus log: the channel groups that mdflib/src/canconfigadapter.cpp and
    mdflib/src/iconfigadapter.cpp create, the saving of messages (mdflib/src/samplequeue.cpp,
    SaveCanMessage) and the way mdflib/src/canbusobserver.cpp finds the message type and the channels of
    a group by their names. *)
From Coq Require Import String.
From Verif Require Import Base ChannelModel QueueModel BusModel CanModel SortModel MetaModel ValueModel.
From Verif Require XmlModel.
Local Open Scope N_scope.
Local Open Scope list_scope.

Notation lit := XmlModel.lit.

(* ------------------------------------------------------------------ *)
(** ** Names *)

Fixpoint starts (p s : list N) : bool :=
  match p, s with
  | [], _ => true
  | a :: p', b :: s' => (a =? b) && starts p' s'
  | _, [] => false
  end.

(** std::string::find(p) != npos. *)
Fixpoint contains (p s : list N) : bool :=
  starts p s || match s with [] => false | _ :: r => contains p r end.

(** The base names of canconfigadapter.cpp:31, 60, 75, 104. *)
Definition frame_name (t : can_type) : list N :=
  match t with
  | CanData => lit "DataFrame"
  | CanRemote => lit "RemoteFrame"
  | CanError => lit "ErrorFrame"
  | CanOverload => lit "OverloadFrame"
  end.

(** iconfigadapter.h MessageFilter. *)
Inductive filter_kind : Type := NoFilter | ByChannel | ByMessage.

(** iconfigadapter.cpp:330-359 MakeGroupName: [channel] is the uint8_t bus channel, which the stream
    prints as a character; [id] are the decimal digits of the message id. *)
Definition bus_text (bus : list N) : list N :=
  if contains (lit "CAN") bus then lit "CAN" else bus.
Definition make_group_name (bus : list N) (f : filter_kind) (channel : N) (id : list N) (base : list N) : list N :=
  match f with
  | ByChannel => bus_text bus ++ [channel] ++ lit "_" ++ base
  | ByMessage => bus_text bus ++ (if 0 <? channel then [channel] else []) ++ lit "_" ++ base ++ lit "_" ++ id
  | NoFilter => bus_text bus ++ lit "_" ++ base
  end.

(** samplequeue.cpp:191-203 and canbusobserver.cpp:25-36: the message type of a group is found in its
    name; the tests are made in this order. The observer's search in the channel names, for a group name
    without any of them, is not modelled. *)
Definition group_kind (name : list N) : option can_type :=
  if contains (lit "_" ++ frame_name CanData) name then Some CanData
  else if contains (lit "_" ++ frame_name CanRemote) name then Some CanRemote
  else if contains (lit "_" ++ frame_name CanError) name then Some CanError
  else if contains (lit "_" ++ frame_name CanOverload) name then Some CanOverload
  else None.

(** The name of the frame channel (canconfigadapter.cpp:118, 177, 217, 265) and base_name_ of the
    observer (canbusobserver.cpp:27-36). *)
Definition can_base (t : can_type) : list N := lit "CAN_" ++ frame_name t.

Definition flag_name (f : can_flag) : list N :=
  match f with
  | FgDir => lit "Dir" | FgSrr => lit "SRR" | FgEdl => lit "EDL" | FgBrs => lit "BRS" | FgEsi => lit "ESI"
  | FgRtr => lit "RTR" | FgWakeUp => lit "WakeUp" | FgSingleWire => lit "SingleWire" | FgR0 => lit "R0" | FgR1 => lit "R1"
  end.
(** The names canconfigadapter.cpp gives the member channels, behind the name of the frame channel.
    [CfTime] and [FgRtr] have none. *)
Definition field_name (f : can_field) : list N :=
  match f with
  | CfBus => lit "BusChannel" | CfId => lit "ID" | CfIde => lit "IDE" | CfDlc => lit "DLC" | CfLength => lit "DataLength"
  | CfData => lit "DataBytes" | CfFlag g => flag_name g | CfDur => lit "FrameDuration" | CfCrc => lit "CRC"
  | CfErr => lit "ErrorType" | CfPos => lit "BitPosition" | CfTime => lit "t"
  end.
Definition member_name (t : can_type) (f : can_field) : list N := can_base t ++ lit "." ++ field_name f.

(* ------------------------------------------------------------------ *)
(** ** The channels of a group *)

(** A channel with the members that matter for its value; comments, units, ranges, source information
    and attachments are left out, see [bare_cn]. *)
Definition bare_cnh (type sync dtype bitoff byteoff bits flags : N) (name : list N) : cnh :=
  mkCnh type sync dtype bitoff byteoff bits flags 0 0 0 0 0 0 0 0 name None None None [] (0, 0, 0) None.

(** iconfigadapter.cpp:112-139 CreateTimeChannel, for a group without a time channel. *)
Definition time_cn : cn := mkCn (bare_cnh 2 1 4 0 0 64 0 (lit "t")) [].

(** iconfigadapter.cpp:291-328, 361-387 and canconfigadapter.cpp:283-309: CnFlag::BusEvent is 0x0400,
    RangeValid 0x0008. *)
Definition dtype_num (d : dtype) : N := match d with ByteArray => 10 | _ => 0 end.
Definition member_cn (t : can_type) (p : can_field * chan) : cn :=
  let c := snd p in
  mkCn (bare_cnh (ctype_num (ch_type c)) 0 (dtype_num (ch_dtype c)) (ch_bit c) (ch_byte c) (ch_bits c)
          (match fst p with CfBus => 1032 | _ => 1024 end) (member_name t (fst p))) [].

(** DataBytes of the frame channel, canconfigadapter.cpp:126-138, 185, 227-231, 274. *)
Definition frame_bytes (t : can_type) (mand : bool) (st : CanModel.storage) (max : nat) : N :=
  match t, st with
  | CanData, Mlsd => (if mand then 7 else 16) + N.of_nat max
  | CanData, _ => if mand then 15 else 24
  | CanRemote, _ => if mand then 7 else 16
  | CanError, Mlsd => 18 + N.of_nat max
  | CanError, _ => 26
  | CanOverload, _ => 2
  end.

(** canconfigadapter.cpp:116-281: the time channel and the frame channel with its members; [max] is
    MaxLength() of the writer. *)
Definition can_cns (t : can_type) (mand : bool) (st : CanModel.storage) (max : nat) : list cn :=
  [ time_cn;
    mkCn (bare_cnh 0 0 10 0 0 (8 * frame_bytes t mand st max) 1024 (can_base t))
      (map (fun p => CSub (member_cn t p)) (can_channels t mand st max)) ].

(** A channel and its members without the members left out above. *)
Definition bare_h (h : cnh) : cnh :=
  mkCnh (n_type h) (n_sync h) (n_dtype h) (n_bitoff h) (n_byteoff h) (n_bits h) (n_flags h) (n_invalid h)
    0 0 0 0 0 0 0 (n_name h) None None None [] (0, 0, 0) (n_conv h).
Fixpoint bare_cn (c : cn) : cn :=
  match c with
  | mkCn h cx => mkCn (bare_h h) (map (fun x => match x with CArr a => CArr a | CSub c => CSub (bare_cn c) end) cx)
  end.

(** cg4block.cpp:39-54 AddCxChannels, 345-358 Channels: a channel and all channels below it. *)
Fixpoint all_channels (c : cn) : list cn :=
  match c with
  | mkCn h cx => c :: flat_map (fun x => match x with CArr _ => [] | CSub c => all_channels c end) cx
  end.

(** ichannelgroup.cpp:59-71 GetChannel: the first channel whose name has [name] in it. *)
Definition cn_name (c : cn) : list N := match c with mkCn h _ => n_name h end.
Definition find_channel (name : list N) (l : list cn) : option cn :=
  find (fun c => contains name (cn_name c)) (flat_map all_channels l).

(* ------------------------------------------------------------------ *)
(** ** The groups *)

(** canconfigadapter.cpp:30-41 and the like: CgFlag::BusEvent is 0x0002, PlainBusEvent 0x0004; the path
    separator is a point. *)
Definition can_cg (t : can_type) (mand : bool) (st : CanModel.storage) (max : nat) (name : list N) (id : N) : cg :=
  mkCg id 0 6 46 0 0 name None None (can_cns t mand st max).

(** canconfigadapter.cpp:44-57, 85-95: CgFlag::VlsdChannel is 0x0001. *)
Definition value_cg (id : N) : cg := mkCg id 0 1 0 0 0 [] None None [].

(** canconfigadapter.cpp:21-114 CreateConfig on an empty data group, whose groups get the record ids
    1, 2, ... (dg4block.cpp CreateChannelGroup). *)
Definition can_config (mand : bool) (st : CanModel.storage) (max : nat) (name : can_type -> list N) : list cg :=
  let one t id := can_cg t mand st max (name t) id in
  match st with
  | VlsdGroup =>
      [one CanData 1; value_cg 2; one CanRemote 3; one CanError 4; value_cg 5] ++ (if mand then [] else [one CanOverload 6])
  | _ => [one CanData 1; one CanRemote 2; one CanError 3] ++ (if mand then [] else [one CanOverload 4])
  end.

(* ------------------------------------------------------------------ *)
(** ** Saving messages *)

(** A group as SaveCanMessage sees it: its name, record id, MandatoryMembersOnly of the data group,
    StorageType(), MaxLength() and the sample buffer. *)
Record clog : Type := mkLog {
  lg_name : list N; lg_id : N; lg_mand : bool; lg_st : CanModel.storage; lg_max : nat; lg_buf : list N
}.

(** samplequeue.cpp:174-206 SaveCanMessage up to AddSample, without RecalculateTime. That writes the
    first 8 bytes of the record before ToRaw does the rest; [ValueModel.trun] writes them to the finished
    sample, which is the same (BusLogProofs2, [save_stamped]). *)
Definition save_can (c : clog) (ts : N) (m : can) : res sample :=
  match group_kind (lg_name c) with
  | None => Ok (mkS ts (lg_id c) (lg_buf c) false [])
  | Some t =>
      bind (can_to_raw t (lg_mand c) (lg_max c) (lg_st c) m (mkRaw (lg_buf c) false [])) (fun r =>
      Ok (mkS ts (lg_id c) (r_rec r) (r_vlsd r) (r_buf r)))
  end.

(** The calls of an application: a message is saved with group [k] of the log, or another sample. *)
Inductive bcall : Type :=
| BMsg (k : nat) (ts : N) (m : can)
| BOther (s : sample).

Fixpoint log_samples (logs : list clog) (p : list bcall) : res (list sample) :=
  match p with
  | [] => Ok []
  | BMsg k ts m :: r =>
      match nth_error logs k with
      | None => Fail
      | Some c => bind (save_can c ts m) (fun s => bind (log_samples logs r) (fun l => Ok (s :: l)))
      end
  | BOther s :: r => bind (log_samples logs r) (fun l => Ok (s :: l))
  end.

(* ------------------------------------------------------------------ *)
(** ** The observer *)

(** The names canbusobserver.cpp:70-88 looks for behind the base name. *)
Definition observed_names : list (can_field * list N) :=
  [ (CfBus, lit "BusChannel"); (CfIde, lit "IDE"); (CfId, lit "ID"); (CfDlc, lit "DLC"); (CfLength, lit "DataLength");
    (CfData, lit "DataBytes"); (CfFlag FgDir, lit "Dir"); (CfCrc, lit "CRC"); (CfFlag FgSrr, lit "SRR");
    (CfFlag FgEdl, lit "EDL"); (CfFlag FgBrs, lit "BRS"); (CfFlag FgEsi, lit "ESI"); (CfFlag FgR0, lit "RO");
    (CfFlag FgR1, lit "R1"); (CfFlag FgWakeUp, lit "WakeUp"); (CfFlag FgSingleWire, lit "SingleWire");
    (CfDur, lit "FrameDuration"); (CfPos, lit "BitPosition") ].

(** canbusobserver.cpp:257-265 GetChannel for all of them. *)
Definition observer_channels (g : cg) (t : can_type) : list (can_field * chan) :=
  flat_map (fun p =>
    match find_channel (can_base t ++ lit "." ++ snd p) (g_cns g) with
    | Some c => [(fst p, chan_of g c)]
    | None => []
    end) observed_names.

(** The storage type hd4block.cpp:224-283 gives the group when the file is read: it follows from the
    link of the data channel, to the length channel or to the group of the values. *)
Definition has_bytes (t : can_type) : bool := match t with CanData | CanError => true | _ => false end.
Definition read_store (t : can_type) (st : CanModel.storage) : SortModel.storage :=
  if has_bytes t then match st with Mlsd => SMlsd | VlsdGroup => SVlsd | FixedStorage => SFixed end else SFixed.

(** canbusobserver.cpp:20-23 and isampleobserver.cpp:52-62 FindVlsdRecord: the record ids of the
    observer; the group of the values follows the one of the messages. *)
Definition can_observer (g : cg) (t : can_type) (st : CanModel.storage) : cangrp :=
  SortModel.mkCg (g_record g)
    (g_record g :: match read_store t st with SVlsd => [w64 (g_record g + 1)] | _ => [] end)
    (g_samples g) (read_store t st).

(** ichannelgroup.cpp:73-82 GetMasterChannel, and canbusobserver.cpp:274-278: the time of a message, for a
    master channel of a float type without conversion, as a bit pattern. *)
Definition get_master (g : cg) : option cn :=
  find (fun c => match c with mkCn h _ => (n_type h =? 2) || (n_type h =? 3) end) (flat_map all_channels (g_cns g)).
Definition message_time (h2d f2d : N -> N) (g : cg) (rec : list N) : N :=
  match get_master g with
  | None => 0
  | Some c => match get_channel h2d f2d (chan_of g c) rec 0 with Ok (VF b, true) => b | _ => 0 end
  end.
