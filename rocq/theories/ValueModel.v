(** Model of the way of a channel value through a measurement: the channels of a description prepared
    for writing (mdflib/src/cg4block.cpp, cn4block.cpp), SetChannelValue and SaveSample
    (mdflib/src/samplequeue.cpp), the time master (samplequeue.cpp, ichannel.cpp) and the channel a
    reader finds in the file.

    Simplifications: the samples have no variable length values; the float casts are parameters as in
    ChannelModel; channel and data types beyond the enumerations are read as their first members. *)
From Verif Require Import Base BlockModel ConvModel CcModel StreamModel QueueModel WriterModel ChannelModel ChannelSpec MetaModel MeasModel.
From Flocq Require Import IEEE754.BinarySingleNaN.
Local Open Scope N_scope.

(* ------------------------------------------------------------------ *)
(** ** Channels of a description *)

(** include/mdf/ichannel.h:51-59 ChannelType and 83-101 ChannelDataType: the numbers. *)
Definition all_ctypes : list ctype := [FixedLength; VariableLength; Master; VirtualMaster; Sync; MaxLength; VirtualData].
Definition all_dtypes : list dtype :=
  [UnsignedLe; UnsignedBe; SignedLe; SignedBe; FloatLe; FloatBe; StrAscii; StrUtf8; StrUtf16Le; StrUtf16Be;
   ByteArray; MimeSample; MimeStream; CanOpenDate; CanOpenTime; ComplexLe; ComplexBe].
Definition ctype_of (n : N) : ctype := nth (N.to_nat n) all_ctypes FixedLength.
Definition dtype_of (n : N) : dtype := nth (N.to_nat n) all_dtypes UnsignedLe.
Definition ctype_num (t : ctype) : N :=
  match t with
  | FixedLength => 0 | VariableLength => 1 | Master => 2 | VirtualMaster => 3 | Sync => 4 | MaxLength => 5 | VirtualData => 6
  end.

(** The arrays of a channel (cn4block.cpp, ChannelArray). *)
Definition arrays_of (cx : list comp) : list ca :=
  flat_map (fun x => match x with CArr a => [a] | CSub _ => [] end) cx.

(** A channel of group [g] with what its value functions use. CnFlag::InvalidValid is 0x0002
    (ichannel.h). *)
Definition chan_of (g : cg) (c : cn) : chan :=
  match c with
  | mkCn h cx =>
      mkChan (ctype_of (n_type h)) (dtype_of (n_dtype h)) (n_byteoff h) (n_bitoff h) (n_bits h) (array_size (arrays_of cx))
        (N.testbit (n_flags h) 1) (n_invalid h) (g_data g) 0
  end.
Definition chans_of (g : cg) : list chan := map (chan_of g) (g_cns g).

(** cn4block.cpp:1023-1158 PrepareForWriting and SetInvalidOffset: the members that change, as found
    by [prepare_group]. *)
Definition put_place (p : chan) (c : cn) : cn :=
  match c with
  | mkCn h cx =>
      mkCn (mkCnh (ctype_num (ch_type p)) (n_sync h) (n_dtype h) (ch_bit p) (ch_byte p) (ch_bits p)
              (if ch_invalid p then n_flags h else N.clearbit (n_flags h) 1) (ch_inval_pos p) (n_precision h)
              (n_rmin h) (n_rmax h) (n_lmin h) (n_lmax h) (n_emin h) (n_emax h)
              (n_name h) (n_unit h) (n_md h) (n_si h) (n_attach h) (n_defx h) (n_conv h)) cx
  end.
Fixpoint put_places (ps : list chan) (cs : list cn) : list cn :=
  match ps, cs with
  | p :: ps, c :: cs => put_place p c :: put_places ps cs
  | _, _ => cs
  end.

(** cg4block.cpp:431-490 PrepareForWriting of a group; of a VLSD group (CgFlag::VlsdChannel) only the
    sizes are cleared. *)
Definition prepare_cg (g : cg) : cg :=
  if is_vlsd g
  then mkCg (g_record g) (g_samples g) (g_flags g) (g_separator g) 0 0 (g_name g) (g_si g) (g_md g) (g_cns g)
  else
    let '(l, nd, ni) := prepare_group (chans_of g) in
    mkCg (g_record g) (g_samples g) (g_flags g) (g_separator g) nd ni (g_name g) (g_si g) (g_md g) (put_places l (g_cns g)).

(* ------------------------------------------------------------------ *)
(** ** Setting values and saving samples *)

(** The calls of an application on a data group: SetChannelValue on a channel of group [g], and
    SaveSample of group [g] at a time. *)
Inductive pop : Type :=
| PSet (g : nat) (o : setop)
| PSave (g : nat) (ts : N).

Definition put_buf (bufs : nat -> list N) (g : nat) (b : list N) : nat -> list N :=
  fun k => if (k =? g)%nat then b else bufs k.

(** ichannelgroup.cpp:12-18 GetSampleRecord and samplequeue.cpp:167-169: a copy of the sample buffer
    with the record id and the time. *)
Definition sample_of (g : cg) (ts : N) (buf : list N) : sample := mkS ts (g_record g) buf false [].

(** The samples a program saves; a call with a group or channel that does not exist is [Fail]. *)
Fixpoint run_prog (d2f : N -> N) (gs : list cg) (p : list pop) (bufs : nat -> list N) : res (list sample) :=
  match p with
  | [] => Ok []
  | PSet k o :: r =>
      match nth_error gs k with
      | None => Fail
      | Some g => bind (run_ops d2f (chans_of g) [o] (bufs k)) (fun b => run_prog d2f gs r (put_buf bufs k b))
      end
  | PSave k ts :: r =>
      match nth_error gs k with
      | None => Fail
      | Some g => bind (run_prog d2f gs r bufs) (fun l => Ok (sample_of g ts (bufs k) :: l))
      end
  end.

(** The buffers after PrepareForWriting (cg4block.cpp:483-489). *)
Definition new_bufs (gs : list cg) (k : nat) : list N :=
  match nth_error gs k with Some g => fresh_buffer (g_data g) (g_inval g) | None => [] end.

(* ------------------------------------------------------------------ *)
(** ** The time master *)

(** samplequeue.cpp:402-427 RecalculateTimeMaster: the master channel of a group is the first one of
    type Master whose sync type is Time (1) or None (0). CalculateMasterTime() is true unless the
    application clears it (ichannel.h:546-556); channels for which it is cleared are given by [off]. *)
Definition is_master (c : cn) : bool :=
  match c with
  | mkCn h _ => (n_type h =? 2) && ((n_sync h =? 1) || (n_sync h =? 0))
  end.
Definition master_of (g : cg) : option cn := find is_master (g_cns g).

(** Number of bytes of a static_cast of a double to an integer of [k] bytes: [None] if the truncated
    value does not fit, which is undefined in C++. *)
Definition cast_unsigned (k : nat) (t : dbl) : option N :=
  if is_finite t then
    let z := Btrunc t in
    if ((0 <=? z) && (z <? 256 ^ Z.of_nat k))%Z then Some (Z.to_N z) else None
  else None.
Definition cast_signed (k : nat) (t : dbl) : option N :=
  if is_finite t then
    let z := Btrunc t in
    if ((- (256 ^ Z.of_nat k / 2) <=? z) && (z <? 256 ^ Z.of_nat k / 2))%Z then Some (Z.to_N (z mod 256 ^ Z.of_nat k)) else None
  else None.

(** memcpy(record_buffer.data() + ByteOffset(), data, n), without a test of the size. *)
Definition poke (c : chan) (data rec : list N) : res (list N) := lift (wr rec (ch_byte c) data).

Definition int_bytes (k : nat) : bool := (k =? 1)%nat || (k =? 2)%nat || (k =? 4)%nat || (k =? 8)%nat.
Definition poke_num (le : bool) (k : nat) (v : option N) (c : chan) (rec : list N) : res (list N) :=
  if int_bytes k then
    match v with
    | Some n => poke c (enc le k n) rec
    | None => UB
    end
  else Ok rec.

(** ichannel.cpp:957-1070 IChannel::SetTimestamp. *)
Definition set_timestamp (d2f : N -> N) (c : chan) (cc : option conv) (t : dbl) (rec : list N) : res (list N) :=
  let back :=
    match cc with
    | None => Some t
    | Some k =>
        if (c_type k =? tLinear) && negb (feq (param (c_vals k) 1) fzero)
        then Some (fdiv (fsub t (param (c_vals k) 0)) (param (c_vals k) 1))
        else if c_type k =? tNone then Some t else None
    end in
  match back with
  | None => Ok rec
  | Some t =>
      let k := N.to_nat (ch_bits c / 8) in
      let unsigned := cast_unsigned k (if flt t fzero then fzero else t) in
      let float :=
        if (k =? 4)%nat then Some (d2f (bits_of_dbl t)) else if (k =? 8)%nat then Some (bits_of_dbl t) else None in
      match ch_dtype c with
      | UnsignedBe => poke_num false k unsigned c rec
      | UnsignedLe => poke_num true k unsigned c rec
      | SignedBe => poke_num false k (cast_signed k t) c rec
      | SignedLe => poke_num true k (cast_signed k t) c rec
      | FloatLe => match float with Some n => poke c (enc true k n) rec | None => Ok rec end
      | FloatBe => match float with Some n => poke c (enc false k n) rec | None => Ok rec end
      | _ => Ok rec
      end
  end.

(** samplequeue.cpp:394-396, 441-443: the time stamp minus the start time, as int64_t, in seconds.
    A difference outside int64_t is undefined. *)
Definition to_int64 (n : N) : Z := let m := Z.of_N (w64 n) in if (m <? 2 ^ 63)%Z then m else (m - 2 ^ 64)%Z.
Definition rel_seconds (start ts : N) : option dbl :=
  let d := (to_int64 ts - to_int64 start)%Z in
  if ((- 2 ^ 63 <=? d) && (d <? 2 ^ 63))%Z then Some (fdiv (of_Z d) (of_Z 1000000000)) else None.

(** samplequeue.cpp:389-399 RecalculateTime, and the same for one queued sample (432-446). [off] are
    the record ids of the groups whose master has CalculateMasterTime() cleared. *)
Definition retime (d2f : N -> N) (gs : list cg) (off : N -> bool) (start : N) (s : sample) : res sample :=
  match find (fun g => g_record g =? s_id s) gs with
  | None => Ok s
  | Some g =>
      match master_of g with
      | None => Ok s
      | Some c =>
          if off (s_id s) then Ok s
          else
            match rel_seconds start (s_ts s) with
            | None => UB
            | Some t =>
                bind (set_timestamp d2f (chan_of g c) (match c with mkCn h _ => n_conv h end) t (s_rec s)) (fun r =>
                Ok (mkS (s_ts s) (s_id s) r (s_has s) (s_vbuf s)))
            end
      end
  end.

(** The sample with its time, for the defined cases. *)
Definition retimed (d2f : N -> N) (gs : list cg) (off : N -> bool) (start : N) (s : sample) : sample :=
  match retime d2f gs off start s with Ok s' => s' | _ => s end.

(** writecache.cpp:152-158 RecalculateTimeMaster on the queue of the data group. *)
Definition retime_queue (rt : N -> sample -> sample) (t : N) (w : wst) : wst :=
  let u := w_u w in
  set_u (mkU (mkQ (map (rt t) (q_list (u_q u))) (q_size (u_q u))) (u_phase u) (u_out u) (u_enc u) (u_log u) (u_gone u)) w.

(** The writer of WriterModel with the times: StartMeasurement rewrites the samples in the queue
    (mdfwriter.cpp:284-286, writecache.cpp:152-158), SaveSample after it the sample that is saved.
    Before, there are no master channels and samples are kept as they are. StartMeasurement is one step
    here; [start_split] is the order of its parts, with what the worker does between them. *)
Definition tstep (d : dgroup) (has_sd : N -> bool) (stale : sample -> N) (periodic : bool) (rt : N -> sample -> sample)
    (o : wop) (w : wst) : wst :=
  match o with
  | OSave s => wstep d has_sd stale periodic (OSave (if w_started w then rt (c_start (w_cfg w)) s else s)) w
  | OStart t =>
      wstep d has_sd stale periodic o (retime_queue rt t w)
  | _ => wstep d has_sd stale periodic o w
  end.
Fixpoint trun (d : dgroup) (has_sd : N -> bool) (stale : sample -> N) (periodic : bool) (rt : N -> sample -> sample)
    (ops : list wop) (w : wst) : wst :=
  match ops with
  | [] => w
  | o :: r => trun d has_sd stale periodic rt r (tstep d has_sd stale periodic rt o w)
  end.

(** mdfwriter.cpp:279-286 StartMeasurement: the state and the start time are set first, the worker may
    take [n] turns, then the queue is rewritten. *)
Definition start_split (d : dgroup) (has_sd : N -> bool) (stale : sample -> N) (periodic : bool) (rt : N -> sample -> sample)
    (t : N) (n : nat) (w : wst) : wst :=
  retime_queue rt t (wrun d has_sd stale periodic (OStart t :: repeat OTick n) w).

(** ichannel.cpp:899-953 GetTimestamp of a master channel with time synchronisation and of a numeric
    type, without a conversion or with one given as a function; [sample] counts for a virtual master. *)
Definition get_timestamp (h2d f2d : N -> N) (c : chan) (sync : N) (convert : option (dbl -> dbl)) (sample : N) (rec : list N) : dbl :=
  let apply (x : dbl) := match convert with Some f => f x | None => x end in
  let value := match get_channel h2d f2d c rec 0 with Ok (v, _) => Some v | _ => None end in
  if negb (sync =? 1) then fzero
  else match ch_type c with
       | VirtualMaster => apply (of_Z (Z.of_N sample))
       | Master =>
           match ch_dtype c, value with
           | UnsignedLe, Some (VU u) | UnsignedBe, Some (VU u) => apply (of_Z (Z.of_N u))
           | SignedLe, Some (VS z) | SignedBe, Some (VS z) => apply (of_Z z)
           | FloatLe, Some (VF b) | FloatBe, Some (VF b) => apply (dbl_of_bits b)
           | _, _ => fzero
           end
       | _ => fzero
       end.
