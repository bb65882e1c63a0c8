(** Record assembly shared by the bus message classes: the statements of the ToRaw functions of
    mdflib/src/canmessage.cpp, linmessage.cpp, ethmessage.cpp, flexraymessage.cpp and
    mostmessage.cpp, MdfHelper::UnsignedToRaw, and the channel constructors of
    mdflib/src/iconfigadapter.cpp.

    A ToRaw function is a list of statements on the record buffer, run in order; a write outside
    the buffer is undefined behaviour. *)
From Verif Require Import Base ChannelModel QueueModel.
Local Open Scope N_scope.

Definition stmt : Type := list N -> res (list N).

(** Statements in sequence. *)
Fixpoint run (l : list stmt) (rec : list N) : res (list N) :=
  match l with
  | [] => Ok rec
  | s :: r => bind (s rec) (run r)
  end.

(** record.resize(n): truncates or appends zeros. The test [record.size() != n] in front of it in
    most functions makes no difference. *)
Definition resize (n : nat) (rec : list N) : list N :=
  firstn n rec ++ repeat 0 (n - length rec).
Definition do_resize (n : nat) : stmt := fun rec => Ok (resize n rec).

(** record[i] = v. *)
Fixpoint poke (i : nat) (v : N) (rec : list N) : res (list N) :=
  match rec, i with
  | [], _ => UB
  | _ :: r, O => Ok (v :: r)
  | x :: r, S k => bind (poke k v r) (fun r' => Ok (x :: r'))
  end.

(** The value of record[i]. *)
Definition peek (i : nat) (rec : list N) : res N :=
  match nth_error rec i with Some b => Ok b | None => UB end.

(** record[i] |= v, cut to uint8_t. *)
Definition poke_or (i : nat) (v : N) (rec : list N) : res (list N) :=
  bind (peek i rec) (fun b => poke i (w8 (N.lor b v)) rec).

(** std::copy(src.begin(), src.end(), record.begin() + i). *)
Fixpoint copy_at (i : nat) (src : list N) (rec : list N) : res (list N) :=
  match src with
  | [] => Ok rec
  | b :: r => bind (poke i b rec) (copy_at (S i) r)
  end.

(** std::copy of LittleBuffer(v) of an [n] byte number. *)
Definition copy_num (i n : nat) (v : N) : stmt := copy_at i (le_bytes n v).

(** A bool as the number 1 or 0: (flag ? 0x01 : 0x00). *)
Definition b2n (b : bool) : N := if b then 1 else 0.

(** The loop of MdfHelper::UnsignedToRaw, mdfhelper.cpp:379-391; [base] is the address of raw in the
    record. *)
Fixpoint bits_loop (le : bool) (n : nat) (value mask : N) (byte bit : Z) (base : nat)
         (rec : list N) : res (list N) :=
  match n with
  | O => Ok rec
  | S n' =>
      let i := (Z.of_nat base + byte)%Z in
      if (i <? 0)%Z then UB else
      bind (peek (Z.to_nat i) rec) (fun b =>
      let m := N.shiftl 1 (Z.to_N bit) in
      bind (poke (Z.to_nat i) (if N.land value mask =? 0 then N.ldiff b m else N.lor b m) rec)
        (fun rec1 =>
      let mask1 := N.shiftr mask 1 in
      let bit1 := (bit - 1)%Z in
      if (bit1 <? 0)%Z
      then bits_loop le n' value mask1 (if le then byte - 1 else byte + 1)%Z 7 base rec1
      else bits_loop le n' value mask1 byte bit1 base rec1))
  end.

(** mdfhelper.cpp:367-392 MdfHelper::UnsignedToRaw, for 1..64 bits (a longer value shifts 1ULL out of
    range) and raw = record.data() + base. *)
Definition unsigned_to_raw (le : bool) (start len value : N) (base : nat) : stmt := fun rec =>
  if len =? 0 then Ok rec
  else
    let bit := Z.of_N (if le then start + len - 1 else start) in
    bits_loop le (N.to_nat len) value (2 ^ (len - 1)) (Z.quot bit 8) (Z.rem bit 8) base rec.

(** UnsignedToRaw(true, 0, len, value, record.data() + base). *)
Definition put_num (len value : N) (base : nat) : stmt := unsigned_to_raw true 0 len value base.

(* ------------------------------------------------------------------ *)
(** ** Channels *)

(** iconfigadapter.cpp:301-316 CreateBitChannel, 318-328 CreateBitsChannel (and 389-415
    CreateSubChannel): an unsigned little-endian composition channel. Bus channels have no
    invalidation bit, so the record length of the group does not matter. *)
Definition bits_channel (byte bit n : N) : chan :=
  mkChan FixedLength UnsignedLe byte bit n 1 false 0 0 0.
Definition bit_channel (byte bit : N) : chan := bits_channel byte bit 1.

(** A bits channel whose data type is changed afterwards. *)
Definition signed_channel (byte bit n : N) : chan :=
  mkChan FixedLength SignedLe byte bit n 1 false 0 0 0.
Definition float_channel (byte bit n : N) : chan :=
  mkChan FixedLength FloatLe byte bit n 1 false 0 0 0.

(** iconfigadapter.cpp:361-387 CreateBusChannel. The conversion for a fixed bus channel is never
    created: MessageFilter() at line 365 is a value-initialised enum, not the setting. *)
Definition bus_channel : chan := bits_channel 8 0 8.

(** Byte array channels of fixed, maximum and variable length. *)
Definition bytes_channel (byte n : N) : chan :=
  mkChan FixedLength ByteArray byte 0 (8 * n) 1 false 0 0 0.
Definition mlsd_channel (byte n : N) : chan :=
  mkChan MaxLength ByteArray byte 0 (8 * n) 1 false 0 0 0.
Definition vlsd_channel (byte : N) : chan :=
  mkChan VariableLength ByteArray byte 0 64 1 false 0 0 0.

(* ------------------------------------------------------------------ *)
(** ** What is stored *)

(** What ToRaw leaves in the SampleRecord: the record buffer, vlsd_data and vlsd_buffer. *)
Record raw : Type := mkRaw { r_rec : list N; r_vlsd : bool; r_buf : list N }.

Definition plain (r : res (list N)) : res raw := bind r (fun l => Ok (mkRaw l false [])).
Definition with_data (data : list N) (r : res (list N)) : res raw :=
  bind r (fun l => Ok (mkRaw l true data)).

(** The record the writer stores for the sample when the payload gets the index [idx] in the signal
    data (writer4samplequeue.cpp:91-118, see QueueModel.write_sample4). *)
Definition stored (r : raw) (idx : N) : list N :=
  if r_vlsd r then patch_index (r_rec r) idx else r_rec r.
