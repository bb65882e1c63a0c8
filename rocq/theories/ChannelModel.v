(** Model of the channel value getters and setters:
    mdflib/src/dbchelper.cpp, mdflib/src/ichannel.cpp, include/mdf/ichannel.h,
    mdflib/src/cn4block.cpp, mdflib/src/cg4block.cpp (PrepareForWriting).

    Simplifications: logging is dropped; float values are carried as their IEEE bit
    patterns, the float<->double and half->double casts are parameters of the functions. *)
From Verif Require Import Base.
Local Open Scope N_scope.

(** include/mdf/ichannel.h:83-101 ChannelDataType. *)
Inductive dtype : Type :=
| UnsignedLe | UnsignedBe | SignedLe | SignedBe | FloatLe | FloatBe
| StrAscii | StrUtf8 | StrUtf16Le | StrUtf16Be
| ByteArray | MimeSample | MimeStream | CanOpenDate | CanOpenTime
| ComplexLe | ComplexBe.

(** include/mdf/ichannel.h:51-59 ChannelType. *)
Inductive ctype : Type :=
| FixedLength | VariableLength | Master | VirtualMaster | Sync | MaxLength | VirtualData.

Definition is_vlsd (t : ctype) : bool :=
  match t with VariableLength => true | _ => false end.

(** The members of Cn4Block that the value functions use (cn4block.h). [ch_invalid] is the
    CnFlag::InvalidValid bit of Flags(); [ch_cg_bytes] is cg_block_->NofDataBytes();
    [ch_array] is IChannel::ArraySize() (ichannel.cpp:1105-1118). A null cg_block_ is not modelled. *)
Record chan : Type := mkChan {
  ch_type : ctype;
  ch_dtype : dtype;
  ch_byte : N;      (* byte_offset_, uint32_t *)
  ch_bit : N;       (* bit_offset_ *)
  ch_bits : N;      (* bit_count_, uint32_t *)
  ch_array : N;
  ch_invalid : bool;
  ch_inval_pos : N; (* invalid_bit_pos_, uint32_t *)
  ch_cg_bytes : N;
  ch_vlsd_id : N    (* VlsdRecordId() *)
}.

(** Cn4Block::DataBytes, cn4block.cpp:254-269. *)
Definition data_bytes (c : chan) : N :=
  ch_bits c / 8 + (if 0 <? ch_bits c mod 8 then 1 else 0).

(* ------------------------------------------------------------------ *)
(** ** Bit extraction *)

(** The loop of RawToUnsigned, dbchelper.cpp:604-616 (identical loops in RawToSigned 510-520
    and, with a mask instead of a shift, RawToDouble 432-442 / RawToFloat 456-466 / RawToHalf 483-493).
    [None] is a read outside the record. *)
Fixpoint raw_loop (le : bool) (raw : list N) (n : nat) (first : bool)
         (byte bit : Z) (value : N) : option N :=
  match n with
  | O => Some value
  | S n' =>
      let value1 := if first then value else w64 (N.shiftl value 1) in
      match rd raw byte with
      | None => None
      | Some b =>
          let value2 := if N.testbit b (Z.to_N bit) then N.lor value1 1 else value1 in
          let bit1 := (bit - 1)%Z in
          if (bit1 <? 0)%Z
          then raw_loop le raw n' false (if le then byte - 1 else byte + 1)%Z 7%Z value2
          else raw_loop le raw n' false byte bit1 value2
      end
  end.

(** [start + length - 1] in size_t arithmetic. *)
Definition last_bit (start len : N) : N := w64 (start + len + (2 ^ 64 - 1)).

(** dbchelper.cpp:596-618 DbcHelper::RawToUnsigned. *)
Definition raw_to_unsigned (le : bool) (start len : N) (raw : list N) : option N :=
  let byte := Z.quot (to_int32 (if le then last_bit start len else start)) 8 in
  let bit := to_int32 (last_bit start len mod 8) in
  raw_loop le raw (N.to_nat len) true byte bit 0.

(** dbchelper.cpp:500-594 DbcHelper::RawToSigned: widths 1..64 through a bit-field union,
    all other widths give 0. *)
Definition raw_to_signed (le : bool) (start len : N) (raw : list N) : option Z :=
  match raw_to_unsigned le start len raw with
  | None => None
  | Some u => Some (if (1 <=? len) && (len <=? 64) then twos len u else 0%Z)
  end.

(* ------------------------------------------------------------------ *)
(** ** Getters *)

(** The bit offset computed by all getters, ichannel.cpp:22-23: ByteOffset()*8 + BitOffset() is
    evaluated in uint32_t, array_index*BitCount() and the sum in 64 bits. *)
Definition bit_offset (c : chan) (idx : N) : N :=
  w64 (w32 (w32 (ch_byte c * 8) + ch_bit c) + w64 (idx * ch_bits c)).

(** The range check of all getters, ichannel.cpp:24-33: true if the channel fits. *)
Definition range_ok (c : chan) (rec : list N) (idx : N) : bool :=
  let e := w64 (bit_offset c idx + ch_bits c) in
  let range_check := e / 8 + (if e mod 8 =? 0 then 0 else 1) in
  range_check <=? N.of_nat (length rec).

Definition lift {A} (o : option A) : res A :=
  match o with Some a => Ok a | None => UB end.

(** ichannel.cpp:18-70 IChannel::GetUnsignedValue. *)
Definition get_unsigned (c : chan) (rec : list N) (idx : N) : res N :=
  if range_ok c rec idx then
    if is_vlsd (ch_type c)
    then lift (raw_to_unsigned true (bit_offset c idx) (ch_bits c) rec)
    else match ch_dtype c with
         | StrUtf16Le | StrUtf16Be | StrUtf8 | StrAscii | UnsignedLe =>
             lift (raw_to_unsigned true (bit_offset c idx) (ch_bits c) rec)
         | UnsignedBe =>
             lift (raw_to_unsigned false (bit_offset c idx) (ch_bits c) rec)
         | _ => Fail
         end
  else Fail.

(** ichannel.cpp:72-98 IChannel::GetSignedValue. *)
Definition get_signed (c : chan) (rec : list N) (idx : N) : res Z :=
  if range_ok c rec idx then
    let le := match ch_dtype c with SignedLe => true | _ => false end in
    lift (raw_to_signed le (bit_offset c idx) (ch_bits c) rec)
  else Fail.

Section Floats.
(** The conversions the compiler inserts; they are not interpreted. *)
Variable half_to_double : N -> N.
Variable float_to_double : N -> N.
Variable double_to_float : N -> N.

(** ichannel.cpp:100-146 IChannel::GetFloatValue, result as the bit pattern of a double. *)
Definition get_float (c : chan) (rec : list N) (idx : N) : res N :=
  if range_ok c rec idx then
    let le := match ch_dtype c with FloatLe => true | _ => false end in
    let raw := lift (raw_to_unsigned le (bit_offset c idx) (ch_bits c) rec) in
    if ch_bits c =? 16 then bind raw (fun u => Ok (half_to_double u))
    else if ch_bits c =? 32 then bind raw (fun u => Ok (float_to_double u))
    else if ch_bits c =? 64 then raw
    else Fail
  else Fail.

(** cn4block.cpp:1178-1191 Cn4Block::GetValid. The sum invalid_bit_pos_ + array_index and the byte
    offset are 64 bit. *)
Definition get_valid (c : chan) (rec : list N) (idx : N) : bool :=
  if ch_invalid c then
    let pos := w64 (ch_inval_pos c + idx) in
    let byte := w64 (ch_cg_bytes c + pos / 8) in
    if byte <? N.of_nat (length rec)
    then negb (N.testbit (nth (N.to_nat byte) rec 0) (pos mod 8))
    else true
  else true.

(** A numeric channel value. *)
Inductive value : Type := VU (u : N) | VS (z : Z) | VF (double_bits : N).

(** include/mdf/ichannel.h:632-707 IChannel::GetChannelValue, numeric data types only; the outcome
    carries the value and the returned valid flag. *)
Definition get_channel (c : chan) (rec : list N) (idx : N) : res (value * bool) :=
  match ch_dtype c with
  | UnsignedLe | UnsignedBe =>
      bind (get_unsigned c rec idx) (fun u => Ok (VU u, get_valid c rec idx))
  | SignedLe | SignedBe =>
      bind (get_signed c rec idx) (fun z => Ok (VS z, get_valid c rec idx))
  | FloatLe | FloatBe =>
      bind (get_float c rec idx) (fun d => Ok (VF d, get_valid c rec idx))
  | _ => Fail
  end.

(* ------------------------------------------------------------------ *)
(** ** Setters (on the sample buffer of the channel group) *)

(** One byte of the buffer replaced. *)
Definition set_byte (i : nat) (b : N) (buf : list N) : list N := splice i [b] buf.

(** cn4block.cpp:1160-1176 Cn4Block::SetValid; positions are uint32_t here. *)
Definition set_valid (c : chan) (buf : list N) (valid : bool) (idx : N) : list N :=
  if ch_invalid c then
    let pos := w32 (ch_inval_pos c + w32 idx) in
    let byte := w32 (ch_cg_bytes c + pos / 8) in
    let mask := N.shiftl 1 (pos mod 8) in
    if byte <? N.of_nat (length buf) then
      let b := nth (N.to_nat byte) buf 0 in
      set_byte (N.to_nat byte)
        (if valid then N.ldiff b mask else N.lor b mask) buf
    else buf
  else buf.

(** Byte-order of LittleBuffer / BigBuffer (littlebuffer.h, bigbuffer.h) on a little-endian host. *)
Definition enc (le : bool) (n : nat) (v : N) : list N :=
  if le then le_bytes n v else be_bytes n v.

(** memcpy of the encoded value into the buffer. *)
Definition put (c : chan) (le : bool) (buf : list N) (n : nat) (v idx : N) : res (list N) :=
  lift (wr buf (w64 (ch_byte c + w64 (data_bytes c * idx))) (enc le n v)).

(** ichannel.cpp:300-303 and the same test in the other setters: max_bytes > buffer.size(). *)
Definition too_big (c : chan) (buf : list N) (idx : N) : bool :=
  N.of_nat (length buf) <? w64 (ch_byte c + w64 (data_bytes c * w64 (idx + 1))).

(** ichannel.cpp:347-350: the same test in SetUnsignedValueBe, without the +1. *)
Definition too_big_be (c : chan) (buf : list N) (idx : N) : bool :=
  N.of_nat (length buf) <? w64 (ch_byte c + w64 (data_bytes c * idx)).

(** The switch over the value size, ichannel.cpp:310-338 (and 356-384, 404-432, 451-479). *)
Definition put_int (c : chan) (le : bool) (buf : list N) (v : N) (idx : N) : res (list N) :=
  match data_bytes c with
  | 1 => put c le buf 1 v idx
  | 2 => put c le buf 2 v idx
  | 4 => put c le buf 4 v idx
  | 8 => put c le buf 8 v idx
  | _ => Ok (set_valid c buf false idx)
  end.

(** ichannel.cpp:292-339 SetUnsignedValueLe. *)
Definition set_unsigned_le (c : chan) (buf : list N) (v : N) (valid : bool) (idx : N)
  : res (list N) :=
  match buf with
  | [] => Ok buf
  | _ => if too_big c buf idx then Ok (set_valid c buf false idx)
         else put_int c true (set_valid c buf valid idx) v idx
  end.

(** ichannel.cpp:341-385 SetUnsignedValueBe. *)
Definition set_unsigned_be (c : chan) (buf : list N) (v : N) (valid : bool) (idx : N)
  : res (list N) :=
  match buf with
  | [] => Ok buf
  | _ => if too_big_be c buf idx then Ok (set_valid c buf false idx)
         else put_int c false (set_valid c buf valid idx) v idx
  end.

(** ichannel.cpp:387-480 SetSignedValueLe / SetSignedValueBe; a narrowing cast of a signed value
    stores its low two's complement bytes. *)
Definition set_signed (le : bool) (c : chan) (buf : list N) (z : Z) (valid : bool) (idx : N)
  : res (list N) :=
  match buf with
  | [] => Ok buf
  | _ => if too_big c buf idx then Ok (set_valid c buf false idx)
         else put_int c le (set_valid c buf valid idx) (to_u64 z) idx
  end.

(** ichannel.cpp:482-549 SetFloatValueLe / SetFloatValueBe. *)
Definition set_float (le : bool) (c : chan) (buf : list N) (d : N) (valid : bool) (idx : N)
  : res (list N) :=
  match buf with
  | [] => Ok buf
  | _ => if too_big c buf idx then Ok (set_valid c buf false idx)
         else
           let buf1 := set_valid c buf valid idx in
           match data_bytes c with
           | 4 => put c le buf1 4 (double_to_float d) idx
           | 8 => put c le buf1 8 d idx
           | _ => Ok (set_valid c buf1 false idx)
           end
  end.

(** include/mdf/ichannel.h:719-784 IChannel::SetChannelValue for numeric data types, called with a
    value of the kind that matches the data type (a mismatching C++ argument is first
    converted by static_cast, not modelled: [Fail]). *)
Definition set_channel (c : chan) (buf : list N) (v : value) (valid : bool) (idx : N)
  : res (list N) :=
  match ch_dtype c, v with
  | UnsignedLe, VU u => set_unsigned_le c buf u valid idx
  | UnsignedBe, VU u => set_unsigned_be c buf u valid idx
  | SignedLe, VS z => set_signed true c buf z valid idx
  | SignedBe, VS z => set_signed false c buf z valid idx
  | FloatLe, VF d => set_float true c buf d valid idx
  | FloatBe, VF d => set_float false c buf d valid idx
  | _, _ => Fail
  end.
End Floats.

(* ------------------------------------------------------------------ *)
(** ** Fixed length text and byte arrays *)

(** memset + memcpy of ichannel.cpp:560-565 / 577-582: [bytes] bytes at ByteOffset(). There is no
    range check in the code, a buffer that is too short is undefined behaviour. *)
Definition fill (c : chan) (buf src : list N) : res (list N) :=
  let bytes := ch_bits c / 8 in
  match wr buf (ch_byte c) (repeat 0 (N.to_nat bytes)) with
  | None => UB
  | Some b1 => lift (wr b1 (ch_byte c) src)
  end.

(** ichannel.cpp:551-566 IChannel::SetTextValue. *)
Definition set_text_fixed (c : chan) (buf : list N) (s : list N) (valid : bool) : res (list N) :=
  let buf1 := set_valid c buf valid 0 in
  let bytes := ch_bits c / 8 in
  if bytes =? 0 then Ok (set_valid c buf1 false 0)
  else if N.of_nat (length s) <? bytes then fill c buf1 s
  else fill c buf1 (firstn (N.to_nat (bytes - 1)) s).

(** ichannel.cpp:568-583 IChannel::SetByteArray. *)
Definition set_bytes_fixed (c : chan) (buf : list N) (s : list N) (valid : bool) : res (list N) :=
  let buf1 := set_valid c buf valid 0 in
  let bytes := ch_bits c / 8 in
  if bytes =? 0 then Ok (set_valid c buf1 false 0)
  else if N.of_nat (length s) <=? bytes then fill c buf1 s
  else fill c buf1 (firstn (N.to_nat bytes) s).

(* ------------------------------------------------------------------ *)
(** ** Variable length values stored in signal data (SD)

    The state is the sample buffer and the SD byte list [data_list_]. data_map_ is never filled in
    the code (cn4block.cpp:808-864 only looks up), so the lookup always misses. *)
Record sdstate : Type := mkSd { sd_buf : list N; sd_data : list N }.

(** The append of a length-prefixed value, cn4block.cpp:820-823, 849-852, 1275-1285. *)
Definition sd_append (data payload : list N) : N * list N :=
  (N.of_nat (length data),
   data ++ le_bytes 4 (w32 (N.of_nat (length payload))) ++ payload).

(** cn4block.cpp:837-864 Cn4Block::SetByteArray, VariableLength branch. *)
Definition set_bytes_vlsd (c : chan) (st : sdstate) (payload : list N) (valid : bool)
  : res sdstate :=
  let buf1 := set_valid c (sd_buf st) valid 0 in
  let (index, data1) := sd_append (sd_data st) payload in
  if ch_bits c =? 0 then Ok (mkSd (set_valid c buf1 false 0) data1)
  else bind (set_unsigned_le c buf1 index true 0) (fun b => Ok (mkSd b data1)).

(** cn4block.cpp:808-831 Cn4Block::SetTextValue, VariableLength branch; VlsdData(text) appends a
    terminating zero (vlsddata.cpp:10-14). *)
Definition set_text_vlsd (c : chan) (st : sdstate) (text : list N) (valid : bool)
  : res sdstate := set_bytes_vlsd c st (text ++ [0]) valid.

(** Checked read of [n] bytes at a 64-bit index. *)
Definition rd_block (buf : list N) (off : N) (n : N) : option (list N) :=
  if off + n <=? N.of_nat (length buf)
  then Some (slice (N.to_nat off) (N.to_nat n) buf) else None.

(** cn4block.cpp:772-790 Cn4Block::GetByteArrayValue (and 648-666 of GetTextValue): look-up of a
    64-bit index in the signal data. [index + 4] and [index + 4 + length] are 64-bit sums. *)
Definition sd_lookup (data : list N) (index : N) : res (list N) :=
  if N.of_nat (length data) <? w64 (index + 4) then Fail
  else
    match rd_block data index 4 with
    | None => UB
    | Some lb =>
        let len := le_num lb in
        if w64 (index + 4 + len) <=? N.of_nat (length data)
        then lift (rd_block data (w64 (index + 4)) len)
        else Fail
    end.

(** cn4block.cpp:754-806 Cn4Block::GetByteArrayValue: fixed length channels, VLSD channels with a
    VLSD group (the record is the value) and VLSD channels with signal data. The returned
    pair is the value and the valid flag ([Fail]: return false). The MLSD length channel
    (mlsd_channel_) is the optional argument. *)
Definition get_bytes (c : chan) (mlsd : option chan) (data rec : list N) : res (list N) :=
  match is_vlsd (ch_type c), 0 <? ch_vlsd_id c with
  | true, true => Ok rec
  | true, false => bind (get_unsigned c rec 0) (sd_lookup data)
  | false, _ =>
      let nof :=
        match ch_type c, mlsd with
        | MaxLength, Some m => get_unsigned m rec 0
        | _, _ => Ok (ch_bits c / 8)
        end in
      bind nof (fun n =>
        if w64 (ch_byte c + n) <=? N.of_nat (length rec)
        then lift (rd_block rec (ch_byte c) n) else Fail)
  end.

(** Bytes up to the first zero (the copy loops of cn4block.cpp:684-690, 703-709). *)
Fixpoint until_nul (l : list N) : list N :=
  match l with
  | [] => []
  | b :: r => if b =? 0 then [] else b :: until_nul r
  end.

(** cn4block.cpp:635-752 Cn4Block::GetTextValue for StringUTF8 (the byte extraction is the one of
    [get_bytes] without the MLSD case). *)
Definition get_text_utf8 (c : chan) (data rec : list N) : res (list N) :=
  bind (get_bytes c None data rec) (fun t => Ok (until_nul t)).

(* ------------------------------------------------------------------ *)
(** ** Layout: Cg4Block::PrepareForWriting *)

(** cn4block.cpp:1023-1158 Cn4Block::PrepareForWriting: the size and type chosen for a channel placed
    at byte [offset]. The channel arrays' own PrepareForWriting (ca4block.cpp) is not modelled. *)
Definition prepare_bits (c : chan) : ctype * bool * N :=
  let int_size (b : N) :=
    if (b =? 8) || (b =? 16) || (b =? 32) || (b =? 64) then b else 64 in
  let float_size (b : N) := if (b =? 32) || (b =? 64) then b else 64 in
  let complex_size (b : N) := if (b =? 64) || (b =? 128) then b else 128 in
  let body (inv : bool) : ctype * bool * N :=
    match ch_dtype c with
    | UnsignedLe | UnsignedBe | SignedLe | SignedBe => (ch_type c, inv, int_size (ch_bits c))
    | FloatLe | FloatBe => (ch_type c, inv, float_size (ch_bits c))
    | StrAscii | StrUtf8 | StrUtf16Le | StrUtf16Be | ByteArray | MimeSample | MimeStream =>
        if ch_bits c =? 0 then (VariableLength, inv, 64) else (ch_type c, inv, ch_bits c)
    | CanOpenDate => (ch_type c, inv, 56)
    | CanOpenTime => (ch_type c, inv, 48)
    | ComplexLe | ComplexBe => (ch_type c, inv, complex_size (ch_bits c))
    end in
  match ch_type c with
  | Master => body false
  | MaxLength | Sync | FixedLength => body (ch_invalid c)
  | VariableLength =>
      (VariableLength, ch_invalid c, if ch_bits c =? 0 then 64 else ch_bits c)
  | VirtualData | VirtualMaster => (ch_type c, false, 0)
  end.

Definition prepare_channel (c : chan) (offset inval_pos : N) : chan :=
  match prepare_bits c with
  | (t, inv, bits) =>
      mkChan t (ch_dtype c) (w32 offset) 0 bits (ch_array c) inv
             (if inv then w32 inval_pos else ch_inval_pos c)
             (ch_cg_bytes c) (ch_vlsd_id c)
  end.

(** The record space a channel takes, cg4block.cpp:454-463: value_size * array_size as uint32_t. *)
Definition chan_space (c : chan) : N :=
  let value_size := w32 (data_bytes c) in
  if 1 <? ch_array c then w32 (w64 (value_size * ch_array c)) else value_size.

Definition chan_inval_bits (c : chan) : N :=
  if ch_invalid c then (if 1 <? ch_array c then ch_array c else 1) else 0.

(** The loop of cg4block.cpp:447-473. byte_offset and invalid_bit_offset are uint64_t. *)
Fixpoint prepare_loop (l : list chan) (byte_offset inval_offset : N) : list chan * N * N :=
  match l with
  | [] => ([], byte_offset, inval_offset)
  | c :: r =>
      let c1 := prepare_channel c byte_offset inval_offset in
      let '(r1, b, i) :=
        prepare_loop r (w64 (byte_offset + chan_space c1))
                       (w64 (inval_offset + chan_inval_bits c1)) in
      (c1 :: r1, b, i)
  end.

(** cg4block.cpp:431-490 Cg4Block::PrepareForWriting of a group that is not a VLSD group: channels
    with their places, NofDataBytes, number of invalidation bytes. nof_data_bytes_ is the
    uint32_t sum of the same increments as byte_offset. *)
Definition prepare_group (l : list chan) : list chan * N * N :=
  let '(l1, b, i) := prepare_loop l 0 0 in
  let nof_data := w32 b in
  let nof_inval := w32 (if i =? 0 then 0 else if 0 <? i mod 8 then i / 8 + 1 else i / 8) in
  (map (fun c => mkChan (ch_type c) (ch_dtype c) (ch_byte c) (ch_bit c) (ch_bits c) (ch_array c)
                        (ch_invalid c) (ch_inval_pos c) nof_data (ch_vlsd_id c)) l1,
   nof_data, nof_inval).

(** The sample buffer after PrepareForWriting on a fresh group (cg4block.cpp:483-489):
    resize(total_size, 0). *)
Definition fresh_buffer (nof_data nof_inval : N) : list N :=
  repeat 0 (N.to_nat (w32 (nof_data + nof_inval))).
