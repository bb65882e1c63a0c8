(** Specifications used in the statements about channel values: bit fields of a record, the
    geometry of a channel, histories of writes. The field part does not use the model. *)
From Verif Require Import Base ChannelModel.
Local Open Scope N_scope.

(** First bit of element [idx] of a channel at byte [byte], bit [bit], [bits] wide. *)
Definition field_start (byte bit bits idx : N) : N := 8 * byte + bit + idx * bits.

(** The field lies inside the record. *)
Definition field_inside (rec : list N) (start len : N) : Prop :=
  start + len <= 8 * N.of_nat (length rec).

(** Intel byte order: bits [start .. start+len-1] of the record read as one little-endian number. *)
Definition field_le (rec : list N) (start len : N) : N :=
  (le_num rec / 2 ^ start) mod 2 ^ len.

(** Motorola byte order: the bytes the field spans, read as one big-endian number, without the
    lowest [start mod 8] bits and cut to [len] bits. *)
Definition field_span (start len : N) : N := (start mod 8 + len + 7) / 8.
Definition field_be (rec : list N) (start len : N) : N :=
  (be_num (slice (N.to_nat (start / 8)) (N.to_nat (field_span start len)) rec)
   / 2 ^ (start mod 8)) mod 2 ^ len.

Definition field (le : bool) (rec : list N) (start len : N) : N :=
  if le then field_le rec start len else field_be rec start len.

(** The start bit of element [idx] of a channel. *)
Definition start_of (c : chan) (idx : N) : N :=
  field_start (ch_byte c) (ch_bit c) (ch_bits c) idx.

(** No wrap in the offset arithmetic (32 bit for the scalar part, 64 bit for the whole). *)
Definition geom_ok (c : chan) (idx : N) : Prop :=
  8 * ch_byte c + ch_bit c < 2 ^ 32 /\ start_of c idx + ch_bits c < 2 ^ 64.

(** The place of the invalidation bit of element [idx]. *)
Definition inv_bit (c : chan) (idx : N) : N := 8 * ch_cg_bytes c + ch_inval_pos c + idx.

Definition elems (c : chan) : N := N.max 1 (ch_array c).

(** Numeric type with a size the setters support. *)
Definition num_size (c : chan) : Prop :=
  match ch_dtype c with
  | UnsignedLe | UnsignedBe | SignedLe | SignedBe =>
      ch_bits c = 8 \/ ch_bits c = 16 \/ ch_bits c = 32 \/ ch_bits c = 64
  | FloatLe | FloatBe => ch_bits c = 32 \/ ch_bits c = 64
  | _ => False
  end.

(** The channel lies byte aligned in the data bytes of a record of [len] bytes and its
    invalidation bits in the invalidation bytes. *)
Record placed (c : chan) (len : N) : Prop := {
  pl_novlsd : is_vlsd (ch_type c) = false;
  pl_size : num_size c;
  pl_bit : ch_bit c = 0;
  pl_data : ch_byte c + data_bytes c * elems c <= ch_cg_bytes c;
  pl_cg : ch_cg_bytes c <= len;
  pl_inv : ch_invalid c = true -> 8 * ch_cg_bytes c + ch_inval_pos c + elems c <= 8 * len;
  pl_len : len < 2 ^ 28
}.

Definition elem_off (c : chan) (idx : N) : nat := N.to_nat (ch_byte c + data_bytes c * idx).
Definition elem_size (c : chan) : nat := N.to_nat (data_bytes c).

(** Two elements of one record do not share data bytes nor invalidation bits. *)
Definition elem_disjoint (c1 : chan) (i1 : N) (c2 : chan) (i2 : N) : Prop :=
  (elem_off c1 i1 + elem_size c1 <= elem_off c2 i2 \/
   elem_off c2 i2 + elem_size c2 <= elem_off c1 i1)%nat /\
  (ch_invalid c1 = true -> ch_invalid c2 = true -> inv_bit c1 i1 <> inv_bit c2 i2) /\
  ch_cg_bytes c1 = ch_cg_bytes c2.

(** The value is of the kind of the channel and representable in its width. *)
Definition value_fits (double_to_float : N -> N) (c : chan) (v : value) : Prop :=
  match ch_dtype c, v with
  | UnsignedLe, VU u | UnsignedBe, VU u => u < 2 ^ ch_bits c
  | SignedLe, VS z | SignedBe, VS z =>
      (- Z.of_N (2 ^ (ch_bits c - 1)) <= z < Z.of_N (2 ^ (ch_bits c - 1)))%Z
  | FloatLe, VF d | FloatBe, VF d =>
      if ch_bits c =? 32 then double_to_float d < 2 ^ 32 else d < 2 ^ 64
  | _, _ => False
  end.

(** What a read back gives: the same value, rounded through float for a 32-bit channel. *)
Definition as_stored (float_to_double double_to_float : N -> N) (c : chan) (v : value) : value :=
  match ch_dtype c, v with
  | FloatLe, VF d | FloatBe, VF d =>
      if ch_bits c =? 32 then VF (float_to_double (double_to_float d)) else v
  | _, _ => v
  end.

(** Space of a channel after the size defaults, without any wrap. *)
Definition space_of (c : chan) : N := data_bytes (prepare_channel c 0 0) * elems c.
Definition invals_of (c : chan) : N :=
  if ch_invalid (prepare_channel c 0 0) then elems c else 0.
Fixpoint sum_of (f : chan -> N) (l : list chan) : N :=
  match l with [] => 0 | c :: r => f c + sum_of f r end.

(** Total number of bytes of a record of the group. *)
Definition record_bytes (l : list chan) : N :=
  sum_of space_of l + (sum_of invals_of l + 7) / 8.

(** A channel of a fixed-size numeric kind, before the group is prepared. *)
Definition numeric (c : chan) : Prop :=
  (ch_type c = FixedLength \/ ch_type c = Master \/ ch_type c = Sync \/ ch_type c = MaxLength) /\
  match ch_dtype c with
  | UnsignedLe | UnsignedBe | SignedLe | SignedBe | FloatLe | FloatBe => True
  | _ => False
  end.

(** One call SetChannelValue(channel number, value, valid, array index). *)
Record setop : Type := mkOp { op_chan : nat; op_value : value; op_valid : bool; op_idx : N }.

(** A sequence of calls on the channels [l'] of one group. *)
Fixpoint run_ops (double_to_float : N -> N) (l' : list chan) (ops : list setop) (buf : list N) : res (list N) :=
  match ops with
  | [] => Ok buf
  | o :: r =>
      match nth_error l' (op_chan o) with
      | None => Fail
      | Some c => bind (set_channel double_to_float c buf (op_value o) (op_valid o) (op_idx o)) (run_ops double_to_float l' r)
      end
  end.

(** The last value written to element [idx] of channel [k]. *)
Fixpoint last_write (ops : list setop) (k : nat) (idx : N) : option (value * bool) :=
  match ops with
  | [] => None
  | o :: r =>
      match last_write r k idx with
      | Some x => Some x
      | None => if Nat.eqb (op_chan o) k && (op_idx o =? idx)
                then Some (op_value o, op_valid o) else None
      end
  end.

(** The call addresses a numeric channel of [l], an existing element, with a value that fits. *)
Definition op_ok (double_to_float : N -> N) (l l' : list chan) (o : setop) : Prop :=
  exists c0 c, nth_error l (op_chan o) = Some c0 /\ nth_error l' (op_chan o) = Some c /\
    numeric c0 /\ op_idx o < elems c /\ value_fits double_to_float c (op_value o).

Definition zero_value (float_to_double : N -> N) (c : chan) : value :=
  match ch_dtype c with
  | SignedLe | SignedBe => VS 0
  | FloatLe | FloatBe => VF (if ch_bits c =? 32 then float_to_double 0 else 0)
  | _ => VU 0
  end.

(** No wrap in the 64-bit position arithmetic of a setter. *)
Definition set_geom_ok (c : chan) (idx : N) : Prop :=
  ch_byte c + data_bytes c * (idx + 1) < 2 ^ 64 /\ idx + 1 < 2 ^ 64.

(** Append a list of values; the indices handed out. *)
Fixpoint sd_appends (data : list N) (vs : list (list N)) : list N * list N :=
  match vs with
  | [] => ([], data)
  | v :: r => let (i, d1) := sd_append data v in
              let (is_, d2) := sd_appends d1 r in (i :: is_, d2)
  end.

(** A byte-array / text channel of [n] bytes inside the data bytes of the record. *)
Record text_placed (c : chan) (len : N) : Prop := {
  tp_type : ch_type c = FixedLength;
  tp_bits : 8 <= ch_bits c /\ ch_bits c mod 8 = 0;
  tp_data : ch_byte c + ch_bits c / 8 <= ch_cg_bytes c;
  tp_cg : ch_cg_bytes c <= len;
  tp_inv : ch_invalid c = true -> 8 * ch_cg_bytes c + ch_inval_pos c < 8 * len;
  tp_len : len < 2 ^ 28
}.

(** Zero padding / cutting of a value to [n] bytes. *)
Definition pad (n : nat) (s : list N) : list N := firstn n (s ++ repeat 0 n).

(** A VLSD channel with a 64-bit index inside the data bytes. *)
Record vlsd_placed (c : chan) (len : N) : Prop := {
  vp_type : ch_type c = VariableLength;
  vp_bits : ch_bits c = 64;
  vp_bit : ch_bit c = 0;
  vp_array : ch_array c <= 1;
  vp_id : ch_vlsd_id c = 0;
  vp_data : ch_byte c + 8 <= ch_cg_bytes c;
  vp_cg : ch_cg_bytes c <= len;
  vp_inv : ch_invalid c = true -> 8 * ch_cg_bytes c + ch_inval_pos c < 8 * len;
  vp_len : len < 2 ^ 28
}.

