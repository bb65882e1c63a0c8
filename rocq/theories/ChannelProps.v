(** Property theorems about channel values (C01-C09, C17). *)
From Verif Require Import Base ChannelModel ChannelSpec BitProofs ChannelProofs SetProofs HistProofs
  VlsdProofs ChanExtra.
Local Open Scope N_scope.

(** C01. Reading an unsigned little-endian channel gives exactly its bits. *)
Theorem C01_unsigned_le_read : forall c rec idx,
  bytes_ok rec -> N.of_nat (length rec) < 2 ^ 28 ->
  ch_dtype c = UnsignedLe -> 1 <= ch_bits c <= 64 ->
  field_inside rec (field_start (ch_byte c) (ch_bit c) (ch_bits c) idx) (ch_bits c) ->
  get_unsigned c rec idx
  = Ok (field_le rec (field_start (ch_byte c) (ch_bit c) (ch_bits c) idx) (ch_bits c)).
Proof.
  intros c rec idx H1 H2 H3 H4 H5.
  exact (get_unsigned_field c rec idx true H1 H2
           ltac:(unfold uint_le; rewrite H3; destruct (is_vlsd (ch_type c)); reflexivity) H4 H5).
Qed.
Print Assumptions C01_unsigned_le_read.

Theorem C01_only_field_bits_matter : forall c r1 r2 idx,
  bytes_ok r1 -> bytes_ok r2 ->
  N.of_nat (length r1) < 2 ^ 28 -> N.of_nat (length r2) < 2 ^ 28 ->
  ch_dtype c = UnsignedLe -> 1 <= ch_bits c <= 64 ->
  let s := field_start (ch_byte c) (ch_bit c) (ch_bits c) idx in
  field_inside r1 s (ch_bits c) -> field_inside r2 s (ch_bits c) ->
  (forall k, s <= k < s + ch_bits c -> buf_bit r1 k = buf_bit r2 k) ->
  get_unsigned c r1 idx = get_unsigned c r2 idx.
Proof.
  intros c r1 r2 idx H1 H2 L1 L2 Hd Hb s I1 I2 Hbits.
  rewrite (C01_unsigned_le_read c r1 idx), (C01_unsigned_le_read c r2 idx); auto.
  f_equal. exact (field_le_bits r1 r2 s (ch_bits c) H1 H2 Hbits).
Qed.
Print Assumptions C01_only_field_bits_matter.

Example C01_witness :
  let c := mkChan FixedLength UnsignedLe 1 3 11 1 false 0 4 0 in
  let rec := [255; 168; 59; 7] in
  field_inside rec (field_start (ch_byte c) (ch_bit c) (ch_bits c) 0) (ch_bits c) /\
  bytes_ok rec /\ get_unsigned c rec 0 = Ok 1909.
Proof. vm_compute. repeat split; try discriminate. repeat constructor; reflexivity. Qed.

(** C02. Big-endian. *)
Theorem C02_unsigned_be_read : forall c rec idx,
  bytes_ok rec -> N.of_nat (length rec) < 2 ^ 28 ->
  ch_dtype c = UnsignedBe -> ch_type c <> VariableLength -> 1 <= ch_bits c <= 64 ->
  field_inside rec (field_start (ch_byte c) (ch_bit c) (ch_bits c) idx) (ch_bits c) ->
  get_unsigned c rec idx
  = Ok (field_be rec (field_start (ch_byte c) (ch_bit c) (ch_bits c) idx) (ch_bits c)).
Proof.
  intros c rec idx H1 H2 H3 H3' H4 H5.
  exact (get_unsigned_field c rec idx false H1 H2
           ltac:(unfold uint_le; rewrite H3; destruct (ch_type c); auto; contradiction) H4 H5).
Qed.
Print Assumptions C02_unsigned_be_read.

Example C02_witness :
  let c := mkChan FixedLength UnsignedBe 1 3 11 1 false 0 4 0 in
  let rec := [255; 168; 59; 7] in
  field_inside rec (field_start (ch_byte c) (ch_bit c) (ch_bits c) 0) (ch_bits c) /\
  get_unsigned c rec 0 = Ok 1287 /\
  get_unsigned (mkChan FixedLength UnsignedBe 0 0 16 1 false 0 4 0) [1; 2] 0 = Ok 258.
Proof. vm_compute. repeat split; discriminate. Qed.

(** C03. Signed values. *)
Theorem C03_signed_read : forall c rec idx le,
  bytes_ok rec -> N.of_nat (length rec) < 2 ^ 28 ->
  (ch_dtype c = SignedLe /\ le = true) \/ (ch_dtype c = SignedBe /\ le = false) ->
  1 <= ch_bits c <= 64 ->
  let s := field_start (ch_byte c) (ch_bit c) (ch_bits c) idx in
  field_inside rec s (ch_bits c) ->
  exists z, get_signed c rec idx = Ok z /\
    (- Z.of_N (2 ^ (ch_bits c - 1)) <= z < Z.of_N (2 ^ (ch_bits c - 1)))%Z /\
    (z mod Z.of_N (2 ^ ch_bits c))%Z = Z.of_N (field le rec s (ch_bits c)).
Proof.
  intros c rec idx le H1 H2 Hd Hb s Hin.
  exists (twos (ch_bits c) (field le rec s (ch_bits c))).
  pose proof (field_bound le rec s (ch_bits c)) as Hf.
  split; [|split].
  - rewrite get_signed_field by auto. destruct Hd as [[-> ->]|[-> ->]]; reflexivity.
  - exact (twos_range _ _ (proj1 Hb) Hf).
  - exact (twos_mod _ _ (proj1 Hb) Hf).
Qed.
Print Assumptions C03_signed_read.

Example C03_witness :
  get_signed (mkChan FixedLength SignedLe 0 4 12 1 false 0 2 0) [0; 128] 0 = Ok (-2048)%Z /\
  get_signed (mkChan FixedLength SignedBe 0 0 16 1 false 0 2 0) [255; 254] 0 = Ok (-2)%Z.
Proof. vm_compute. split; reflexivity. Qed.

(** C04. Reads outside the record. The hypothesis [geom_ok] excludes wrap-around of the offset
    arithmetic; without it the claim is false (below). *)
Theorem C04_read_bounds_partial : forall h2d f2d c rec idx,
  bytes_ok rec -> N.of_nat (length rec) < 2 ^ 28 -> geom_ok c idx ->
  get_channel h2d f2d c rec idx <> UB /\
  (~ field_inside rec (field_start (ch_byte c) (ch_bit c) (ch_bits c) idx) (ch_bits c) ->
   get_channel h2d f2d c rec idx = Fail).
Proof. exact (fun h f => get_channel_safe h f (fun x => x)). Qed.
Print Assumptions C04_read_bounds_partial.

(** An array index near 2^64 / bit count wraps the range check: out-of-bounds read. *)
Theorem C04_index_wrap_refuted : exists c rec idx,
  bytes_ok rec /\ idx < 2 ^ 64 /\ get_unsigned c rec idx = UB.
Proof.
  exists (mkChan FixedLength UnsignedLe 0 0 16 1 false 0 4 0), [1; 2; 3; 4], (2 ^ 60 - 1).
  vm_compute. repeat split; repeat constructor.
Qed.
Print Assumptions C04_index_wrap_refuted.

(** A byte offset of 2^29 wraps to 0: a channel outside the record is read as valid. *)
Theorem C04_offset_wrap_refuted : exists c rec v,
  bytes_ok rec /\ ch_byte c < 2 ^ 32 /\
  ~ field_inside rec (field_start (ch_byte c) (ch_bit c) (ch_bits c) 0) (ch_bits c) /\
  get_unsigned c rec 0 = Ok v.
Proof.
  exists (mkChan FixedLength UnsignedLe (2 ^ 29) 0 8 1 false 0 4 0), [7], 7.
  vm_compute. repeat split; auto; repeat constructor.
Qed.
Print Assumptions C04_offset_wrap_refuted.

(** In every record of more than 2^28 bytes an 8-bit channel at byte 2^28 is read out of bounds. *)
Theorem C04_big_record_refuted : forall rec, 2 ^ 28 < N.of_nat (length rec) ->
  get_unsigned (mkChan FixedLength UnsignedLe (2 ^ 28) 0 8 1 false 0 (2 ^ 28 + 1) 0) rec 0 = UB.
Proof. exact big_record_ub. Qed.
Print Assumptions C04_big_record_refuted.

(** A length channel (MLSD) with the value 2^64-1 wraps the range check of a byte array. *)
Theorem C04_mlsd_wrap_refuted : exists c m rec, bytes_ok rec /\ get_bytes c (Some m) [] rec = UB.
Proof.
  exists (mkChan MaxLength ByteArray 8 0 64 1 false 0 16 0),
    (mkChan FixedLength UnsignedLe 0 0 64 1 false 0 16 0),
    (repeat 255 8 ++ repeat 0 8).
  vm_compute. split; auto; repeat constructor.
Qed.
Print Assumptions C04_mlsd_wrap_refuted.

Example C04_witness :
  let c := mkChan FixedLength UnsignedLe 3 0 16 1 false 0 4 0 in
  geom_ok c 0 /\ get_channel (fun x => x) (fun x => x) c [1; 2; 3; 4] 0 = Fail /\
  get_channel (fun x => x) (fun x => x) c [1; 2; 3; 4; 5] 0 = Ok (VU 1284, true).
Proof. vm_compute. repeat split. Qed.

(** C05. Set then get. *)
Theorem C05_set_get : forall h2d f2d d2f c buf v valid idx,
  bytes_ok buf -> placed c (N.of_nat (length buf)) -> idx < elems c -> value_fits d2f c v ->
  exists buf', set_channel d2f c buf v valid idx = Ok buf' /\
    length buf' = length buf /\ bytes_ok buf' /\
    get_channel h2d f2d c buf' idx
    = Ok (as_stored f2d d2f c v, if ch_invalid c then valid else true).
Proof. exact set_get. Qed.
Print Assumptions C05_set_get.

Theorem C05_unsigned_modulo_width : forall h2d f2d d2f c buf u valid idx,
  bytes_ok buf -> placed c (N.of_nat (length buf)) -> idx < elems c ->
  ch_dtype c = UnsignedLe \/ ch_dtype c = UnsignedBe ->
  exists buf', set_channel d2f c buf (VU u) valid idx = Ok buf' /\
    get_channel h2d f2d c buf' idx
    = Ok (VU (u mod 2 ^ ch_bits c), if ch_invalid c then valid else true).
Proof. exact set_unsigned_wraps. Qed.
Print Assumptions C05_unsigned_modulo_width.

Example C05_witness :
  let c := mkChan FixedLength SignedBe 2 0 16 3 true 1 8 0 in
  let buf := repeat 170 9 in
  placed c (N.of_nat (length buf)) /\ value_fits (fun x => x) c (VS (-300)) /\ 2 < elems c /\
  (exists b, set_channel (fun x => x) c buf (VS (-300)) false 2 = Ok b /\
     b = [170; 170; 170; 170; 170; 170; 254; 212; 170]).
Proof.
  cbv zeta. split.
  - constructor; try (vm_compute; auto; discriminate).
  - split; [vm_compute; split; [discriminate|reflexivity]|].
    split; [reflexivity|]. eexists. split; [vm_compute; reflexivity|reflexivity].
Qed.

(** C06. Nothing but the element's bytes and its invalidation bit changes. *)
Theorem C06_setter_frame : forall d2f c buf v valid idx buf' k,
  bytes_ok buf -> placed c (N.of_nat (length buf)) -> idx < elems c -> value_fits d2f c v ->
  set_channel d2f c buf v valid idx = Ok buf' ->
  (k < 8 * (ch_byte c + data_bytes c * idx) \/
   8 * (ch_byte c + data_bytes c * idx + data_bytes c) <= k) ->
  buf_bit buf' k = if ch_invalid c && (k =? inv_bit c idx) then negb valid else buf_bit buf k.
Proof. exact set_channel_bits. Qed.
Print Assumptions C06_setter_frame.

(** After any history of sets on a prepared group each channel element reads as the value last
    written to it (or zero). *)
Theorem C06_history_last_write : forall h2d f2d d2f l l' nd ni ops,
  record_bytes l < 2 ^ 28 -> prepare_group l = (l', nd, ni) -> Forall (op_ok d2f l l') ops ->
  exists buf, run_ops d2f l' ops (fresh_buffer nd ni) = Ok buf /\
    length buf = length (fresh_buffer nd ni) /\
    forall k c0 c idx, nth_error l k = Some c0 -> nth_error l' k = Some c ->
      numeric c0 -> idx < elems c ->
      get_channel h2d f2d c buf idx =
      Ok (match last_write ops k idx with
          | Some (v, valid) => (as_stored f2d d2f c v, if ch_invalid c then valid else true)
          | None => (zero_value f2d c, true)
          end).
Proof. exact history. Qed.
Print Assumptions C06_history_last_write.

Definition demo_group : list chan :=
  [ mkChan Master FloatLe 0 0 64 1 false 0 0 0;
    mkChan FixedLength UnsignedBe 0 0 16 3 true 0 0 0;
    mkChan FixedLength SignedLe 0 0 12 1 true 0 0 0 ].

Example C06_witness :
  record_bytes demo_group < 2 ^ 28 /\
  exists l' nd ni, prepare_group demo_group = (l', nd, ni) /\ nd = 22 /\ ni = 1 /\
    Forall (op_ok (fun x => x) demo_group l')
      [mkOp 1 (VU 513) true 2; mkOp 2 (VS (-7)) false 0; mkOp 1 (VU 5) true 2].
Proof.
  split; [reflexivity|].
  eexists _, _, _. split; [vm_compute; reflexivity|]. split; [reflexivity|]. split; [reflexivity|].
  apply Forall_cons; [|apply Forall_cons; [|apply Forall_cons; [|apply Forall_nil]]];
    unfold op_ok; eexists _, _;
    (split; [reflexivity|]); (split; [reflexivity|]);
    (split; [split; [left; reflexivity|exact I]|]); (split; [reflexivity|]).
  - reflexivity.
  - split; [discriminate|reflexivity].
  - reflexivity.
Qed.

(** C07. Setters and out-of-range indexes: true of every setter but SetUnsignedValueBe, when the
    64-bit position arithmetic does not wrap. *)
Theorem C07_set_bounds_partial : forall d2f c buf v valid idx,
  ch_dtype c <> UnsignedBe -> set_geom_ok c idx ->
  set_channel d2f c buf v valid idx <> UB /\
  (forall b, set_channel d2f c buf v valid idx = Ok b -> length b = length buf) /\
  (N.of_nat (length buf) < ch_byte c + data_bytes c * (idx + 1) ->
   forall b, set_channel d2f c buf v valid idx = Ok b ->
   b = buf \/ b = set_valid c buf false idx).
Proof. exact (fun d => set_channel_safe d d d). Qed.
Print Assumptions C07_set_bounds_partial.

(** SetUnsignedValueBe checks the start of the element only. *)
Theorem C07_unsigned_be_refuted : exists c buf v idx,
  set_geom_ok c idx /\ ch_dtype c = UnsignedBe /\
  set_channel (fun x => x) c buf v true idx = UB.
Proof.
  exists (mkChan FixedLength UnsignedBe 0 0 16 1 false 0 2 0), [1; 2], (VU 3), 1.
  vm_compute. repeat split; reflexivity.
Qed.
Print Assumptions C07_unsigned_be_refuted.

(** Index 2^64-1 passes the check of every setter. *)
Theorem C07_index_wrap_refuted : exists c buf v idx,
  ch_dtype c = UnsignedLe /\ idx < 2 ^ 64 /\
  set_channel (fun x => x) c buf v true idx = UB.
Proof.
  exists (mkChan FixedLength UnsignedLe 0 0 16 1 false 0 2 0), [1; 2], (VU 3), (2 ^ 64 - 1).
  vm_compute. repeat split; reflexivity.
Qed.
Print Assumptions C07_index_wrap_refuted.

(** An index beyond the channel's own array, but inside the buffer, overwrites the next channel. *)
Theorem C07_neighbour_refuted : exists c1 c2 buf v idx buf',
  placed c1 (N.of_nat (length buf)) /\ placed c2 (N.of_nat (length buf)) /\
  elem_disjoint c1 0 c2 0 /\ elems c1 <= idx /\
  set_channel (fun x => x) c1 buf v true idx = Ok buf' /\
  get_channel (fun x => x) (fun x => x) c2 buf' 0 <> get_channel (fun x => x) (fun x => x) c2 buf 0.
Proof.
  exists (mkChan FixedLength UnsignedLe 0 0 8 1 false 0 2 0),
    (mkChan FixedLength UnsignedLe 1 0 8 1 false 0 2 0), [1; 2], (VU 3), 1, [1; 3].
  split; [|split].
  - constructor; try (vm_compute; auto; discriminate).
  - constructor; try (vm_compute; auto; discriminate).
  - vm_compute. repeat split; try discriminate. left. constructor.
Qed.
Print Assumptions C07_neighbour_refuted.

Example C07_witness :
  let c := mkChan FixedLength SignedLe 0 0 32 1 true 0 6 0 in
  set_geom_ok c 1 /\
  set_channel (fun x => x) c [1; 2; 3; 4; 5; 6; 0] (VS 9) true 1 = Ok [1; 2; 3; 4; 5; 6; 2].
Proof. vm_compute. repeat split. Qed.

(** C08. Invalidation bits. *)
Theorem C08_valid_bits_independent : forall c1 i1 c2 i2 buf v,
  ch_invalid c1 = true -> ch_invalid c2 = true ->
  inv_bit c1 i1 < 8 * N.of_nat (length buf) -> inv_bit c2 i2 < 8 * N.of_nat (length buf) ->
  N.of_nat (length buf) < 2 ^ 28 ->
  get_valid c2 (set_valid c1 buf v i1) i2 =
  if inv_bit c2 i2 =? inv_bit c1 i1 then v else get_valid c2 buf i2.
Proof. exact valid_independent. Qed.
Print Assumptions C08_valid_bits_independent.

Theorem C08_valid_changes_one_bit : forall c buf v idx k,
  ch_invalid c = true -> inv_bit c idx < 8 * N.of_nat (length buf) ->
  N.of_nat (length buf) < 2 ^ 28 ->
  buf_bit (set_valid c buf v idx) k = if k =? inv_bit c idx then negb v else buf_bit buf k.
Proof. exact set_valid_bits. Qed.
Print Assumptions C08_valid_changes_one_bit.

Example C08_witness :
  let c := mkChan FixedLength UnsignedLe 0 0 8 1 true 9 2 0 in
  inv_bit c 0 < 8 * N.of_nat (length [1; 2; 0; 0]) /\ inv_bit c 0 = 25 /\
  set_valid c [1; 2; 0; 0] false 0 = [1; 2; 0; 2] /\
  get_valid c [1; 2; 0; 2] 0 = false.
Proof. vm_compute. repeat split. Qed.

(** C09. Layout of a prepared group. *)
Theorem C09_layout : forall l l' nd ni, record_bytes l < 2 ^ 28 -> prepare_group l = (l', nd, ni) ->
  length l' = length l /\ nd = sum_of space_of l /\
  8 * ni >= sum_of invals_of l /\ 8 * ni < sum_of invals_of l + 8 /\
  (forall k c0 c, nth_error l k = Some c0 -> nth_error l' k = Some c ->
     ch_byte c = sum_of space_of (firstn k l) /\ ch_bit c = 0 /\
     ch_byte c + data_bytes c * elems c <= nd /\
     data_bytes c * elems c = space_of c0 /\
     (ch_invalid c = true ->
      ch_inval_pos c = sum_of invals_of (firstn k l) /\ ch_inval_pos c + elems c <= 8 * ni)) /\
  (forall j k cj ck, nth_error l' j = Some cj -> nth_error l' k = Some ck -> (j < k)%nat ->
     ch_byte cj + data_bytes cj * elems cj <= ch_byte ck /\
     (ch_invalid cj = true -> ch_invalid ck = true ->
      ch_inval_pos cj + elems cj <= ch_inval_pos ck)).
Proof. exact layout_all. Qed.
Print Assumptions C09_layout.

Example C09_witness : record_bytes demo_group < 2 ^ 28 /\
  exists l', prepare_group demo_group = (l', 22, 1) /\ map ch_byte l' = [0; 8; 14] /\
    map ch_inval_pos l' = [0; 0; 3].
Proof. split; [reflexivity|]. eexists. vm_compute. repeat split. Qed.

(** C17. Signal data. *)
Theorem C17_sd_lookup_appended : forall vs data k v i,
  nth_error vs k = Some v -> N.of_nat (length v) < 2 ^ 32 ->
  nth_error (fst (sd_appends data vs)) k = Some i ->
  N.of_nat (length (snd (sd_appends data vs))) < 2 ^ 64 ->
  sd_lookup (snd (sd_appends data vs)) i = Ok v.
Proof. exact sd_lookup_appended. Qed.
Print Assumptions C17_sd_lookup_appended.

Theorem C17_vlsd_set_get : forall c st payload valid,
  vlsd_placed c (N.of_nat (length (sd_buf st))) -> bytes_ok (sd_buf st) ->
  N.of_nat (length payload) < 2 ^ 32 ->
  N.of_nat (length (sd_data st) + 4 + length payload) < 2 ^ 64 ->
  exists st', set_bytes_vlsd c st payload valid = Ok st' /\
    length (sd_buf st') = length (sd_buf st) /\ bytes_ok (sd_buf st') /\
    sd_data st' = sd_data st ++ le_bytes 4 (N.of_nat (length payload)) ++ payload /\
    get_bytes c None (sd_data st') (sd_buf st') = Ok payload.
Proof. exact vlsd_set_get. Qed.
Print Assumptions C17_vlsd_set_get.

Theorem C17_sd_lookup_safe_partial : forall data index,
  bytes_ok data -> N.of_nat (length data) < 2 ^ 63 -> index < 2 ^ 64 - 4 ->
  sd_lookup data index <> UB.
Proof. exact sd_lookup_safe. Qed.
Print Assumptions C17_sd_lookup_safe_partial.

(** The four largest indexes pass the check: out-of-bounds read (a corrupt file is enough). *)
Theorem C17_index_wrap_refuted : exists data index,
  bytes_ok data /\ index < 2 ^ 64 /\ sd_lookup data index = UB.
Proof.
  exists [1; 0; 0; 0; 65], (2 ^ 64 - 4). vm_compute. repeat split; repeat constructor.
Qed.
Print Assumptions C17_index_wrap_refuted.

(** Setting a variable-length value as invalid leaves it valid. *)
Theorem C17_vlsd_invalid_flag_refuted : exists c st st',
  vlsd_placed c (N.of_nat (length (sd_buf st))) /\ ch_invalid c = true /\
  set_bytes_vlsd c st [1; 2; 3] false = Ok st' /\ get_valid c (sd_buf st') 0 = true.
Proof.
  exists (mkChan VariableLength ByteArray 0 0 64 1 true 0 8 0), (mkSd (repeat 0 9) []).
  eexists. split; [|split; [reflexivity|]].
  - constructor; try (vm_compute; auto; discriminate).
  - split; [vm_compute; reflexivity|vm_compute; reflexivity].
Qed.
Print Assumptions C17_vlsd_invalid_flag_refuted.

(** Fixed-size byte arrays and texts. *)
Theorem C17_fixed_bytes_set_get : forall c buf s valid data,
  text_placed c (N.of_nat (length buf)) ->
  exists buf', set_bytes_fixed c buf s valid = Ok buf' /\ length buf' = length buf /\
    get_bytes c None data buf' = Ok (pad (N.to_nat (ch_bits c / 8)) s).
Proof. exact set_bytes_fixed_get. Qed.
Print Assumptions C17_fixed_bytes_set_get.

Theorem C17_fixed_text_set_get : forall c buf s valid data,
  text_placed c (N.of_nat (length buf)) -> ~ In 0 s ->
  exists buf', set_text_fixed c buf s valid = Ok buf' /\ length buf' = length buf /\
    get_text_utf8 c data buf' = Ok (firstn (N.to_nat (ch_bits c / 8) - 1) s).
Proof. exact set_text_fixed_get. Qed.
Print Assumptions C17_fixed_text_set_get.

Example C17_witness :
  let vs := [[65; 66]; []; [67]] in
  fst (sd_appends [] vs) = [0; 6; 10] /\
  sd_lookup (snd (sd_appends [] vs)) 0 = Ok [65; 66] /\
  sd_lookup (snd (sd_appends [] vs)) 10 = Ok [67] /\
  text_placed (mkChan FixedLength StrUtf8 1 0 32 1 false 0 5 0) 5.
Proof.
  vm_compute. repeat split; try discriminate.
Qed.
