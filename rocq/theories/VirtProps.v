(** C92: the value of a virtual channel is the number of the sample. *)
From Coq Require Import Lia.
From Verif Require Import Base PickModel ChannelModel ChannelSpec XmlModel StreamModel StreamSpec IdProofs
  ObsModel ObsSpec ObsProofs ObsProps PickSpec PickProofs PickFileModel VirtModel.
Local Open Scope N_scope.

(** A virtual channel as this library writes it: it takes no place in the record. *)
Definition virtual_written (c : ChannelModel.chan) : Prop :=
  exists c0 offset inval, (ch_type c0 = VirtualMaster \/ ch_type c0 = VirtualData) /\
    c = prepare_channel c0 offset inval.

Lemma virtual_bits : forall c, virtual_written c -> ch_bits c = 0.
Proof.
  intros c (c0 & o & i & T & ->). unfold prepare_channel, prepare_bits.
  destruct T as [-> | ->]; reflexivity.
Qed.

(** A data group is read with any attached observers that do not stop the reading. The observer of a virtual
    unsigned channel, as this library writes it, shows for every sample with a record the sample's number,
    and shows it as valid. Partial: signed and floating-point channels are not covered, since it does not
    hold for them (next theorems). *)
Theorem C92_unsigned_partial : forall to_float to_double c rid rv d recs blocks fuel ids g0 p,
  virtual_written c -> ch_dtype c = UnsignedLe \/ ch_dtype c = UnsignedBe ->
  let needs := needs_of ids in
  let g := init_fast needs (map g_id (d_groups d)) g0 in
  let nof := nof_of d rid in
  let h := virtual_chan to_float to_double c rid in
  let t0 := VNum (zero_of c) in
  dg_ok d -> Forall (rec_ok d) recs -> Forall (fun b => b <> []) blocks ->
  concat blocks = stream d recs -> (length (stream d recs) < fuel)%nat ->
  p <> 0 -> In p (do_list g0) -> In rid (ids p) -> In rid (map g_id (d_groups d)) ->
  nof * ch_array c < 2 ^ 64 ->
  exists evs,
    read_data d (subscribing needs g0) (fun e => fst (notify_obs (noted yes) g e [])) fuel blocks
      = Some (Ok evs) /\
    forall s i, s < nof -> i < ch_array c -> (N.to_nat s < length (payloads rid recs))%nat ->
      exists v, get_sample t0 h (run_obs h rv (calls_of p (all_calls yes g evs)) (cobs_new t0 h nof)) s i
                = (true, VNum v) /\ as_uint64 v = Some s.
Proof.
  intros tf td c rid rv d recs blocks fuel ids g0 p V T needs g nof h t0 D1 D2 D3 D4 D5 P1 P2 P3 P4 P5.
  destruct (C52_file vvalue t0 h rv d recs blocks fuel ids g0 p D1 D2 D3 D4 D5 P1 P2 P3 P4
              ltac:(left; discriminate) P5) as (evs & R & G).
  exists evs. split; [exact R|]. intros s i Hs Hi L.
  destruct (nth_error (payloads rid recs) (N.to_nat s)) as [data|] eqn:E;
    [|apply nth_error_None in E; lia].
  assert (S64: s < 2 ^ 64) by (change (s < nof) in Hs; nia).
  exists (VU s). split.
  - refine (eq_trans (eq_trans (G s i Hs Hi) (f_equal (fun o => match o with Some data => of_record t0 h rv s data i
      | None => (false, t0) end) E)) _).
    cbv beta iota. unfold of_record, h, virtual_chan. cbn [h_kind h_virt]. unfold pick_store, data_bytes.
    rewrite (virtual_bits c V). change (0 / 8 + (if 0 <? 0 mod 8 then 1 else 0)) with 0.
    destruct T as [-> | ->]; cbn [N.eqb virtual_value];
      rewrite N.mod_small by exact S64; reflexivity.
  - cbn [as_uint64]. unfold w64. rewrite N.mod_small by exact S64. reflexivity.
Qed.
Print Assumptions C92_unsigned_partial.

(** The same for text: the observer of a virtual text channel shows the decimal text of the number. *)
Theorem C92_text_partial : forall to_float to_double c sample,
  ch_dtype c = StrAscii \/ ch_dtype c = StrUtf8 \/ ch_dtype c = StrUtf16Le \/ ch_dtype c = StrUtf16Be ->
  h_virt (virtual_chan to_float to_double c 0) sample = VText (int_text (Z.of_N sample)).
Proof.
  intros tf td c sample T. unfold virtual_chan. cbn [h_virt]. unfold pick_store.
  destruct T as [-> |[-> |[-> | ->]]]; reflexivity.
Qed.
Print Assumptions C92_text_partial.

(** A virtual signed channel, as this library writes it, shows the number of each of the first 128 samples,
    and for every other sample the number that is congruent to it modulo 256 between -128 and 127. *)
Theorem C92_signed : forall to_float to_double c rid sample,
  virtual_written c -> ch_dtype c = SignedLe \/ ch_dtype c = SignedBe ->
  exists z, h_virt (virtual_chan to_float to_double c rid) sample = VNum (VS z) /\
    as_int64 (VS z) = Some z /\ (-128 <= z < 128)%Z /\ (z mod 256 = Z.of_N sample mod 256)%Z /\
    (sample < 128 -> z = Z.of_N sample).
Proof.
  intros tf td c rid sample V T.
  pose proof (N.mod_lt sample (2 ^ 8) ltac:(discriminate)) as B.
  assert (R: (-128 <= twos 8 (sample mod 2 ^ 8) < 128)%Z)
    by (exact (ChannelProofs.twos_range 8 _ ltac:(discriminate) B)).
  exists (twos 8 (sample mod 2 ^ 8)). split; [|split; [|split; [exact R|split]]].
  - unfold virtual_chan. cbn [h_virt]. unfold pick_store, data_bytes. rewrite (virtual_bits c V).
    destruct T as [-> | ->]; reflexivity.
  - cbn [as_int64]. f_equal. set (z := twos 8 (sample mod 2 ^ 8)) in *.
    pose proof (keep_signed 64 8 z ltac:(lia) ltac:(lia)) as K. rewrite N.mod_small in K.
    + apply K. exact R.
    + unfold to_u64. pose proof (Z.mod_pos_bound z (2 ^ 64) ltac:(lia)). change (2 ^ 64) with (Z.to_N (2 ^ 64)). lia.
  - pose proof (ChannelProofs.twos_mod 8 _ ltac:(discriminate) B) as M. change (Z.of_N (2 ^ 8)) with 256%Z in M.
    rewrite M. rewrite N2Z.inj_mod. reflexivity.
  - intros L. unfold twos. change (2 ^ 8) with 256. rewrite N.mod_small by lia.
    change (2 ^ (8 - 1)) with 128. destruct (N.ltb_spec sample 128); lia.
Qed.
Print Assumptions C92_signed.

(** FINDING. The value of a virtual channel is the number of the sample: false for signed channels. The writer
    sets the size of a virtual channel to 0 bits (cn4block.cpp:1057-1062), and the reader observes a signed
    channel of 0 bytes in an int8_t (mdfreader.cpp:127-130): sample 128 of a virtual master has the time -128. *)
Theorem C92_signed_refuted : ~ forall to_float to_double c rid sample,
  virtual_written c -> ch_dtype c = SignedLe -> sample < 2 ^ 63 ->
  exists v, h_virt (virtual_chan to_float to_double c rid) sample = VNum v /\ as_int64 v = Some (Z.of_N sample).
Proof.
  intros H.
  set (c0 := ChannelModel.mkChan VirtualMaster SignedLe 0 0 64 1 false 0 0 0).
  destruct (H id id (prepare_channel c0 0 0) 1 128) as (v & E & A).
  - exists c0, 0, 0. split; [left; reflexivity|reflexivity].
  - reflexivity.
  - reflexivity.
  - vm_compute in E. injection E as <-. vm_compute in A. discriminate A.
Qed.
Print Assumptions C92_signed_refuted.

(** A virtual floating-point channel, as this library writes it, shows the number of the sample rounded to a
    float, whatever size the user gave the channel: not the number itself from 2^24 + 1 on. *)
Theorem C92_float : forall to_float to_double c rid sample,
  virtual_written c -> ch_dtype c = FloatLe \/ ch_dtype c = FloatBe ->
  h_virt (virtual_chan to_float to_double c rid) sample = VNum (VF (to_float sample)).
Proof.
  intros tf td c rid sample V T. unfold virtual_chan. cbn [h_virt]. unfold pick_store, data_bytes.
  rewrite (virtual_bits c V). destruct T as [-> | ->]; reflexivity.
Qed.
Print Assumptions C92_float.

(** A virtual master of an unsigned type next to a byte channel: two samples of three. *)
Example C92_witness :
  let d := build4 [mkGroup 0 false 1 0 3; mkGroup 0 false 1 0 1] in
  let recs := [Rec 1 [16]; Rec 1 [255]] in
  let c := prepare_channel (ChannelModel.mkChan VirtualMaster UnsignedLe 0 0 8 1 false 0 1 0) 0 0 in
  let h := virtual_chan id id c 1 in
  let ids := fun _ : N => [1] in
  let g0 := fold_left obs_apply [ONew 7] dgo_new in
  let g := init_fast (needs_of ids) [1; 2] g0 in
  let evs := [Ev 0 1 [16]; Ev 1 1 [255]] in
  virtual_written c /\ dg_ok d /\ Forall (rec_ok d) recs /\
  read_data d (subscribing (needs_of ids) g0) (fun e => fst (notify_obs (noted yes) g e [])) 20 [stream d recs]
  = Some (Ok evs) /\
  map (fun s => get_sample (VNum (VU 0)) h (run_obs h true (calls_of 7 (all_calls yes g evs)) (cobs_new (VNum (VU 0)) h 3)) s 0)
    [0; 1; 2] = [(true, VNum (VU 0)); (true, VNum (VU 1)); (false, VNum (VU 0))].
Proof.
  split; [eexists _, 0, 0; split; [|reflexivity]; left; reflexivity|]. split.
  { constructor; cbn; try discriminate; auto.
    - repeat constructor; cbn; intuition discriminate.
    - intros g [<-|[<-|[]]] _; reflexivity. }
  split.
  { repeat constructor; exists (mkGroup 1 false 1 0 3); cbn; auto. }
  vm_compute. auto.
Qed.
