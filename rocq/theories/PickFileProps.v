(** C91, from the bytes of a data group to the numbers an observer gives. *)
From Coq Require Import Lia.
From Verif Require Import Base PickModel ChannelModel ChannelSpec BitProofs ChannelProps StreamModel StreamSpec IdProofs
  ObsModel ObsSpec ObsProofs ObsProps PickSpec PickProofs PickProps PickFileModel.
Local Open Scope N_scope.

(** A data group is read with any attached observers that do not stop the reading. For every sample whose
    record is in the data, and every array index, the observer of an unsigned channel gives the number in
    the bits of that record, with the validity that record states. *)
Theorem C91_file_unsigned : forall half_to_double float_to_double double_to_float c rid le rv d recs blocks fuel ids g0 p,
  casts_exact half_to_double float_to_double double_to_float ->
  ch_type c <> VariableLength -> 1 <= ch_bits c <= 64 ->
  (ch_dtype c = UnsignedLe /\ le = true) \/ (ch_dtype c = UnsignedBe /\ le = false) ->
  let needs := needs_of ids in
  let g := init_fast needs (map g_id (d_groups d)) g0 in
  let nof := nof_of d rid in
  let h := observer_chan half_to_double float_to_double double_to_float c rid in
  dg_ok d -> Forall (rec_ok d) recs -> Forall (fun b => b <> []) blocks ->
  concat blocks = stream d recs -> (length (stream d recs) < fuel)%nat ->
  p <> 0 -> In p (do_list g0) -> In rid (ids p) -> In rid (map g_id (d_groups d)) ->
  nof * ch_array c < 2 ^ 64 ->
  exists evs,
    read_data d (subscribing needs g0) (fun e => fst (notify_obs (noted yes) g e [])) fuel blocks
      = Some (Ok evs) /\
    forall s i data, s < nof -> i < ch_array c ->
      nth_error (payloads rid recs) (N.to_nat s) = Some data ->
      bytes_ok data -> N.of_nat (length data) < 2 ^ 28 ->
      let start := field_start (ch_byte c) (ch_bit c) (ch_bits c) i in
      field_inside data start (ch_bits c) ->
      exists v, get_sample (zero_of c) h
                  (run_obs h rv (calls_of p (all_calls yes g evs)) (cobs_new (zero_of c) h nof)) s i
                = (get_valid c data i, v) /\
        as_uint64 v = Some (field le data start (ch_bits c)).
Proof.
  intros h2d f2d d2f c rid le rv d recs blocks fuel ids g0 p Hc Ht Hn Hd needs g nof h D1 D2 D3 D4 D5 P1 P2 P3 P4 P5.
  destruct (C52_file value (zero_of c) h rv d recs blocks fuel ids g0 p D1 D2 D3 D4 D5 P1 P2 P3 P4
              ltac:(left; discriminate) P5) as (evs & R & G).
  exists evs. split; [exact R|]. intros s i data Hs Hi N_ Hb Hl start Hf.
  destruct (C91_unsigned h2d f2d d2f c data i le Hb Hl Ht Hd Hn Hf Hc) as (v & text & O & U & _).
  exists v. split; [|exact U].
  refine (eq_trans (eq_trans (G s i Hs Hi) (f_equal (fun o => match o with Some data => of_record (zero_of c) h rv s data i
    | None => (false, zero_of c) end) N_)) _).
  cbv beta iota. unfold of_record, h, observer_chan. cbn [h_kind h_dec]. rewrite O. reflexivity.
Qed.
Print Assumptions C91_file_unsigned.

(** The same for a signed channel. *)
Theorem C91_file_signed : forall half_to_double float_to_double double_to_float c rid le rv d recs blocks fuel ids g0 p,
  casts_exact half_to_double float_to_double double_to_float -> 1 <= ch_bits c <= 64 ->
  (ch_dtype c = SignedLe /\ le = true) \/ (ch_dtype c = SignedBe /\ le = false) ->
  let needs := needs_of ids in
  let g := init_fast needs (map g_id (d_groups d)) g0 in
  let nof := nof_of d rid in
  let h := observer_chan half_to_double float_to_double double_to_float c rid in
  dg_ok d -> Forall (rec_ok d) recs -> Forall (fun b => b <> []) blocks ->
  concat blocks = stream d recs -> (length (stream d recs) < fuel)%nat ->
  p <> 0 -> In p (do_list g0) -> In rid (ids p) -> In rid (map g_id (d_groups d)) ->
  nof * ch_array c < 2 ^ 64 ->
  exists evs,
    read_data d (subscribing needs g0) (fun e => fst (notify_obs (noted yes) g e [])) fuel blocks
      = Some (Ok evs) /\
    forall s i data, s < nof -> i < ch_array c ->
      nth_error (payloads rid recs) (N.to_nat s) = Some data ->
      bytes_ok data -> N.of_nat (length data) < 2 ^ 28 ->
      let start := field_start (ch_byte c) (ch_bit c) (ch_bits c) i in
      field_inside data start (ch_bits c) ->
      exists v z, get_sample (zero_of c) h
                    (run_obs h rv (calls_of p (all_calls yes g evs)) (cobs_new (zero_of c) h nof)) s i
                  = (get_valid c data i, v) /\
        as_int64 v = Some z /\
        (- Z.of_N (2 ^ (ch_bits c - 1)) <= z < Z.of_N (2 ^ (ch_bits c - 1)))%Z /\
        (z mod Z.of_N (2 ^ ch_bits c))%Z = Z.of_N (field le data start (ch_bits c)).
Proof.
  intros h2d f2d d2f c rid le rv d recs blocks fuel ids g0 p Hc Hn Hd needs g nof h D1 D2 D3 D4 D5 P1 P2 P3 P4 P5.
  destruct (C52_file value (zero_of c) h rv d recs blocks fuel ids g0 p D1 D2 D3 D4 D5 P1 P2 P3 P4
              ltac:(left; discriminate) P5) as (evs & R & G).
  exists evs. split; [exact R|]. intros s i data Hs Hi N_ Hb Hl start Hf.
  destruct (C91_signed h2d f2d d2f c data i le Hb Hl Hd Hn Hf Hc) as (v & z & text & O & U & Z1 & Z2 & _).
  exists v, z. split; [|split; [exact U|split; [exact Z1|exact Z2]]].
  refine (eq_trans (eq_trans (G s i Hs Hi) (f_equal (fun o => match o with Some data => of_record (zero_of c) h rv s data i
    | None => (false, zero_of c) end) N_)) _).
  cbv beta iota. unfold of_record, h, observer_chan. cbn [h_kind h_dec]. rewrite O. reflexivity.
Qed.
Print Assumptions C91_file_signed.

(** A sample whose record is not in the data is shown as invalid. *)
Theorem C91_file_missing : forall half_to_double float_to_double double_to_float c rid rv d recs blocks fuel ids g0 p,
  let needs := needs_of ids in
  let g := init_fast needs (map g_id (d_groups d)) g0 in
  let nof := nof_of d rid in
  let h := observer_chan half_to_double float_to_double double_to_float c rid in
  dg_ok d -> Forall (rec_ok d) recs -> Forall (fun b => b <> []) blocks ->
  concat blocks = stream d recs -> (length (stream d recs) < fuel)%nat ->
  p <> 0 -> In p (do_list g0) -> In rid (ids p) -> In rid (map g_id (d_groups d)) ->
  nof * ch_array c < 2 ^ 64 ->
  exists evs,
    read_data d (subscribing needs g0) (fun e => fst (notify_obs (noted yes) g e [])) fuel blocks
      = Some (Ok evs) /\
    forall s i, s < nof -> i < ch_array c -> nth_error (payloads rid recs) (N.to_nat s) = None ->
      get_sample (zero_of c) h
        (run_obs h rv (calls_of p (all_calls yes g evs)) (cobs_new (zero_of c) h nof)) s i
      = (false, zero_of c).
Proof.
  intros h2d f2d d2f c rid rv d recs blocks fuel ids g0 p needs g nof h D1 D2 D3 D4 D5 P1 P2 P3 P4 P5.
  destruct (C52_file value (zero_of c) h rv d recs blocks fuel ids g0 p D1 D2 D3 D4 D5 P1 P2 P3 P4
              ltac:(left; discriminate) P5) as (evs & R & G).
  exists evs. split; [exact R|]. intros s i Hs Hi N_.
  exact (eq_trans (G s i Hs Hi) (f_equal (fun o => match o with Some data => of_record (zero_of c) h rv s data i
    | None => (false, zero_of c) end) N_)).
Qed.
Print Assumptions C91_file_missing.

(** Two groups; the channel is an array of two numbers of 12 bits, the third sample has no record. *)
Example C91_file_witness :
  let d := build4 [mkGroup 0 false 3 0 3; mkGroup 0 false 1 0 1] in
  let recs := [Rec 1 [16; 50; 84]; Rec 2 [5]; Rec 1 [255; 255; 7]] in
  let c := ChannelModel.mkChan FixedLength UnsignedLe 0 0 12 2 false 0 3 0 in
  let z := ChannelModel.mkChan FixedLength SignedLe 0 0 12 2 false 0 3 0 in
  let ids := fun p => if p =? 7 then [1] else [2] in
  let g0 := fold_left obs_apply [ONew 7; OAttach 7; ONew 8] dgo_new in
  let g := init_fast (needs_of ids) [1; 2] g0 in
  let evs := [Ev 0 1 [16; 50; 84]; Ev 0 2 [5]; Ev 1 1 [255; 255; 7]] in
  let shown c := let h := observer_chan id id id c 1 in
    map (fun p => get_sample (zero_of c) h (run_obs h true (calls_of 7 (all_calls yes g evs)) (cobs_new (zero_of c) h 3)) (fst p) (snd p))
      [(0, 0); (0, 1); (1, 0); (1, 1); (2, 0)] in
  dg_ok d /\ Forall (rec_ok d) recs /\ casts_exact id id id /\
  read_data d (subscribing (needs_of ids) g0) (fun e => fst (notify_obs (noted yes) g e [])) 20 [stream d recs]
  = Some (Ok evs) /\
  payloads 1 recs = [[16; 50; 84]; [255; 255; 7]] /\
  field_inside [255; 255; 7] (field_start 0 0 12 1) 12 /\
  shown c = [(true, VU 528); (true, VU 1347); (true, VU 4095); (true, VU 127); (false, VU 0)] /\
  shown z = [(true, VS 528); (true, VS 1347); (true, VS (-1)); (true, VS 127); (false, VS 0)].
Proof.
  split.
  { constructor; cbn; try discriminate; auto.
    - repeat constructor; cbn; intuition discriminate.
    - intros g [<-|[<-|[]]] _; reflexivity. }
  split.
  { repeat constructor; [exists (mkGroup 1 false 3 0 3)|exists (mkGroup 2 false 1 0 1)|exists (mkGroup 1 false 3 0 3)];
      cbn; auto. }
  split; [split; reflexivity|]. vm_compute. repeat split; discriminate.
Qed.
