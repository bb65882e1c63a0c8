(** Proofs about LIN messages. *)
From Verif Require Import Base ChannelModel ChannelSpec BusModel BusSpec BusProofs LinModel LinSpec.
Local Open Scope N_scope.

Lemma fill_data_padded : forall off d rec, N.of_nat (length d) < 2 ^ 16 ->
  fill_data off d rec = copy_at off (padded 255 8 d) rec.
Proof.
  intros off d rec H. unfold fill_data.
  assert (E: w16 (N.of_nat (length d)) = N.of_nat (length d)) by (apply N.mod_small; exact H).
  rewrite E, Nat2N.id. set (n := Nat.min (length d) 8).
  replace (off + n)%nat with (off + length (firstn n d))%nat
    by (rewrite firstn_length; unfold n; lia).
  rewrite copy_at_app. f_equal. unfold padded. rewrite firstn_app. unfold n.
  destruct (Nat.le_ge_cases (length d) 8).
  - rewrite Nat.min_l by auto. rewrite !firstn_all2 by lia. f_equal.
    assert (G: forall a b (x : N), (a <= b)%nat -> repeat x a = firstn a (repeat x b)).
    { induction a as [|a IH]; intros [|b] x Hab; cbn [repeat firstn]; auto; [lia|].
      rewrite <- IH by lia. reflexivity. }
    apply G. lia.
  - rewrite Nat.min_r by auto. replace (8 - length d)%nat with O by lia.
    rewrite Nat.sub_diag. reflexivity.
Qed.

Lemma model_bits_lt : forall m, model_bits m < 4.
Proof. intros. unfold model_bits. destruct (lin_model_ m); reflexivity. Qed.
Lemma model_bits_twos : forall m, twos 2 (model_bits m) = model_z (lin_model_ m).
Proof. intros. unfold model_bits. destruct (lin_model_ m); reflexivity. Qed.

Lemma land_63 : forall x, N.land x 63 = x mod 64.
Proof. intros. exact (land_mask x 6). Qed.
Lemma land_15 : forall x, N.land x 15 = x mod 16.
Proof. intros. exact (land_mask x 4). Qed.
Lemma mod_16_lt : forall x, x mod 16 < 16.
Proof. intros. apply N.mod_lt. discriminate. Qed.
Lemma mod_64_lt : forall x, x mod 64 < 64.
Proof. intros. apply N.mod_lt. discriminate. Qed.

Lemma lin_id_lt : forall m, lin_id m < 64.
Proof. intros. unfold lin_id. rewrite land_63. apply mod_64_lt. Qed.
Lemma lin_received_lt : forall m, lin_received m < 16.
Proof. intros. unfold lin_received. rewrite land_15. apply mod_16_lt. Qed.
Lemma lin_expected_lt : forall m, lin_expected m < 16.
Proof. intros. unfold lin_expected. rewrite land_15. apply mod_16_lt. Qed.

(** The bits k.. of x & mask. *)
Lemma land_shr : forall x k n, N.shiftr (N.land x (N.shiftl (2 ^ n - 1) k)) k = (x / 2 ^ k) mod 2 ^ n.
Proof.
  intros. rewrite N.shiftr_land, N.shiftr_shiftl_l, N.sub_diag by lia.
  rewrite N.shiftl_0_r, land_mask, N.shiftr_div_pow2. reflexivity.
Qed.
Lemma lin_length_mod : forall m, lin_length m = (lin_len_ m / 16) mod 16.
Proof. intros. exact (land_shr (lin_len_ m) 4 4). Qed.
Lemma lin_length_lt : forall m, lin_length m < 16.
Proof. intros. rewrite lin_length_mod. apply mod_16_lt. Qed.
Lemma lin_dominant_mod : forall m, lin_dominant_n m = (lin_spare_ m / 16) mod 4.
Proof. intros. exact (land_shr (lin_spare_ m) 4 2). Qed.
Lemma lin_dominant_lt : forall m, lin_dominant_n m < 4.
Proof. intros. rewrite lin_dominant_mod. apply N.mod_lt. discriminate. Qed.

(** Two fields packed in a byte. *)
Lemma pack4 : forall a b, a < 16 -> b < 16 -> w8 (N.lor a (N.shiftl b 4)) = a + 16 * b.
Proof.
  intros. rewrite lor_shift by assumption. apply N.mod_small. change (2 ^ 4) with 16.
  change (2 ^ 8) with 256. lia.
Qed.
Lemma pack6 : forall a b, a < 64 -> b < 4 -> w8 (N.lor a (N.shiftl b 6)) = a + 64 * b.
Proof.
  intros. rewrite lor_shift by assumption. apply N.mod_small. change (2 ^ 6) with 64.
  change (2 ^ 8) with 256. lia.
Qed.

Lemma id_mask : forall m, N.land (lin_id m) 63 = lin_id m.
Proof. intros. rewrite land_63. apply N.mod_small, lin_id_lt. Qed.
Lemma raw_id_mask : forall m, N.land (lin_id_ m) 63 = lin_id m.
Proof. reflexivity. Qed.
Lemma length_mask : forall m, N.land (lin_length m) 15 = lin_length m.
Proof. intros. rewrite land_15. apply N.mod_small, lin_length_lt. Qed.
Lemma received_mask : forall m, N.land (lin_received m) 15 = lin_received m.
Proof. intros. rewrite land_15. apply N.mod_small, lin_received_lt. Qed.
Lemma expected_mask : forall m, N.land (lin_expected m) 15 = lin_expected m.
Proof. intros. rewrite land_15. apply N.mod_small, lin_expected_lt. Qed.

(** Length of the record of a type. *)
Definition lin_size (t : lin_type) (mand : bool) : nat :=
  match t with
  | LinFrame => if mand then 19 else 45
  | LinWakeUp => 21
  | LinChecksumError => if mand then 10 else 45
  | LinTransmissionError => if mand then 10 else 31
  | LinSyncError => 29
  | LinReceiveError => 44
  | LinSpike => 21
  | LinLongDominant => 26
  end%nat.

Ltac step :=
  cbn [run do_resize bind poke poke_or peek nth_error copy_num copy_at le_bytes plain app].

Ltac byte_side m Hm :=
  first [ assumption
        | apply w8_ok | apply mod_ok
        | exact (lo_bus m Hm) | exact (lo_crc m Hm)
        | exact (N.lt_trans _ _ 256 (lin_id_lt m) eq_refl)
        | exact (N.lt_trans _ _ 256 (model_bits_lt m) eq_refl)
        | exact (N.lt_trans _ _ 256 (lin_dominant_lt m) eq_refl) ].

Lemma lin_round_trip : forall f2d data t mand m rec0,
  lin_ok m -> bytes_ok rec0 -> (8 <= length rec0)%nat ->
  exists rec, lin_to_raw t mand m rec0 = Ok (mkRaw rec false []) /\
    firstn 8 rec = firstn 8 rec0 /\ length rec = lin_size t mand /\ bytes_ok rec /\
    forall f c, In (f, c) (lin_channels t mand) -> lin_mismatch t f = false ->
      read_content f2d data c rec = Ok (lin_content f2d m f).
Proof.
  intros f2d data t mand m rec0 Hm Hok Hl.
  assert (E: exists r, resize (lin_size t mand) rec0 = r /\ length r = lin_size t mand /\
             bytes_ok r /\ firstn 8 r = firstn 8 rec0).
  { exists (resize (lin_size t mand) rec0). rewrite resize_length. repeat split; auto.
    - apply resize_ok; auto.
    - apply resize_first; auto. destruct t, mand; cbn; lia. }
  destruct E as (r & Er & Hr & Hrok & H8). rewrite <- H8.
  destruct (lo_data m Hm) as [Hd1 Hd2].
  assert (HP: length (padded 255 8 (lin_data_ m)) = 8%nat) by apply padded_length.
  assert (HPok: bytes_ok (padded 255 8 (lin_data_ m))) by (apply padded_ok; auto; reflexivity).
  pose proof (lin_id_lt m) as Hid. pose proof (lin_length_lt m) as Hlen.
  pose proof (lin_received_lt m) as Hrec. pose proof (lin_expected_lt m) as Hexp.
  pose proof (model_bits_lt m) as Hmod. pose proof (b2n_lt (lin_dir m)) as Hdir.
  pose proof (lin_dominant_lt m) as Hdom.
  assert (HPe: exists P, padded 255 8 (lin_data_ m) = P) by eauto. destruct HPe as [P HPe].
  rewrite HPe in HP, HPok.
  destruct t, mand; cbn [lin_size] in Er, Hr;
  unfold lin_to_raw; cbn [lin_data_frame lin_wake_up lin_checksum_error lin_transmission_error
    lin_sync_error lin_receive_error lin_spike lin_long_dominant app run do_resize bind];
  rewrite Er; clear Er H8;
  explode r Hr; step; rewrite ?fill_data_padded, ?HPe by assumption.
  all: match goal with
       | E: padded _ _ _ = ?P, H: length ?P = 8%nat |- context [copy_at _ ?P] => explode P H
       | _ => idtac
       end.
  all: step; rewrite ?id_mask, ?raw_id_mask, ?length_mask, ?received_mask, ?expected_mask.
  all: unfold bytes_ok in Hrok, HPok.
  all: repeat match goal with Hrok: Forall byte_ok (_ :: _) |- _ =>
         let H1 := fresh "Hb" in pose proof (Forall_inv Hrok) as H1;
         apply Forall_inv_tail in Hrok end.
  all: match goal with |- exists rec, Ok (mkRaw ?R _ _) = _ /\ _ =>
         let HR := fresh "HR" in
         assert (HR: bytes_ok R) by (repeat apply Forall_cons; try apply Forall_nil; byte_side m Hm);
         exists R; split; [reflexivity|]; split; [reflexivity|]; split; [reflexivity|];
         split; [exact HR|];
         assert (HL: N.of_nat (length R) < 2 ^ 28) by reflexivity
       end.
  all: intros f c Hin Hmis.
  all: cbn [lin_channels lin_frame_channels lin_checksum_channels lin_receive_channels
         lin_sync_channels lin_wake_up_channels lin_spike_channels lin_transmission_channels
         lin_dominant_channels app In] in Hin.
  all: repeat match goal with Hin: _ \/ _ |- _ => destruct Hin as [Hin|Hin] end; try contradiction.
  all: injection Hin as <- <-; cbn [lin_mismatch] in Hmis; try discriminate Hmis; clear Hmis.
  all: cbn [lin_content]; unfold bit_channel, bus_channel.
  all: try match goal with
    | |- read_content _ _ (bits_channel ?b 0 ?n) _ = _ =>
        let o := eval vm_compute in (N.to_nat b) in
        let k := eval vm_compute in (N.to_nat (n / 8)) in
        apply (read_num f2d data _ b n o k);
        [assumption | assumption | reflexivity | reflexivity | split; discriminate |
         cbn [length]; lia | reflexivity | ]
    | |- read_content _ _ (float_channel ?b 0 32) _ = _ =>
        let o := eval vm_compute in (N.to_nat b) in
        apply (read_float_num f2d data _ b o);
        [assumption | assumption | reflexivity | cbn [length]; lia | reflexivity | ]
    end.
  all: try solve [first [exact (lo_bus m Hm) | exact (lo_crc m Hm) | exact (lo_sof m Hm) |
    exact (lo_baud m Hm) | exact (lo_rbaud m Hm) | exact (lo_break m Hm) | exact (lo_delim m Hm) |
    exact (lo_total m Hm)]].
  all: try match goal with
    | |- read_content _ _ (bits_channel ?b ?bit ?n) _ = _ =>
        let o := eval vm_compute in (N.to_nat b) in
        eapply (read_part f2d data _ b bit n o);
        [assumption | assumption | reflexivity | discriminate | discriminate |
         cbn [length]; lia | reflexivity | ]
    | |- read_content _ _ (signed_channel ?b ?bit ?n) _ = _ =>
        let o := eval vm_compute in (N.to_nat b) in
        eapply (read_signed_part f2d data _ b bit n o);
        [assumption | assumption | reflexivity | discriminate | discriminate |
         cbn [length]; lia | reflexivity | ]
    | |- read_content _ _ (mlsd_channel ?b ?n) ?R = _ =>
        let o := eval vm_compute in (N.to_nat b) in
        rewrite (read_bytes f2d data R (mlsd_channel b n) b n o 8);
        [| auto | assumption | reflexivity | reflexivity | cbn [length]; lia];
        unfold lin_data; rewrite HPe; reflexivity
    end.
  all: rewrite ?(pack 4 (lin_received m) (lin_length m)), ?(pack 4 (lin_expected m) (model_bits m)),
         ?(pack 4 (lin_received m) (lin_expected m)), ?(pack 4 (lin_length m) (model_bits m)),
         ?(pack 6 (lin_id m) (b2n (lin_dir m)))
         by (try discriminate; try assumption; change (2 ^ (8 - 4)) with 16;
             change (2 ^ (8 - 6)) with 4; lia).
  all: try (apply N.mod_small; exact (lo_bus m Hm)).
  all: rewrite ?N.pow_0_r, ?N.div_1_r; change (2 ^ 4) with 16; change (2 ^ 6) with 64;
         change (2 ^ 8) with 256; change (2 ^ 2) with 4.
  all: pose proof (lo_bus m Hm) as Hbus; pose proof (lo_crc m Hm) as Hcrc;
         change (lin_bus_ m) with (lin_bus m) in Hbus; change (2 ^ 8) with 256 in Hbus, Hcrc.
  all: try match goal with |- twos 2 ?x = _ =>
         replace x with (model_bits m); [apply model_bits_twos|] end.
  all: clear - Hid Hlen Hrec Hexp Hmod Hdir Hdom Hbus Hcrc; lia.
Qed.

Lemma lin_sof_stored : forall f2d data t mand m rec0,
  t = LinWakeUp \/ t = LinSpike -> lin_ok m -> bytes_ok rec0 -> (8 <= length rec0)%nat ->
  exists rec, lin_to_raw t mand m rec0 = Ok (mkRaw rec false []) /\
    read_content f2d data (bits_channel 13 0 64) rec = Ok (num (lin_sof_ m)).
Proof.
  intros f2d data t mand m rec0 Ht Hm Hok Hl.
  destruct (lin_round_trip f2d data t mand m rec0 Hm Hok Hl) as (rec & R1 & _ & R2 & R3 & _).
  exists rec. split; [exact R1|].
  assert (L: length rec = 21%nat) by (destruct Ht as [-> | ->]; exact R2).
  assert (E: slice 13 8 rec = le_bytes 8 (lin_sof_ m)).
  { assert (Er: exists r, resize 21 rec0 = r /\ length r = 21%nat).
    { exists (resize 21 rec0). rewrite resize_length. auto. }
    destruct Er as (r & Er & Hr).
    destruct Ht as [-> | ->]; unfold lin_to_raw in R1; cbn [lin_wake_up lin_spike run do_resize bind] in R1;
      rewrite Er in R1; explode r Hr; revert R1; step; intros R1; injection R1 as <-; reflexivity. }
  apply (read_num f2d data rec 13 64 13 8);
    [exact R3 | rewrite L; reflexivity | reflexivity | reflexivity | split; discriminate | lia | exact E | exact (lo_sof m Hm)].
Qed.

(* ------------------------------------------------------------------ *)
(** ** Setters *)

Definition bits_below (n x : N) : Prop := forall i, n <= i -> N.testbit x i = false.
Lemma lt_bits : forall x n, bits_below n x -> x < 2 ^ n.
Proof.
  intros x n H. destruct (N.eq_dec x 0) as [->|Hnz]; [apply pow2_pos|].
  apply N.log2_lt_pow2; [lia|]. destruct (N.lt_ge_cases (N.log2 x) n) as [|Hge]; auto.
  specialize (H _ Hge). rewrite N.bit_log2 in H by auto. discriminate.
Qed.
Lemma w8_lt : forall x, w8 x < 2 ^ 8.
Proof. intros. apply N.mod_lt. discriminate. Qed.
Lemma ldiff_lt : forall x y, x < 2 ^ 8 -> N.ldiff x y < 2 ^ 8.
Proof.
  intros x y H. apply lt_bits. intros i Hi. rewrite N.ldiff_spec, (testbit_small x i 8) by auto.
  reflexivity.
Qed.

Lemma lin_apply_ok : forall m o, lin_ok m -> lin_arg_ok o -> lin_ok (lin_apply m o).
Proof.
  intros m o H Ho. destruct H as [H1 H2 H3 H4 H5 H6 H7 H8 H9 H10 H11 H12].
  destruct o; cbn [lin_arg_ok] in Ho;
    constructor; cbn [lin_apply lin_set_bus lin_set_id lin_set_dir lin_set_received lin_set_length
      lin_set_data lin_set_crc lin_set_model lin_set_sof lin_set_baud lin_set_rbaud lin_set_break
      lin_set_delim lin_set_expected lin_set_total lin_set_dominant lin_reset lin_new lin_with_id
      lin_with_len lin_with_spare lin_bus_ lin_id_ lin_len_ lin_crc_ lin_sof_ lin_baud_ lin_rbaud_
      lin_break_ lin_delim_ lin_data_ lin_spare_ lin_total_];
    try assumption; try (apply w8_lt); try reflexivity.
  - destruct b; [apply w8_lt | apply ldiff_lt; assumption].
  - split; [constructor | reflexivity].
Qed.

(** [mask_set] on the bits of the mask and on the others. *)
Lemma mask_set_bits : forall x mask v i, i < 8 ->
  N.testbit (mask_set x mask v) i = orb (andb (N.testbit x i) (negb (N.testbit mask i))) (N.testbit v i).
Proof.
  intros. unfold mask_set, w8. rewrite N.mod_pow2_bits_low by auto.
  rewrite N.lor_spec, N.ldiff_spec. reflexivity.
Qed.

(** A byte is its eight bits. *)
Lemma all_bytes : forall (P : N -> bool), forallb P (map N.of_nat (seq 0 256)) = true ->
  forall x, x < 256 -> P x = true.
Proof.
  intros P H x Hx. rewrite forallb_forall in H. apply H. apply in_map_iff.
  exists (N.to_nat x). split; [apply N2Nat.id|]. apply in_seq. lia.
Qed.

Lemma byte_mask_facts : forall x, x < 256 ->
  (forallb (fun v =>
     (N.land (mask_set x 63 (N.land v 63)) 63 =? v mod 64) &&
     Bool.eqb (negb (N.land (mask_set x 63 (N.land v 63)) 128 =? 0)) (negb (N.land x 128 =? 0)) &&
     (N.land (mask_set x 15 (N.land v 15)) 15 =? v mod 16) &&
     (N.shiftr (N.land (mask_set x 15 (N.land v 15)) 240) 4 =? N.shiftr (N.land x 240) 4) &&
     (N.shiftr (N.land (mask_set x 15 (N.land v 15)) 48) 4 =? N.shiftr (N.land x 48) 4) &&
     (N.shiftr (N.land (mask_set x 240 (N.land (N.shiftl v 4) 240)) 240) 4 =? v mod 16) &&
     (N.land (mask_set x 240 (N.land (N.shiftl v 4) 240)) 15 =? N.land x 15))
     (map N.of_nat (seq 0 256)) &&
   (N.land (w8 (N.lor x 128)) 63 =? N.land x 63) && (N.land (N.ldiff x 128) 63 =? N.land x 63) &&
   negb (N.land (w8 (N.lor x 128)) 128 =? 0) && (N.land (N.ldiff x 128) 128 =? 0) &&
   forallb (fun v => (N.shiftr (N.land (mask_set x 48 (N.shiftl v 4)) 48) 4 =? v) &&
                     (N.land (mask_set x 48 (N.shiftl v 4)) 15 =? N.land x 15)) [0; 1; 2]) = true.
Proof. apply all_bytes. vm_compute. reflexivity. Qed.

Lemma byte_mask_value : forall x v, x < 256 -> v < 256 ->
  N.land (mask_set x 63 (N.land v 63)) 63 = v mod 64 /\
  negb (N.land (mask_set x 63 (N.land v 63)) 128 =? 0) = negb (N.land x 128 =? 0) /\
  N.land (mask_set x 15 (N.land v 15)) 15 = v mod 16 /\
  N.shiftr (N.land (mask_set x 15 (N.land v 15)) 240) 4 = N.shiftr (N.land x 240) 4 /\
  N.shiftr (N.land (mask_set x 15 (N.land v 15)) 48) 4 = N.shiftr (N.land x 48) 4 /\
  N.shiftr (N.land (mask_set x 240 (N.land (N.shiftl v 4) 240)) 240) 4 = v mod 16 /\
  N.land (mask_set x 240 (N.land (N.shiftl v 4) 240)) 15 = N.land x 15.
Proof.
  intros x v Hx Hv. pose proof (byte_mask_facts x Hx) as H.
  rewrite !andb_true_iff in H. destruct H as (((((H & _) & _) & _) & _) & _).
  rewrite forallb_forall in H. specialize (H v).
  assert (Hin: In v (map N.of_nat (seq 0 256))).
  { apply in_map_iff. exists (N.to_nat v). split; [apply N2Nat.id|]. apply in_seq. lia. }
  specialize (H Hin). rewrite !andb_true_iff in H. rewrite !N.eqb_eq in H.
  rewrite Bool.eqb_true_iff in H. tauto.
Qed.

Lemma byte_flag_facts : forall x, x < 256 ->
  N.land (w8 (N.lor x 128)) 63 = N.land x 63 /\ N.land (N.ldiff x 128) 63 = N.land x 63 /\
  negb (N.land (w8 (N.lor x 128)) 128 =? 0) = true /\ negb (N.land (N.ldiff x 128) 128 =? 0) = false.
Proof.
  intros x Hx. pose proof (byte_mask_facts x Hx) as H.
  rewrite !andb_true_iff in H. destruct H as (((((_ & H1) & H2) & H3) & H4) & _).
  rewrite !N.eqb_eq in H1, H2. rewrite H3, H4. auto.
Qed.

Lemma byte_dominant : forall x k, x < 256 ->
  N.shiftr (N.land (mask_set x 48 (N.shiftl (dominant_n k) 4)) 48) 4 = dominant_n k /\
  N.land (mask_set x 48 (N.shiftl (dominant_n k) 4)) 15 = N.land x 15.
Proof.
  intros x k Hx. pose proof (byte_mask_facts x Hx) as H.
  rewrite !andb_true_iff in H. destruct H as (_ & H).
  rewrite forallb_forall in H. specialize (H (dominant_n k)).
  assert (Hin: In (dominant_n k) [0; 1; 2]) by (destruct k; cbn; auto).
  specialize (H Hin). rewrite andb_true_iff, !N.eqb_eq in H. exact H.
Qed.

Lemma w8_mod16 : forall x, w8 x mod 16 = x mod 16.
Proof. intros. unfold w8. change (2 ^ 8) with 256. lia. Qed.

Ltac lin_fields := cbn [lin_apply lin_expect lin_content lin_set_bus lin_set_id lin_set_dir lin_set_received
      lin_set_length lin_set_data lin_set_crc lin_set_model lin_set_sof lin_set_baud lin_set_rbaud
      lin_set_break lin_set_delim lin_set_expected lin_set_total lin_set_dominant lin_reset
      lin_with_id lin_with_len lin_with_spare lin_bus lin_data
      lin_bus_ lin_id_ lin_len_ lin_crc_ lin_sof_ lin_model_ lin_baud_ lin_rbaud_
      lin_break_ lin_delim_ lin_data_ lin_spare_ lin_total_];
  unfold lin_id, lin_dir, lin_received, lin_length, lin_expected, lin_dominant_n;
  unfold lin_set_data, lin_set_id, lin_set_dir, lin_set_received, lin_set_length, lin_set_expected,
    lin_set_dominant, lin_with_id, lin_with_len, lin_with_spare;
  cbn [lin_id_ lin_len_ lin_spare_].

Lemma lin_step : forall m o f, lin_ok m -> lin_arg_ok o ->
  lin_content (fun x => x) (lin_apply m o) f =
  match lin_expect o f with Some v => v | None => lin_content (fun x => x) m f end.
Proof.
  intros m o f Hm Ho. pose proof (lo_id m Hm) as Hi. pose proof (lo_len m Hm) as Hl.
  pose proof (lo_spare m Hm) as Hs. change (2 ^ 8) with 256 in *.
  destruct o; cbn [lin_arg_ok] in Ho; destruct f; lin_fields; try reflexivity.
  all: try (change (2 ^ 8) with 256 in Ho).
  - destruct (byte_mask_value _ _ Hi Ho) as (E & _). rewrite E. reflexivity.
  - destruct (byte_mask_value _ _ Hi Ho) as (_ & E & _). rewrite E. reflexivity.
  - destruct (byte_flag_facts _ Hi) as (E1 & E2 & _). destruct b; rewrite ?E1, ?E2; reflexivity.
  - destruct (byte_flag_facts _ Hi) as (_ & _ & E1 & E2). destruct b; rewrite ?E1, ?E2; reflexivity.
  - destruct (byte_mask_value _ _ Hl Ho) as (_ & _ & E & _). rewrite E. reflexivity.
  - destruct (byte_mask_value _ _ Hl Ho) as (_ & _ & _ & E & _). rewrite E. reflexivity.
  - destruct (byte_mask_value _ _ Hl Ho) as (_ & _ & _ & _ & _ & _ & E). rewrite E. reflexivity.
  - destruct (byte_mask_value _ _ Hl Ho) as (_ & _ & _ & _ & _ & E & _). rewrite E. reflexivity.
  - destruct (byte_mask_value _ (w8 (N.of_nat (length d))) Hl (w8_lt _)) as (_ & _ & _ & _ & _ & _ & E).
    rewrite E. reflexivity.
  - destruct (byte_mask_value _ (w8 (N.of_nat (length d))) Hl (w8_lt _)) as (_ & _ & _ & _ & _ & E & _).
    rewrite E, w8_mod16. reflexivity.
  - destruct (byte_mask_value _ _ Hs Ho) as (_ & _ & E & _). rewrite E. reflexivity.
  - destruct (byte_mask_value _ _ Hs Ho) as (_ & _ & _ & _ & E & _). rewrite E. reflexivity.
  - destruct (byte_dominant _ k Hs) as (_ & E). rewrite E. reflexivity.
  - destruct (byte_dominant _ k Hs) as (E & _). rewrite E. reflexivity.
Qed.

Lemma lin_new_ok : lin_ok lin_new.
Proof. constructor; try reflexivity. split; [constructor | reflexivity]. Qed.

Lemma lin_history : forall ops m f, lin_ok m -> Forall lin_arg_ok ops ->
  lin_ok (fold_left lin_apply ops m) /\
  lin_content (fun x => x) (fold_left lin_apply ops m) f =
  match lin_last ops f with Some v => v | None => lin_content (fun x => x) m f end.
Proof.
  induction ops as [|o ops IH]; intros m f Hm Ho; [split; [exact Hm | reflexivity]|].
  cbn [fold_left lin_last].
  destruct (IH (lin_apply m o) f (lin_apply_ok m o Hm (Forall_inv Ho)) (Forall_inv_tail Ho)) as [H1 H2].
  split; [exact H1|]. rewrite H2. destruct (lin_last ops f); [reflexivity|].
  apply lin_step; auto. exact (Forall_inv Ho).
Qed.
