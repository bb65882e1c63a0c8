(** Proofs about FlexRay messages: the record and its channels, histories of setter calls. *)
From Verif Require Import Base ChannelModel ChannelSpec QueueModel BusModel BusSpec BusProofs BusBits
  BusRun FlxModel FlxSpec.
Local Open Scope N_scope.

(* ------------------------------------------------------------------ *)
(** ** Bytes with several fields *)

Lemma cycle_direction : forall c tx, c < 2 ^ 6 ->
  let x := w8 (N.lor (w8 (N.lor (N.land c 0x3F) (N.shiftl (N.land 0 1) 6)))
                 (N.shiftl (N.land (b2n tx) 1) 7)) in
  (x / 2 ^ 0) mod 2 ^ 6 = c /\ (x / 2 ^ 6) mod 2 ^ 1 = 0 /\ (x / 2 ^ 7) mod 2 ^ 1 = b2n tx.
Proof.
  intros c tx H x. subst x.
  change 0x3F with (2 ^ 6 - 1). rewrite land_mask, (N.mod_small c) by exact H.
  change (N.shiftl (N.land 0 1) 6) with 0. rewrite N.lor_0_r.
  unfold w8 at 2 4 6. rewrite (N.mod_small c) by (change (2 ^ 6) with 64 in H; change (2 ^ 8) with 256; lia).
  rewrite lor_shift by (apply (N.lt_le_trans _ _ _ H); discriminate).
  change (2 ^ 6) with 64 in *. change (2 ^ 7) with 128. change (2 ^ 0) with 1. change (2 ^ 1) with 2.
  unfold w8. change (2 ^ 8) with 256.
  destruct tx; cbn [b2n]; change (N.land 1 1) with 1; change (N.land 0 1) with 0.
  - rewrite (N.mod_small (c + _)) by lia. rewrite N.div_1_r.
    assert (E1: (c + 128 * 1) mod 64 = c).
    { replace (c + 128 * 1) with (c + 2 * 64) by lia. rewrite N.mod_add by lia. apply N.mod_small; lia. }
    assert (E2: (c + 128 * 1) / 64 = 2).
    { replace (c + 128 * 1) with (c + 2 * 64) by lia. rewrite N.div_add by lia.
      rewrite N.div_small by lia. reflexivity. }
    assert (E3: (c + 128 * 1) / 128 = 1).
    { replace (c + 128 * 1) with (c + 1 * 128) by lia. rewrite N.div_add by lia.
      rewrite N.div_small by lia. reflexivity. }
    rewrite E1, E2, E3. repeat split; reflexivity.
  - rewrite N.mul_0_r, N.add_0_r. rewrite (N.mod_small c 256) by lia.
    rewrite N.div_1_r, (N.mod_small c), !(N.div_small c) by lia. repeat split; reflexivity.
Qed.

Lemma cycle_alone : forall c, c < 2 ^ 6 ->
  let x := w8 (N.lor (N.land c 0x3F) 0) in
  (x / 2 ^ 0) mod 2 ^ 6 = c /\ (x / 2 ^ 6) mod 2 ^ 1 = 0 /\ (x / 2 ^ 6) mod 2 ^ 2 = 0.
Proof.
  intros c H x. subst x.
  change 0x3F with (2 ^ 6 - 1). rewrite land_mask, (N.mod_small c), N.lor_0_r by exact H.
  unfold w8. change (2 ^ 6) with 64 in *. change (2 ^ 8) with 256.
  rewrite (N.mod_small c 256), N.pow_0_r, N.div_1_r, (N.mod_small c), (N.div_small c) by lia.
  repeat split; reflexivity.
Qed.

Lemma five_flags : forall a b c d e,
  let x := w8 (N.lor (w8 (N.lor (w8 (N.lor (w8 (N.lor (b2n a) (N.shiftl (b2n b) 1)))
    (N.shiftl (N.land (b2n c) 1) 2))) (N.shiftl (b2n d) 3))) (N.shiftl (b2n e) 4)) in
  (x / 2 ^ 0) mod 2 ^ 1 = b2n a /\ (x / 2 ^ 1) mod 2 ^ 1 = b2n b /\ (x / 2 ^ 2) mod 2 ^ 1 = b2n c /\
  (x / 2 ^ 3) mod 2 ^ 1 = b2n d /\ (x / 2 ^ 4) mod 2 ^ 1 = b2n e.
Proof. intros [] [] [] [] []; repeat split; reflexivity. Qed.

Lemma eight_flags : forall a b c d e f g h,
  let x := w8 (N.lor (w8 (N.lor (w8 (N.lor
    (w8 (N.lor (w8 (N.lor (w8 (N.lor (w8 (N.lor (b2n a) (N.shiftl (b2n b) 1)))
    (N.shiftl (N.land (b2n c) 1) 2))) (N.shiftl (b2n d) 3))) (N.shiftl (b2n e) 4)))
    (N.shiftl (b2n f) 5))) (N.shiftl (b2n g) 6))) (N.shiftl (b2n h) 7)) in
  (x / 2 ^ 0) mod 2 ^ 1 = b2n a /\ (x / 2 ^ 1) mod 2 ^ 1 = b2n b /\ (x / 2 ^ 2) mod 2 ^ 1 = b2n c /\
  (x / 2 ^ 3) mod 2 ^ 1 = b2n d /\ (x / 2 ^ 4) mod 2 ^ 1 = b2n e /\ (x / 2 ^ 5) mod 2 ^ 1 = b2n f /\
  (x / 2 ^ 6) mod 2 ^ 1 = b2n g /\ (x / 2 ^ 7) mod 2 ^ 1 = b2n h.
Proof. intros [] [] [] [] [] [] [] []; repeat split; reflexivity. Qed.

Lemma two_flags : forall a b,
  let x := w8 (N.lor (b2n a) (N.shiftl (b2n b) 1)) in
  (x / 2 ^ 0) mod 2 ^ 1 = b2n a /\ (x / 2 ^ 1) mod 2 ^ 1 = b2n b.
Proof. intros [] []; split; reflexivity. Qed.

Lemma offset_flags : forall a b o, o < 2 ^ 3 ->
  let x := w8 (N.lor (w8 (N.lor (b2n a) (N.shiftl (b2n b) 1))) (N.shiftl (N.land o 7) 2)) in
  (x / 2 ^ 0) mod 2 ^ 1 = b2n a /\ (x / 2 ^ 1) mod 2 ^ 1 = b2n b /\ (x / 2 ^ 2) mod 2 ^ 3 = o.
Proof.
  intros a b o H. change (2 ^ 3) with 8 in H.
  assert (E: o = 0 \/ o = 1 \/ o = 2 \/ o = 3 \/ o = 4 \/ o = 5 \/ o = 6 \/ o = 7) by lia.
  destruct a, b; repeat destruct E as [->|E]; try subst o; repeat split; reflexivity.
Qed.

Lemma small_part : forall x n, x < 2 ^ n -> (x / 2 ^ 0) mod 2 ^ n = x.
Proof. intros x n H. rewrite N.pow_0_r, N.div_1_r. apply N.mod_small. exact H. Qed.

Lemma length_part : forall l : list N, (length l <= 254)%nat ->
  (w8 (N.of_nat (length l)) / 2 ^ 0) mod 2 ^ 8 = N.of_nat (length l).
Proof.
  intros l H. rewrite N.pow_0_r, N.div_1_r. unfold w8. change (2 ^ 8) with 256.
  rewrite N.mod_mod by lia. apply N.mod_small. lia.
Qed.

(* ------------------------------------------------------------------ *)
(** ** The record *)

(** What the channels yield: as [flx_content], but channel A and no mask. *)
Definition flx_stored (m : flx) (f : flx_field) : content :=
  match f with FxChan => num 0 | FxMask => num 0 | _ => flx_content m f end.

Definition no_data (p : flx_field * chan) : bool := match fst p with FxData => false | _ => true end.

Lemma le_bytes_w64 : forall v, le_bytes 8 (w64 v) = le_bytes 8 v.
Proof.
  intros v. pose proof (le_bytes_num (le_bytes 8 v) (le_bytes_ok 8 v)) as E.
  rewrite le_bytes_length, le_num_bytes in E. exact E.
Qed.

Lemma shifted_index : forall idx,
  le_bytes 8 (w64 (65536 * idx)) = 0 :: 0 :: firstn 6 (le_bytes 8 (w64 idx)).
Proof.
  intros idx. rewrite !le_bytes_w64. cbn [le_bytes firstn].
  assert (E1: (65536 * idx) mod 256 = 0).
  { replace (65536 * idx) with (256 * idx * 256) by lia. apply N.mod_mul. lia. }
  assert (E2: (65536 * idx) / 256 = 256 * idx).
  { replace (65536 * idx) with (256 * idx * 256) by lia. apply N.div_mul. lia. }
  assert (E3: (256 * idx) mod 256 = 0) by (rewrite N.mul_comm; apply N.mod_mul; lia).
  assert (E4: (256 * idx) / 256 = idx) by (rewrite N.mul_comm; apply N.div_mul; lia).
  rewrite E1, E2, E3, E4. reflexivity.
Qed.

(** The place of the index the data channel reads, and what it finds there. *)
Definition data_place (t : flx_type) (mand : bool) : nat :=
  match t, mand with
  | FlxPdu, false => 20 | FlxErrorFrame, false => 25 | _, true => 14 | _, false => 24
  end.
Definition data_index (t : flx_type) (mand : bool) (idx : N) : N :=
  match t, mand with FlxPdu, false => idx | _, _ => 65536 * idx end.

Ltac flx_parts :=
  match goal with
  | |- (w8 (N.of_nat (length _)) / _) mod _ = _ => apply length_part; tauto
  | |- merged _ _ _ mod _ = _ => apply merged_low; assumption
  | H: ?c < 2 ^ 6 |- context [w8 (N.lor (w8 (N.lor (N.land ?c _) _)) (N.shiftl (N.land (b2n ?t) _) _))] =>
      let E := fresh in pose proof (cycle_direction c t H) as E; cbv zeta in E; tauto
  | H: ?c < 2 ^ 6 |- context [w8 (N.lor (N.land ?c _) _)] =>
      let E := fresh in pose proof (cycle_alone c H) as E; cbv zeta in E; tauto
  | |- context [w8 (N.lor (w8 (N.lor (w8 (N.lor
    (w8 (N.lor (w8 (N.lor (w8 (N.lor (w8 (N.lor (b2n ?a) (N.shiftl (b2n ?b) 1)))
    (N.shiftl (N.land (b2n ?c) 1) 2))) (N.shiftl (b2n ?d) 3))) (N.shiftl (b2n ?e) 4)))
    (N.shiftl (b2n ?f) 5))) (N.shiftl (b2n ?g) 6))) (N.shiftl (b2n ?h) 7))] =>
      let E := fresh in pose proof (eight_flags a b c d e f g h) as E; cbv zeta in E; tauto
  | |- context [w8 (N.lor (w8 (N.lor (w8 (N.lor (w8 (N.lor (b2n ?a) (N.shiftl (b2n ?b) 1)))
    (N.shiftl (N.land (b2n ?c) 1) 2))) (N.shiftl (b2n ?d) 3))) (N.shiftl (b2n ?e) 4))] =>
      let E := fresh in pose proof (five_flags a b c d e) as E; cbv zeta in E; tauto
  | H: ?o < 2 ^ 3 |- context [w8 (N.lor (w8 (N.lor (b2n ?a) (N.shiftl (b2n ?b) 1)))
      (N.shiftl (N.land ?o 7) 2))] =>
      let E := fresh in pose proof (offset_flags a b o H) as E; cbv zeta in E; tauto
  | |- context [w8 (N.lor (b2n ?a) (N.shiftl (b2n ?b) 1))] =>
      let E := fresh in pose proof (two_flags a b) as E; cbv zeta in E; tauto
  | |- (_ / 2 ^ 0) mod _ = _ => apply small_part; assumption
  | |- _ mod _ = _ => apply N.mod_small; assumption
  end.

Lemma flx_record : forall f2d data t mand m rec0 idx,
  flx_ok m -> bytes_ok rec0 -> (8 <= length rec0)%nat ->
  exists r, flx_to_raw t mand m rec0 = Ok r /\
    r_vlsd r = flx_has_data t mand /\ (r_vlsd r = true -> r_buf r = flx_data_ m) /\
    good f2d data (flx_stored m) (filter no_data (flx_channels t mand)) (firstn 8 rec0)
      (flx_size t mand) (stored r idx) /\
    bytes_ok (stored r idx) /\
    (flx_has_data t mand = true ->
     slice (data_place t mand) 8 (stored r idx) = le_bytes 8 (w64 (data_index t mand idx))).
Proof.
  intros f2d data t mand m rec0 idx Hm Hok Hl.
  destruct (resize_facts (flx_size t mand) rec0 Hok Hl) as (a & Er & Ha & Haok & H8).
  { destruct t, mand; cbn [flx_size]; lia. }
  rewrite <- H8. clear H8 Hl Hok.
  destruct Hm. destruct m as [
    v_bus v_id v_cycle v_chan v_tx v_data v_paylen v_crc v_hcrc v_res v_pre v_normal v_sync
    v_startup v_flen v_plen v_mux v_switch v_pvalid v_upd v_byteoff v_bitoff v_syntax v_content
    v_boundary v_conflict v_evalid v_mask v_slen v_stype]. unfold bytes_ok in *.
  cbn [
    flx_bus_ flx_id_ flx_cycle_ flx_chan_ flx_tx_ flx_data_ flx_paylen_ flx_crc_ flx_hcrc_
    flx_res_ flx_pre_ flx_normal_ flx_sync_ flx_startup_ flx_flen_ flx_plen_ flx_mux_ flx_switch_
    flx_pvalid_ flx_upd_ flx_byteoff_ flx_bitoff_ flx_syntax_ flx_content_ flx_boundary_
    flx_conflict_ flx_evalid_ flx_mask_ flx_slen_ flx_stype_] in *.
  destruct t, mand;
    unfold flx_to_raw, flx_frame, flx_pdu, flx_frame_header, flx_null_frame, flx_error_frame, flx_symbol,
      flx_head, flx_direction, flx_flags;
    cbn [flx_size flx_has_data negb app flx_channels
    flx_bus_ flx_id_ flx_cycle_ flx_chan_ flx_tx_ flx_data_ flx_paylen_ flx_crc_ flx_hcrc_
    flx_res_ flx_pre_ flx_normal_ flx_sync_ flx_startup_ flx_flen_ flx_plen_ flx_mux_ flx_switch_
    flx_pvalid_ flx_upd_ flx_byteoff_ flx_bitoff_ flx_syntax_ flx_content_ flx_boundary_
    flx_conflict_ flx_evalid_ flx_mask_ flx_slen_ flx_stype_] in *;
    (rewrite (run_step _ _ rec0 _ (f_equal Ok Er)); clear Er; explode a Ha; split_bytes).
  all: (bus_run_num fits).
  all: (unfold plain, with_data; cbn [bind]; eexists; split; [reflexivity|]; split; [reflexivity|];
     split; [intros; first [reflexivity | discriminate]|]).
  all: unfold flx_frame_channels, flx_pdu_channels, flx_header_channels, flx_null_channels,
    flx_error_channels, flx_symbol_channels, flx_head_channels, flx_flag_channels;
    cbn [app filter no_data fst].
  all: first [split_index | unfold stored; cbn [r_vlsd r_rec]].
  all: split; [| split; [cbn [app le_bytes]; bus_bytes fits |
    intros Hx; first [discriminate Hx | unfold data_index; rewrite ?shifted_index; reflexivity]]].
  all: bus_good fits.
  all: cbn [flx_stored flx_content
    flx_bus_ flx_id_ flx_cycle_ flx_chan_ flx_tx_ flx_data_ flx_paylen_ flx_crc_ flx_hcrc_
    flx_res_ flx_pre_ flx_normal_ flx_sync_ flx_startup_ flx_flen_ flx_plen_ flx_mux_ flx_switch_
    flx_pvalid_ flx_upd_ flx_byteoff_ flx_bitoff_ flx_syntax_ flx_content_ flx_boundary_
    flx_conflict_ flx_evalid_ flx_mask_ flx_slen_ flx_stype_]; bus_read fits.
  all: flx_parts.
Qed.

(** The data channel yields what the signal data hold at the index it finds. *)
Lemma flx_data_read : forall f2d data t mand m rec0 idx p r c,
  flx_ok m -> bytes_ok rec0 -> (8 <= length rec0)%nat ->
  flx_to_raw t mand m rec0 = Ok r -> In (FxData, c) (flx_channels t mand) ->
  sd_holds data (data_index t mand idx) p ->
  read_content f2d data c (stored r idx) = Ok (Bytes p).
Proof.
  intros f2d data t mand m rec0 idx p r c Hm Hok Hl Hr Hc Hd.
  destruct (flx_record f2d data t mand m rec0 idx Hm Hok Hl)
    as (r' & Hr' & _ & _ & (_ & Hlen & _) & HR & Hs).
  rewrite Hr in Hr'. injection Hr' as <-.
  assert (E: c = vlsd_channel (N.of_nat (data_place t mand)) /\ flx_has_data t mand = true).
  { destruct t, mand; cbn in Hc; repeat destruct Hc as [Hc|Hc]; try discriminate Hc; try contradiction;
      injection Hc as <-; split; reflexivity. }
  destruct E as (-> & Eh). specialize (Hs Eh).
  eapply read_vlsd; [exact HR | rewrite Hlen; destruct t, mand; reflexivity | reflexivity |
    rewrite Hlen; destruct t, mand; first [discriminate Eh | cbn; lia] | exact Hs | exact Hd].
Qed.

Lemma flx_new_ok : forall t, flx_ok (flx_new t).
Proof.
  intros t. constructor; try reflexivity. split; [apply Forall_nil | cbn; lia].
Qed.

Lemma flx_apply_ok : forall m o, flx_ok m -> flx_arg_ok o -> flx_ok (flx_apply m o).
Proof. intros m o [] Ho. destruct o; constructor; assumption. Qed.

Lemma flx_step : forall m o f,
  flx_content (flx_apply m o) f =
  match flx_effect o f with Some v => v | None => flx_content m f end.
Proof. intros m o f. destruct o, f; reflexivity. Qed.

Lemma flx_history : forall ops m f, flx_ok m -> Forall flx_arg_ok ops ->
  flx_ok (fold_left flx_apply ops m) /\
  flx_content (fold_left flx_apply ops m) f =
  match flx_last ops f with Some v => v | None => flx_content m f end.
Proof.
  induction ops as [|o ops IH]; intros m f Hm Ho; [split; [exact Hm | reflexivity]|].
  cbn [fold_left flx_last].
  destruct (IH (flx_apply m o) f (flx_apply_ok m o Hm (Forall_inv Ho)) (Forall_inv_tail Ho))
    as (H1 & H2).
  split; [exact H1|]. rewrite H2. destruct (flx_last ops f); [reflexivity|]. apply flx_step.
Qed.
