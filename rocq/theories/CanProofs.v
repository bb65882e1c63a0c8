(** Proofs about CAN messages: the record and its channels. *)
From Verif Require Import Base ChannelModel ChannelSpec QueueModel BusModel BusSpec BusProofs BusBits BusRun CanModel CanSpec.
Local Open Scope N_scope.

(* ------------------------------------------------------------------ *)
(** ** The end of the record *)

Lemma padded_cons : forall v n l, padded v (S n) l = hd v l :: padded v n (tl l).
Proof.
  intros v n l. unfold padded. destruct l as [|x l]; cbn [app hd tl repeat firstn]; [reflexivity|].
  f_equal. rewrite !firstn_app. f_equal.
  change (v :: repeat v n) with (repeat v (S n)).
  assert (G: forall a b k (y : N), (k <= a)%nat -> (k <= b)%nat -> firstn k (repeat y a) = firstn k (repeat y b)).
  { induction a as [|a IH]; intros [|b] [|k] y H1 H2; cbn [repeat firstn]; auto; try lia.
    f_equal. apply IH; lia. }
  apply G; lia.
Qed.

Lemma data_loop_tail : forall max a d t, length t = max ->
  data_loop (length a) max d (a ++ t) = Ok (a ++ padded 255 max d).
Proof.
  induction max as [|max IH]; intros a d t Ht.
  - destruct t; [|discriminate]. reflexivity.
  - destruct t as [|x t]; [discriminate|]. cbn [length] in Ht.
    cbn [data_loop]. rewrite poke_app. cbn [bind]. rewrite padded_cons.
    replace (S (length a)) with (length (a ++ [hd 255 d])) by (rewrite app_length; cbn [length]; lia).
    replace (a ++ hd 255 d :: t) with ((a ++ [hd 255 d]) ++ t) by (rewrite <- app_assoc; reflexivity).
    rewrite IH by lia. rewrite <- app_assoc. reflexivity.
Qed.

(** What [put_data] leaves after the first bytes. *)
Definition data_end (st : storage) (max : nat) (m : can) : list N :=
  match st with Mlsd => padded 255 max (can_data_ m) | _ => repeat 0 8 end.
Definition end_length (st : storage) (max : nat) : nat :=
  match st with Mlsd => max | _ => 8%nat end.

Lemma data_end_length : forall st max m, length (data_end st max m) = end_length st max.
Proof. intros [] max m; cbn [data_end end_length]; auto using padded_length. Qed.

Lemma data_end_ok : forall st max m, bytes_ok (can_data_ m) -> bytes_ok (data_end st max m).
Proof.
  intros [] max m H; cbn [data_end]; [apply padded_ok; auto; reflexivity | |];
    repeat constructor.
Qed.

Lemma put_data_tail : forall st max m off a t,
  length a = off -> length t = end_length st max -> bytes_ok (a ++ t) ->
  put_data off (save_index st) max m (a ++ t) = Ok (a ++ data_end st max m).
Proof.
  intros st max m off a t <- Ht Hok. unfold put_data.
  destruct st; cbn [save_index data_end end_length] in *.
  - apply data_loop_tail; auto.
  - apply put_index_tail; auto.
  - apply put_index_tail; auto.
Qed.

(** The record in the file. *)
Definition final_end (st : storage) (max : nat) (m : can) (idx : N) : list N :=
  match st with Mlsd => padded 255 max (can_data_ m) | _ => le_bytes 8 (w64 idx) end.

Lemma final_end_length : forall st max m idx, length (final_end st max m idx) = end_length st max.
Proof. intros [] max m idx; cbn [final_end end_length]; auto using padded_length, le_bytes_length. Qed.

Lemma final_end_ok : forall st max m idx, bytes_ok (can_data_ m) -> bytes_ok (final_end st max m idx).
Proof.
  intros [] max m idx H; cbn [final_end]; [apply padded_ok; auto; reflexivity | |];
    apply le_bytes_ok.
Qed.

Lemma stored_end : forall st max m idx a,
  stored (mkRaw (a ++ data_end st max m) (save_index st) (if save_index st then can_data_ m else []))
    idx = a ++ final_end st max m idx.
Proof.
  intros st max m idx a. unfold stored. destruct st; cbn [r_vlsd r_rec save_index data_end final_end];
    [reflexivity | |]; apply patch_end.
Qed.

(** Reading the data channel. *)
Lemma read_data_end : forall f2d data st max m idx a off,
  bytes_ok (a ++ final_end st max m idx) ->
  N.of_nat (length (a ++ final_end st max m idx)) < 2 ^ 28 ->
  off = N.of_nat (length a) ->
  (st <> Mlsd -> sd_holds data idx (can_data m)) ->
  read_content f2d data (can_data_channel st max off) (a ++ final_end st max m idx)
  = Ok (can_content st max m CfData).
Proof.
  intros f2d data st max m idx a off Hok Hl -> Hd.
  destruct st; cbn [can_data_channel can_content can_get].
  - rewrite (read_bytes f2d data _ _ (N.of_nat (length a)) (N.of_nat max) (length a) max); auto.
    + cbn [final_end]. rewrite slice_end by apply padded_length. reflexivity.
    + cbn [final_end]. rewrite app_length, padded_length. lia.
  - apply (read_vlsd f2d data _ _ (length a) idx); auto.
    + cbn [final_end]. rewrite app_length, le_bytes_length. lia.
    + cbn [final_end]. apply slice_end, le_bytes_length.
    + apply Hd; discriminate.
  - apply (read_vlsd f2d data _ _ (length a) idx); auto.
    + cbn [final_end]. rewrite app_length, le_bytes_length. lia.
    + cbn [final_end]. apply slice_end, le_bytes_length.
    + apply Hd; discriminate.
Qed.

(* ------------------------------------------------------------------ *)
(** ** Values of the fields *)

Lemma can_dlc_lt : forall m, can_dlc m < 16.
Proof. intros. unfold can_dlc. exact (land_lt (can_dlc_ m) 4). Qed.
Lemma can_dlc_mask : forall m, N.land (can_dlc m) 15 = can_dlc m.
Proof.
  intros. change 15 with (2 ^ 4 - 1). rewrite land_mask. apply N.mod_small, can_dlc_lt.
Qed.
Lemma can_length_lt : forall m, can_length m < 256.
Proof. intros. apply N.mod_lt. discriminate. Qed.

Lemma can_ext_bit : forall m, can_id_ m < 2 ^ 32 ->
  can_ext m = N.testbit (can_id_ m) 31.
Proof.
  intros m H. unfold can_ext. change ext_bit with (2 ^ 31). rewrite mask_bit.
  apply negb_involutive.
Qed.
Lemma can_id_split : forall m, can_id_ m < 2 ^ 32 ->
  can_id_ m = can_id m + 2 ^ 31 * b2n (can_ext m) /\ can_id m < 2 ^ 31.
Proof.
  intros m H. rewrite can_ext_bit by auto.
  assert (E: can_id m = can_id_ m mod 2 ^ 31).
  { apply N.bits_inj; intros i. unfold can_id. change ext_bit with (2 ^ 31).
    rewrite N.ldiff_spec, N.pow2_bits_eqb. destruct (N.ltb_spec i 31).
    - rewrite N.mod_pow2_bits_low by auto. rewrite (proj2 (N.eqb_neq 31 i)) by lia. apply andb_true_r.
    - rewrite N.mod_pow2_bits_high by auto. destruct (N.eqb_spec 31 i); [apply andb_false_r|].
      rewrite (testbit_small (can_id_ m) i 32) by (auto; lia). reflexivity. }
  rewrite E. split; [|apply N.mod_lt; discriminate].
  rewrite N.testbit_eqb. rewrite (N.mod_small (can_id_ m / 2 ^ 31) 2).
  - change (2 ^ 31) with 2147483648 in *. change (2 ^ 32) with 4294967296 in *.
    destruct (N.eqb_spec (can_id_ m / 2147483648) 1); cbn [b2n]; lia.
  - change (2 ^ 31) with 2147483648. change (2 ^ 32) with 4294967296 in *. lia.
Qed.

(* ------------------------------------------------------------------ *)
(** ** The round trip *)

Ltac step :=
  cbn [run do_resize bind poke poke_or peek nth_error copy_num copy_at le_bytes plain app or_flag].

Ltac byte_side m Hm :=
  first [ assumption
        | apply w8_ok | apply mod_ok
        | exact (co_bus m Hm)
        | exact (can_length_lt m)
        | exact (N.lt_trans _ _ 256 (can_dlc_lt m) eq_refl)
        | exact (N.lt_trans _ _ 256 (b2n_lt _) eq_refl) ].

Ltac bytes_side m Hm := unfold bytes_ok; repeat (apply Forall_cons; [byte_side m Hm|]); assumption.

Ltac run_one m Hm :=
  erewrite run_step;
  [| first [ rewrite put_num_4; [ step; reflexivity | bytes_side m Hm | cbn [length]; lia ]
           | rewrite put_num_2; [ step; reflexivity | bytes_side m Hm | cbn [length]; lia ]
           | step; reflexivity ] ].

Ltac run_data st max m Hm :=
  match goal with
  | |- context [run [put_data ?off _ _ _] ?R] =>
    let a := eval cbn [firstn] in (firstn off R) in
    let t := eval cbn [skipn] in (skipn off R) in
    change R with (a ++ t);
    rewrite (run_step (put_data off (save_index st) max m) [] (a ++ t) (a ++ data_end st max m));
    [ cbn [run] | apply put_data_tail; [reflexivity | assumption | cbn [app]; bytes_side m Hm ] ]
  end.

(** What is shared by all types: the stored record [R] of a message. *)
Definition good (f2d : N -> N) (data : list N) (st : storage) (max : nat) (m : can)
  (l : list (can_field * chan)) (rec0 R : list N) (n : nat) : Prop :=
  firstn 8 R = firstn 8 rec0 /\ length R = n /\ bytes_ok R /\
  forall f c, In (f, c) l -> read_content f2d data c R = Ok (can_content st max m f).

(** Four flags above a field of 4 bits. *)
Lemma pack_flags : forall d a b c e, d < 16 ->
  w8 (N.lor (w8 (N.lor (w8 (N.lor (w8 (N.lor d (N.shiftl (b2n a) 4))) (N.shiftl (b2n b) 5)))
     (N.shiftl (b2n c) 6))) (N.shiftl (b2n e) 7))
  = d + 16 * b2n a + 32 * b2n b + 64 * b2n c + 128 * b2n e.
Proof.
  intros d a b c e H.
  pose proof (b2n_lt a). pose proof (b2n_lt b). pose proof (b2n_lt c). pose proof (b2n_lt e).
  rewrite (pack 4 d) by (try discriminate; try assumption; change (2 ^ (8 - 4)) with 16; lia).
  rewrite (pack 5) by (try discriminate; change (2 ^ (8 - 5)) with 8; change (2 ^ 4) with 16;
    change (2 ^ 5) with 32; lia).
  rewrite (pack 6) by (try discriminate; change (2 ^ (8 - 6)) with 4; change (2 ^ 4) with 16;
    change (2 ^ 5) with 32; change (2 ^ 6) with 64; lia).
  rewrite (pack 7) by (try discriminate; change (2 ^ (8 - 7)) with 2; change (2 ^ 4) with 16;
    change (2 ^ 5) with 32; change (2 ^ 6) with 64; change (2 ^ 7) with 128; lia).
  reflexivity.
Qed.

(** Five flags. *)
Lemma pack_five : forall a b c d e,
  w8 (N.lor (w8 (N.lor (w8 (N.lor (w8 (N.lor (b2n a) (N.shiftl (b2n b) 1))) (N.shiftl (b2n c) 2)))
     (N.shiftl (b2n d) 3))) (N.shiftl (b2n e) 4))
  = b2n a + 2 * b2n b + 4 * b2n c + 8 * b2n d + 16 * b2n e.
Proof. intros [] [] [] [] []; reflexivity. Qed.

Lemma pack_err : forall x y, x < 32 -> y < 8 -> w8 (N.lor x (N.shiftl y 5)) = x + 32 * y.
Proof.
  intros. apply (pack 5); try discriminate; try assumption.
Qed.

Lemma id_low : forall v e, v < 2 ^ 29 -> e < 2 ->
  ((v + 2 ^ 31 * e) / 2 ^ 0) mod 2 ^ 29 = v.
Proof.
  intros v e H He. change (2 ^ 0) with 1. change (2 ^ 29) with 536870912 in *.
  change (2 ^ 31) with 2147483648. lia.
Qed.
Lemma id_high : forall v e, v < 2 ^ 31 -> e < 2 ->
  ((v + 2 ^ 31 * e) / 2 ^ 31) mod 2 ^ 1 = e.
Proof.
  intros v e H He. change (2 ^ 31) with 2147483648 in *. change (2 ^ 1) with 2. lia.
Qed.

(** The identifier and its flag, in the 4 bytes at 9. *)
Lemma read_id : forall f2d data m R, can_ok m -> can_id m < 2 ^ 29 -> bytes_ok R ->
  N.of_nat (length R) < 2 ^ 28 -> (13 <= length R)%nat ->
  slice 9 4 R = le_bytes 4 (can_message_id m) ->
  read_content f2d data (bits_channel 9 0 29) R = Ok (num (can_id m)) /\
  read_content f2d data (bit_channel 12 7) R = Ok (flag (can_ext m)).
Proof.
  intros f2d data m R Hm Hid Hok Hl Hn Hs.
  destruct (can_id_split m (co_id m Hm)) as [E1 E2].
  assert (Hle: le_num (slice 9 4 R) = can_id_ m).
  { rewrite Hs. unfold can_message_id. rewrite le_num_bytes. apply N.mod_small. exact (co_id m Hm). }
  split.
  - rewrite (read_bits f2d data R 9 0 29 9 4) by (auto; try (split; discriminate); try discriminate).
    rewrite Hle, E1, id_low by (auto; apply b2n_lt). reflexivity.
  - unfold bit_channel. rewrite (read_bits f2d data R 12 7 1 12 1)
      by (auto; try (split; discriminate); try discriminate; lia).
    rewrite flag_num. do 2 f_equal.
    assert (E: le_num (slice 12 1 R) = can_id_ m / 2 ^ 24).
    { rewrite <- Hle. clear - Hok Hn.
      do 13 (destruct R as [|? R]; [cbn [length] in Hn; lia|]).
      cbv [slice]; cbn [skipn firstn]. unfold bytes_ok in Hok.
      repeat match goal with H: Forall byte_ok (_ :: _) |- _ =>
        let H1 := fresh in pose proof (Forall_inv H) as H1; apply Forall_inv_tail in H; unfold byte_ok in H1 end.
      cbn [le_num]. change (2 ^ 24) with 16777216. lia. }
    rewrite E, N.div_div by discriminate. rewrite <- N.pow_add_r. change (24 + 7) with 31.
    rewrite E1. apply id_high; auto. apply b2n_lt.
Qed.

(** Closes the goals on channels other than the data bytes. *)
Ltac read_goal f2d data m Hm HId :=
  match goal with
  | |- read_content _ _ (bits_channel 9 0 29) _ = _ => exact (proj1 HId)
  | |- read_content _ _ (bit_channel 12 7) _ = _ => exact (proj2 HId)
  | |- read_content _ _ bus_channel ?R = _ =>
      unfold bus_channel; apply (read_num f2d data R 8 8 8 1);
      [assumption | assumption | reflexivity | reflexivity | split; discriminate |
       lia | cbn [le_bytes]; rewrite (N.mod_small _ 256) by exact (co_bus m Hm); reflexivity |
       exact (co_bus m Hm)]
  | |- read_content _ _ (bits_channel 14 0 8) ?R = _ =>
      apply (read_num f2d data R 14 8 14 1);
      [assumption | assumption | reflexivity | reflexivity | split; discriminate |
       lia |
       cbn [le_bytes]; rewrite (N.mod_small _ 256) by exact (can_length_lt m); reflexivity |
       exact (can_length_lt m)]
  | |- read_content _ _ (bits_channel ?b 0 ?n) ?R = _ =>
      let o := eval vm_compute in (N.to_nat b) in
      let k := eval vm_compute in (N.to_nat (n / 8)) in
      apply (read_num f2d data R b n o k);
      [assumption | assumption | reflexivity | reflexivity | split; discriminate |
       lia | reflexivity |
       first [exact (co_dur m Hm) | exact (co_crc m Hm) | exact (co_pos m Hm)] ]
  | |- read_content _ _ (bits_channel ?b ?bit ?n) ?R = _ =>
      let o := eval vm_compute in (N.to_nat b) in
      eapply (read_part f2d data R b bit n o);
      [assumption | assumption | reflexivity | discriminate | discriminate |
       lia | reflexivity | ]
  | |- read_content _ _ (bit_channel ?b ?bit) ?R = Ok (flag _) =>
      let o := eval vm_compute in (N.to_nat b) in
      rewrite flag_num; unfold bit_channel;
      eapply (read_part f2d data R b bit 1 o);
      [assumption | assumption | reflexivity | discriminate | discriminate |
       lia | reflexivity | ]
  end.

Ltac flag_lia m :=
  pose proof (can_dlc_lt m);
  repeat match goal with |- context [b2n (can_has ?f m)] =>
    let H := fresh in pose proof (b2n_lt (can_has f m)) as H;
    generalize dependent (b2n (can_has f m)); intros end;
  change (2 ^ 0) with 1; change (2 ^ 1) with 2; change (2 ^ 2) with 4; change (2 ^ 3) with 8;
  change (2 ^ 4) with 16; change (2 ^ 5) with 32; change (2 ^ 6) with 64; change (2 ^ 7) with 128;
  change (2 ^ 8) with 256.

Lemma can_data_trip : forall f2d data mand st max m rec0 idx,
  can_ok m -> can_id m < 2 ^ 29 -> N.of_nat max < 2 ^ 27 ->
  bytes_ok rec0 -> (8 <= length rec0)%nat ->
  (st <> Mlsd -> sd_holds data idx (can_data m)) ->
  exists a, run (can_data_frame mand (save_index st) max m) rec0 = Ok (a ++ data_end st max m) /\
    good f2d data st max m (can_data_channels mand st max) rec0 (a ++ final_end st max m idx)
      (can_size CanData mand st max).
Proof.
  intros f2d data mand st max m rec0 idx Hm Hid Hmax Hok Hl Hd.
  assert (Hmax8: N.of_nat (end_length st max) < 2 ^ 27).
  { destruct st; cbn [end_length]; auto; reflexivity. }
  destruct (resize_facts (can_size CanData mand st max) rec0 Hok Hl) as (r & Er & Hr & Hrok & H8).
  { destruct mand; unfold can_size; lia. }
  unfold can_data_frame.
  replace (if save_index st then 8%nat else max) with (end_length st max) by (destruct st; reflexivity).
  assert (Er': resize ((if mand then 15 else 24) + end_length st max) rec0 = r)
    by (rewrite <- Er; destruct st; reflexivity).
  unfold good. rewrite <- H8. clear H8 Er.
  assert (Hr': length r = ((if mand then 15 else 24) + end_length st max)%nat)
    by (rewrite Hr; destruct st; reflexivity).
  destruct (split_list r _ _ Hr') as (a & t & -> & Ha & Ht).
  unfold bytes_ok in Hrok. apply Forall_app in Hrok. destruct Hrok as [Haok Htok].
  replace (can_size CanData mand st max) with ((if mand then 15 else 24) + end_length st max)%nat
    by (destruct st; reflexivity). clear Hr Hr'.
  pose proof (final_end_length st max m idx) as HFl.
  pose proof (final_end_ok st max m idx (co_data m Hm)) as HFok.
  destruct mand; cbn [app];
    (rewrite (run_step _ _ rec0 _ (f_equal Ok Er')); clear Er'; explode a Ha; cbn [app]).
  - split_bytes. repeat run_one m Hm. run_data st max m Hm.
    eexists; split; [reflexivity|].
    match goal with |- context [?A ++ final_end st max m idx] => set (R := A ++ final_end st max m idx) end.
    assert (HR: bytes_ok R) by (unfold R; step; bytes_side m Hm).
    assert (HL: N.of_nat (length R) < 2 ^ 28).
    { unfold R. rewrite app_length, HFl. cbn [length]. change (2 ^ 28) with 268435456.
      change (2 ^ 27) with 134217728 in Hmax8. lia. }
    assert (HId: read_content f2d data (bits_channel 9 0 29) R = Ok (num (can_id m)) /\
                 read_content f2d data (bit_channel 12 7) R = Ok (flag (can_ext m))).
    { apply read_id; auto. unfold R. rewrite app_length. cbn [length]. lia. }
    split; [reflexivity|].
    assert (HLen: length R = (15 + end_length st max)%nat)
      by (unfold R; rewrite app_length, HFl; reflexivity).
    split; [exact HLen|]. split; [exact HR|].
    intros f c Hin. cbn [can_data_channels app In] in Hin.
    repeat match goal with Hin: _ \/ _ |- _ => destruct Hin as [Hin|Hin] end; try contradiction.
    all: injection Hin as <- <-.
    6: apply read_data_end; auto.
    all: cbn [can_content can_get].
    all: read_goal f2d data m Hm HId.
    flag_lia m; lia.
  - split_bytes. repeat run_one m Hm. run_data st max m Hm.
    eexists; split; [reflexivity|].
    match goal with |- context [?A ++ final_end st max m idx] => set (R := A ++ final_end st max m idx) end.
    assert (HR: bytes_ok R) by (unfold R; step; bytes_side m Hm).
    assert (HL: N.of_nat (length R) < 2 ^ 28).
    { unfold R. rewrite app_length, HFl. cbn [length]. change (2 ^ 28) with 268435456.
      change (2 ^ 27) with 134217728 in Hmax8. lia. }
    assert (HId: read_content f2d data (bits_channel 9 0 29) R = Ok (num (can_id m)) /\
                 read_content f2d data (bit_channel 12 7) R = Ok (flag (can_ext m))).
    { apply read_id; auto. unfold R. rewrite app_length. cbn [length]. lia. }
    split; [reflexivity|].
    assert (HLen: length R = (24 + end_length st max)%nat)
      by (unfold R; rewrite app_length, HFl; reflexivity).
    split; [exact HLen|]. split; [exact HR|].
    intros f c Hin. cbn [can_data_channels app In] in Hin.
    repeat match goal with Hin: _ \/ _ |- _ => destruct Hin as [Hin|Hin] end; try contradiction.
    all: injection Hin as <- <-.
    17: apply read_data_end; auto.
    all: cbn [can_content can_get].
    all: read_goal f2d data m Hm HId.
    all: rewrite ?pack_flags, ?pack_five by apply can_dlc_lt.
    all: clear; flag_lia m; lia.
Qed.

Lemma can_remote_trip : forall f2d data mand st max m rec0,
  can_ok m -> can_id m < 2 ^ 29 -> bytes_ok rec0 -> (8 <= length rec0)%nat ->
  exists R, run (can_remote_frame mand m) rec0 = Ok R /\
    good f2d data st max m (can_remote_channels mand) rec0 R (can_size CanRemote mand st max).
Proof.
  intros f2d data mand st max m rec0 Hm Hid Hok Hl.
  destruct (resize_facts (can_size CanRemote mand st max) rec0 Hok Hl) as (a & Er & Ha & Haok & H8).
  { destruct mand; cbn [can_size]; lia. }
  unfold can_remote_frame, good. rewrite <- H8. clear H8.
  cbn [can_size] in *. unfold bytes_ok in Haok.
  destruct mand; cbn [app];
    (rewrite (run_step _ _ rec0 _ (f_equal Ok Er)); clear Er; explode a Ha; cbn [app]).
  all: split_bytes; rewrite can_dlc_mask; repeat run_one m Hm; cbn [run].
  all: eexists; split; [reflexivity|].
  all: match goal with |- context [firstn 8 ?A = _] => set (R := A) end.
  all: assert (HR: bytes_ok R) by (unfold R; bytes_side m Hm).
  all: assert (HL: N.of_nat (length R) < 2 ^ 28) by reflexivity.
  all: assert (HLen: (15 <= length R)%nat) by (unfold R; cbn [length]; lia).
  all: assert (HId: read_content f2d data (bits_channel 9 0 29) R = Ok (num (can_id m)) /\
                 read_content f2d data (bit_channel 12 7) R = Ok (flag (can_ext m)))
    by (apply read_id; auto; lia).
  all: split; [reflexivity|]; split; [reflexivity|]; split; [exact HR|].
  all: intros f c Hin; cbn [can_remote_channels app In] in Hin.
  all: repeat match goal with Hin: _ \/ _ |- _ => destruct Hin as [Hin|Hin] end; try contradiction.
  all: injection Hin as <- <-; cbn [can_content can_get].
  all: try assert (HLen': (24 <= length R)%nat) by (unfold R; cbn [length]; lia).
  all: read_goal f2d data m Hm HId.
  all: rewrite ?pack_flags by apply can_dlc_lt.
  all: try solve [destruct (can_has FgR0 m), (can_has FgR1 m); reflexivity].
  all: clear; flag_lia m; lia.
Qed.

Lemma can_error_trip : forall f2d data mand st max m rec0 idx,
  can_ok m -> can_id m < 2 ^ 29 -> N.of_nat max < 2 ^ 27 ->
  bytes_ok rec0 -> (8 <= length rec0 <= can_size CanError mand st max)%nat ->
  (st <> Mlsd -> sd_holds data idx (can_data m)) ->
  exists a, run (can_error_frame (save_index st) max m) rec0 = Ok (a ++ data_end st max m) /\
    good f2d data st max m (can_error_channels st max) rec0 (a ++ final_end st max m idx)
      (can_size CanError mand st max).
Proof.
  intros f2d data mand st max m rec0 idx Hm Hid Hmax Hok Hl Hd.
  assert (Hmax8: N.of_nat (end_length st max) < 2 ^ 27).
  { destruct st; cbn [end_length]; auto; reflexivity. }
  assert (Es: can_size CanError mand st max = (26 + end_length st max)%nat) by (destruct st; reflexivity).
  rewrite Es in *.
  destruct (resize_facts (26 + end_length st max) rec0 Hok (proj1 Hl)) as (r & Er & Hr & Hrok & H8); [lia|].
  assert (Er': do_grow (26 + end_length st max) rec0 = Ok r).
  { unfold do_grow. destruct (Nat.ltb_spec (length rec0) (26 + end_length st max)); [rewrite Er; reflexivity|].
    rewrite <- Er. unfold resize. rewrite firstn_all2 by lia.
    replace (26 + end_length st max - length rec0)%nat with O by lia. cbn [repeat].
    rewrite app_nil_r. reflexivity. }
  unfold can_error_frame, good.
  replace (if save_index st then 8%nat else max) with (end_length st max) by (destruct st; reflexivity).
  rewrite <- H8. clear H8 Er.
  destruct (split_list r _ _ Hr) as (a & t & -> & Ha & Ht). clear Hr.
  unfold bytes_ok in Hrok. apply Forall_app in Hrok. destruct Hrok as [Haok Htok].
  pose proof (final_end_length st max m idx) as HFl.
  pose proof (final_end_ok st max m idx (co_data m Hm)) as HFok.
  rewrite (run_step _ _ rec0 _ Er'); clear Er'; explode a Ha; cbn [app].
  split_bytes. rewrite can_dlc_mask. repeat run_one m Hm. run_data st max m Hm.
  eexists; split; [reflexivity|].
  match goal with |- context [?A ++ final_end st max m idx] => set (R := A ++ final_end st max m idx) end.
  assert (HR: bytes_ok R) by (unfold R; step; bytes_side m Hm).
  assert (HL: N.of_nat (length R) < 2 ^ 28).
  { unfold R. rewrite app_length, HFl. cbn [length]. change (2 ^ 28) with 268435456.
    change (2 ^ 27) with 134217728 in Hmax8. lia. }
  assert (HId: read_content f2d data (bits_channel 9 0 29) R = Ok (num (can_id m)) /\
               read_content f2d data (bit_channel 12 7) R = Ok (flag (can_ext m))).
  { apply read_id; auto. unfold R. rewrite app_length. cbn [length]. lia. }
  split; [reflexivity|].
  assert (HLen: length R = (26 + end_length st max)%nat)
    by (unfold R; rewrite app_length, HFl; reflexivity).
  split; [exact HLen|]. split; [exact HR|].
  intros f c Hin. cbn [can_error_channels In] in Hin.
  repeat match goal with Hin: _ \/ _ |- _ => destruct Hin as [Hin|Hin] end; try contradiction.
  all: injection Hin as <- <-.
  19: apply read_data_end; auto.
  all: cbn [can_content can_get].
  all: read_goal f2d data m Hm HId.
  all: assert (He: N.land (can_err_ m) 7 = can_err_ m)
    by (change 7 with (2 ^ 3 - 1); rewrite land_mask; apply N.mod_small; exact (co_err m Hm)).
  all: rewrite ?pack_flags, ?pack_five, ?He by apply can_dlc_lt.
  all: try (rewrite pack_err;
    [| pose proof (b2n_lt (can_has FgEsi m)); pose proof (b2n_lt (can_has FgWakeUp m));
       pose proof (b2n_lt (can_has FgSingleWire m)); pose proof (b2n_lt (can_has FgR0 m));
       pose proof (b2n_lt (can_has FgR1 m)); lia | exact (co_err m Hm)]).
  all: pose proof (co_err m Hm) as He8; clear - He8; flag_lia m; lia.
Qed.

Lemma can_overload_trip : forall f2d data mand st max m rec0,
  can_ok m -> bytes_ok rec0 -> (8 <= length rec0)%nat ->
  exists R, run (can_overload_frame m) rec0 = Ok R /\
    good f2d data st max m can_overload_channels rec0 R (can_size CanOverload mand st max).
Proof.
  intros f2d data mand st max m rec0 Hm Hok Hl.
  destruct (resize_facts (can_size CanOverload mand st max) rec0 Hok Hl) as (a & Er & Ha & Haok & H8).
  { cbn [can_size]; lia. }
  unfold can_overload_frame, good. rewrite <- H8. clear H8.
  cbn [can_size] in *. unfold bytes_ok in Haok.
  rewrite (run_step _ _ rec0 _ (f_equal Ok Er)); clear Er; explode a Ha.
  split_bytes; repeat run_one m Hm; cbn [run].
  eexists; split; [reflexivity|].
  match goal with |- context [firstn 8 ?A = _] => set (R := A) end.
  assert (HR: bytes_ok R) by (unfold R; bytes_side m Hm).
  assert (HL: N.of_nat (length R) < 2 ^ 28) by reflexivity.
  assert (HLen: (10 <= length R)%nat) by (unfold R; cbn [length]; lia).
  split; [reflexivity|]; split; [reflexivity|]; split; [exact HR|].
  intros f c Hin; cbn [can_overload_channels In] in Hin.
  pose proof Logic.I as HId.
  repeat match goal with Hin: _ \/ _ |- _ => destruct Hin as [Hin|Hin] end; try contradiction.
  all: injection Hin as <- <-; cbn [can_content can_get].
  all: read_goal f2d data m Hm HId.
  destruct (can_has FgDir m); reflexivity.
Qed.

(** All types. *)
Lemma can_round_trip : forall f2d data t mand max st m s idx,
  can_ok m -> can_id m < 2 ^ 29 -> (8 <= max)%nat -> N.of_nat max < 2 ^ 27 ->
  bytes_ok (r_rec s) -> (8 <= length (r_rec s))%nat -> r_vlsd s = false ->
  (t = CanError -> (length (r_rec s) <= can_size t mand st max)%nat) ->
  (st <> Mlsd -> sd_holds data idx (can_data m)) ->
  exists r, can_to_raw t mand max st m s = Ok r /\
    (r_vlsd r = true -> r_buf r = can_data m) /\
    firstn 8 (stored r idx) = firstn 8 (r_rec s) /\
    length (stored r idx) = can_size t mand st max /\
    bytes_ok (stored r idx) /\
    forall f c, In (f, c) (can_channels t mand st max) ->
      read_content f2d data c (stored r idx) = Ok (can_content st max m f).
Proof.
  intros f2d data t mand max st m s idx Hm Hid H8 Hmax Hok Hl Hv Hgrow Hd.
  unfold can_to_raw. rewrite (proj2 (Nat.ltb_ge max 8)) by exact H8.
  destruct t; cbn [can_channels].
  - destruct (can_data_trip f2d data mand st max m (r_rec s) idx Hm Hid Hmax Hok Hl Hd) as (a & E & G).
    exists (mkRaw (a ++ data_end st max m) (save_index st) (if save_index st then can_data_ m else [])).
    rewrite stored_end, E. split; [destruct st; reflexivity|].
    split; [cbn [r_vlsd r_buf]; intros ->; reflexivity | exact G].
  - destruct (can_remote_trip f2d data mand st max m (r_rec s) Hm Hid Hok Hl) as (R & E & G).
    exists (mkRaw R (r_vlsd s) (r_buf s)). rewrite E. split; [reflexivity|].
    unfold stored. cbn [r_vlsd r_buf r_rec]. rewrite Hv. split; [discriminate | exact G].
  - destruct (can_error_trip f2d data mand st max m (r_rec s) idx Hm Hid Hmax Hok (conj Hl (Hgrow eq_refl)) Hd)
      as (a & E & G).
    exists (mkRaw (a ++ data_end st max m) (save_index st) (if save_index st then can_data_ m else [])).
    rewrite stored_end, E. split; [destruct st; reflexivity|].
    split; [cbn [r_vlsd r_buf]; intros ->; reflexivity | exact G].
  - destruct (can_overload_trip f2d data mand st max m (r_rec s) Hm Hok Hl) as (R & E & G).
    exists (mkRaw R (r_vlsd s) (r_buf s)). rewrite E. split; [reflexivity|].
    unfold stored. cbn [r_vlsd r_buf r_rec]. rewrite Hv. split; [discriminate | exact G].
Qed.
