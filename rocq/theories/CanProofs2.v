(** Proofs about CAN messages: setters, data length codes and decoding. *)
From Verif Require Import Base ChannelModel ChannelSpec QueueModel BusModel BusSpec BusProofs BusBits CanModel CanSpec CanProofs.
Local Open Scope N_scope.

Lemma below_all : forall (P : N -> bool) n, forallb P (map N.of_nat (seq 0 n)) = true ->
  forall x, x < N.of_nat n -> P x = true.
Proof.
  intros P n H x Hx. rewrite forallb_forall in H. apply H. apply in_map_iff.
  exists (N.to_nat x). split; [apply N2Nat.id|]. apply in_seq. lia.
Qed.

(* ------------------------------------------------------------------ *)
(** ** Data length codes *)

Lemma loop_code : forall n, n < 256 -> N.land (dlc_loop dlc_table n 0) 15 = code_for n.
Proof.
  intros n Hn. apply N.eqb_eq. revert n Hn.
  apply (below_all (fun n => N.land (dlc_loop dlc_table n 0) 15 =? code_for n) 256).
  vm_compute. reflexivity.
Qed.

Lemma loop_lt : forall n, n < 256 -> dlc_loop dlc_table n 0 < 256.
Proof.
  intros n Hn. apply N.ltb_lt. revert n Hn.
  apply (below_all (fun n => dlc_loop dlc_table n 0 <? 256) 256). vm_compute. reflexivity.
Qed.

Lemma to_length_code : forall d, d < 16 -> dlc_to_length d = code_length d.
Proof.
  intros d Hd. apply N.eqb_eq. revert d Hd.
  apply (below_all (fun d => dlc_to_length d =? code_length d) 16). vm_compute. reflexivity.
Qed.

Lemma code_for_facts : forall n, n <= 64 ->
  code_for n < 16 /\ n <= code_length (code_for n) /\
  (forall d, d < 16 -> n <= code_length d -> code_for n <= d).
Proof.
  intros n Hn.
  pose proof (below_all (fun n => (code_for n <? 16) && (n <=? code_length (code_for n)) &&
    forallb (fun d => negb (n <=? code_length d) || (code_for n <=? d)) (map N.of_nat (seq 0 16))) 65
    ltac:(vm_compute; reflexivity) n ltac:(lia)) as H.
  cbv beta in H. rewrite !andb_true_iff in H. destruct H as [[H1 H2] H3].
  apply N.ltb_lt in H1. apply N.leb_le in H2. split; [exact H1|]. split; [exact H2|].
  intros d Hd Hle.
  pose proof (proj1 (forallb_forall _ _) H3 d) as H. cbv beta in H.
  rewrite (proj2 (N.leb_le _ _) Hle) in H. cbn [negb orb] in H. apply N.leb_le, H.
  apply in_map_iff. exists (N.to_nat d). split; [apply N2Nat.id|]. apply in_seq. lia.
Qed.

Lemma code_of_length : forall d, d < 16 -> code_for (code_length d) = d.
Proof.
  intros d Hd. apply N.eqb_eq. revert d Hd.
  apply (below_all (fun d => code_for (code_length d) =? d) 16). vm_compute. reflexivity.
Qed.

(* ------------------------------------------------------------------ *)
(** ** Setters *)

Lemma ext_set_id : forall id, id < 2 ^ 32 ->
  N.ldiff (if mask_11 <? id then N.lor id ext_bit else id) ext_bit = id mod 2 ^ 31.
Proof.
  intros id H. apply N.bits_inj; intros i. change ext_bit with (2 ^ 31).
  assert (E: N.testbit (N.ldiff id (2 ^ 31)) i = N.testbit (id mod 2 ^ 31) i).
  { rewrite N.ldiff_spec, N.pow2_bits_eqb. destruct (N.ltb_spec i 31).
    - rewrite N.mod_pow2_bits_low by auto. rewrite (proj2 (N.eqb_neq 31 i)) by lia. apply andb_true_r.
    - rewrite N.mod_pow2_bits_high by auto. destruct (N.eqb_spec 31 i); [apply andb_false_r|].
      rewrite (testbit_small id i 32) by (auto; lia). reflexivity. }
  destruct (mask_11 <? id); [|exact E].
  rewrite <- E, !N.ldiff_spec, N.lor_spec, N.pow2_bits_eqb.
  destruct (31 =? i), (N.testbit id i); reflexivity.
Qed.

Lemma ext_set_ide : forall id, id < 2 ^ 32 ->
  negb (N.land (if mask_11 <? id then N.lor id ext_bit else id) ext_bit =? 0) = (2048 <=? id).
Proof.
  intros id H. change ext_bit with (2 ^ 31). rewrite mask_bit, negb_involutive.
  unfold mask_11. destruct (N.ltb_spec 2047 id).
  - rewrite N.lor_spec, N.pow2_bits_true, orb_true_r. symmetry. apply N.leb_le. lia.
  - rewrite (testbit_small id 31 11) by (try lia; change (2 ^ 11) with 2048; lia).
    symmetry. apply N.leb_gt. lia.
Qed.

Lemma ext_keep : forall id (e : bool),
  N.ldiff (if e then N.lor id ext_bit else N.ldiff id ext_bit) ext_bit = N.ldiff id ext_bit.
Proof.
  intros id e. apply N.bits_inj; intros i. destruct e; rewrite !N.ldiff_spec, ?N.lor_spec, ?N.ldiff_spec;
    destruct (N.testbit id i), (N.testbit ext_bit i); reflexivity.
Qed.

Lemma ext_value : forall id (e : bool),
  negb (N.land (if e then N.lor id ext_bit else N.ldiff id ext_bit) ext_bit =? 0) = e.
Proof.
  intros id e. change ext_bit with (2 ^ 31). rewrite mask_bit, negb_involutive.
  destruct e.
  - rewrite N.lor_spec, N.pow2_bits_true. apply orb_true_r.
  - rewrite N.ldiff_spec, N.pow2_bits_true. apply andb_false_r.
Qed.

Lemma flag_eqb_eq : forall a b, flag_eqb a b = true <-> a = b.
Proof. intros [] []; unfold flag_eqb; cbn; split; intros; try reflexivity; discriminate. Qed.

Lemma flag_set_value : forall fl (g h : can_flag) (b : bool),
  N.testbit (if b then N.setbit fl (flag_bit g) else N.clearbit fl (flag_bit g)) (flag_bit h)
  = if flag_eqb g h then b else N.testbit fl (flag_bit h).
Proof.
  intros fl g h b. unfold flag_eqb. destruct b.
  - rewrite N.setbit_eqb. destruct (flag_bit g =? flag_bit h); reflexivity.
  - rewrite N.clearbit_eqb. destruct (flag_bit g =? flag_bit h); cbn [negb andb].
    + apply andb_false_r.
    + apply andb_true_r.
Qed.

Lemma resize_padded : forall n l, resize n l = padded 0 n l.
Proof.
  intros n l. unfold resize, padded. rewrite firstn_app. f_equal.
  assert (G: forall a b (x : N), (a <= b)%nat -> repeat x a = firstn a (repeat x b)).
  { induction a as [|a IH]; intros [|b] x Hab; cbn [repeat firstn]; auto; [lia|].
    rewrite <- IH by lia. reflexivity. }
  apply G. lia.
Qed.

Ltac can_fields := cbn [can_apply can_effect can_get can_arg_ok];
  unfold can_id, can_ext, can_dlc, can_length, can_data, can_has, can_set_data, can_set_length,
    can_set_id, can_set_ext, can_with_id, can_with_data, can_set_dlc, can_set_flag, can_set_bus,
    can_set_pos, can_set_err, can_set_dur, can_set_crc, can_set_time, can_reset;
  cbn [can_time_ can_bus_ can_id_ can_dlc_ can_flags_ can_data_ can_pos_ can_err_ can_dur_ can_crc_].

Lemma can_step : forall m o f, can_arg_ok o ->
  can_get (can_apply m o) f = can_effect o f (can_get m f).
Proof.
  intros m o f Ho. destruct o; cbn [can_arg_ok] in Ho; destruct f; can_fields; try reflexivity.
  - rewrite ext_set_id by exact Ho. reflexivity.
  - rewrite ext_set_ide by exact Ho. reflexivity.
  - rewrite ext_keep. reflexivity.
  - rewrite ext_value. reflexivity.
  - change 15 with (2 ^ 4 - 1). rewrite land_mask. reflexivity.
  - rewrite loop_code by exact Ho. reflexivity.
  - rewrite resize_length, N2Nat.id. unfold num, w8. rewrite N.mod_small by exact Ho. reflexivity.
  - rewrite resize_padded. reflexivity.
  - rewrite loop_code by (apply N.mod_lt; discriminate). reflexivity.
  - rewrite flag_set_value. destruct (flag_eqb f0 f); reflexivity.
Qed.

Lemma bound_lor : forall x, x < 2 ^ 32 -> N.lor x ext_bit < 2 ^ 32.
Proof.
  intros x H. destruct (N.eq_dec (N.lor x ext_bit) 0) as [->|Hnz]; [reflexivity|].
  apply N.log2_lt_pow2; [lia|]. rewrite N.log2_lor. apply N.max_lub_lt; [|reflexivity].
  destruct (N.eq_dec x 0) as [->|Hx]; [reflexivity|]. apply N.log2_lt_pow2; lia.
Qed.
Lemma bound_ldiff : forall x, x < 2 ^ 32 -> N.ldiff x ext_bit < 2 ^ 32.
Proof.
  intros x H. apply N.le_lt_trans with x; auto. apply N.ldiff_le.
  apply N.bits_inj; intros i. rewrite N.bits_0, !N.ldiff_spec.
  destruct (N.testbit x i), (N.testbit ext_bit i); reflexivity.
Qed.

Lemma can_apply_ok : forall m o, can_ok m -> can_arg_ok o -> can_ok (can_apply m o).
Proof.
  intros m o H Ho. destruct H as [H1 H2 H3 H4 H5 H6 H7 H8].
  destruct o; cbn [can_arg_ok] in Ho; constructor; can_fields; try assumption; try reflexivity.
  - destruct (mask_11 <? v); auto using bound_lor.
  - destruct b; auto using bound_lor, bound_ldiff.
  - apply loop_lt; exact Ho.
  - apply resize_ok; auto.
  - apply loop_lt. apply N.mod_lt; discriminate.
  - constructor.
Qed.

Lemma can_new_ok : can_ok can_new.
Proof. constructor; try reflexivity. constructor. Qed.

Lemma can_history : forall ops m f, can_ok m -> Forall can_arg_ok ops ->
  can_ok (fold_left can_apply ops m) /\
  can_get (fold_left can_apply ops m) f
  = fold_left (fun c o => can_effect o f c) ops (can_get m f).
Proof.
  induction ops as [|o ops IH]; intros m f Hm Ho; [split; [exact Hm | reflexivity]|].
  cbn [fold_left]. rewrite <- (can_step m o f (Forall_inv Ho)).
  apply IH; [apply can_apply_ok; auto; exact (Forall_inv Ho) | exact (Forall_inv_tail Ho)].
Qed.

Lemma can_last_flag : forall f ops m, can_ok m -> Forall can_arg_ok ops ->
  can_has f (fold_left can_apply ops m) = last_flag f ops (can_has f m).
Proof.
  intros f. induction ops as [|o ops IH]; intros m Hm Ho; [reflexivity|].
  cbn [fold_left]. rewrite IH; [|apply can_apply_ok; auto; exact (Forall_inv Ho)|exact (Forall_inv_tail Ho)].
  pose proof (can_step m o (CfFlag f) (Forall_inv Ho)) as E.
  destruct o; cbn [last_flag can_effect can_get] in *;
    try (f_equal; unfold flag in E; destruct (can_has f m), (can_has f (can_apply m _)); congruence || reflexivity).
  - cbn [can_apply] in *. f_equal.
    destruct (flag_eqb f0 f); unfold flag in E; destruct (can_has f (can_set_flag f0 m b)), b, (can_has f m);
      congruence || reflexivity.
Qed.

(* ------------------------------------------------------------------ *)
(** ** Decoding *)

Lemma obs_num_read : forall data c R v, ch_dtype c = UnsignedLe ->
  read_content (fun h => h) data c R = Ok (num v) -> obs_num c R = Ok v.
Proof.
  intros data c R v Hc H. unfold read_content in H. rewrite Hc in H. unfold obs_num.
  destruct (get_channel _ _ c R 0) as [[u b]| |]; cbn [bind fst snd] in H; try discriminate.
  destruct b; [|discriminate]. unfold num in H. injection H as ->. reflexivity.
Qed.

Lemma obs_bytes_read : forall data c R l, ch_dtype c = ByteArray ->
  read_content (fun h => h) data c R = Ok (Bytes l) -> obs_bytes data c R = Ok l.
Proof.
  intros data c R l Hc H. unfold read_content in H. rewrite Hc in H. unfold obs_bytes.
  destruct (get_bytes c None data R); cbn [bind] in H; try discriminate.
  injection H as ->. reflexivity.
Qed.

Lemma padded_cut : forall v n l, (length l <= n)%nat ->
  resize (length l) (padded v n l) = l.
Proof.
  intros v n l H. unfold resize. rewrite padded_length.
  replace (length l - n)%nat with O by lia. cbn [repeat]. rewrite app_nil_r.
  unfold padded. rewrite firstn_firstn, Nat.min_l by lia.
  rewrite firstn_app, firstn_all, Nat.sub_diag. apply app_nil_r.
Qed.
Lemma padded_full : forall v l, padded v (length l) l = l.
Proof.
  intros. unfold padded. rewrite firstn_app, firstn_all, Nat.sub_diag. apply app_nil_r.
Qed.

Lemma obs_step : forall l rec f set m c v k,
  can_find l f = Some c -> obs_num c rec = Ok v ->
  obs_all (obs l rec f set :: k) m = obs_all k (set m v).
Proof.
  intros l rec f set m c v k H1 H2. cbn [obs_all]. unfold obs. rewrite H1, H2. reflexivity.
Qed.
Lemma obs_skip : forall l rec f set m k,
  can_find l f = None -> obs_all (obs l rec f set :: k) m = obs_all k m.
Proof. intros l rec f set m k H. cbn [obs_all]. unfold obs. rewrite H. reflexivity. Qed.
Lemma b2n_true : forall b, negb (b2n b =? 0) = b.
Proof. intros []; reflexivity. Qed.

(** The calls the observer makes on the message. *)
Definition seen_ops (m : can) (l : list (can_field * chan)) : list can_op :=
  let has f := match can_find l f with Some _ => true | None => false end in
  let opt (b : bool) (o : can_op) := if b then [o] else [] in
  opt (has CfBus) (CoBus (can_bus_ m)) ++ opt (has CfId) (CoId (can_id m)) ++
  opt (has CfIde) (CoExt (can_ext m)) ++ opt (has CfDlc) (CoDlc (can_dlc m)) ++
  opt (has CfLength) (CoLength (can_length m)) ++ opt (has CfData) (CoData (can_data m)) ++
  opt (has (CfFlag FgDir)) (CoFlag FgDir (can_has FgDir m)) ++ opt (has CfCrc) (CoCrc (can_crc_ m)) ++
  opt (has (CfFlag FgSrr)) (CoFlag FgSrr (can_has FgSrr m)) ++
  opt (has (CfFlag FgEdl)) (CoFlag FgEdl (can_has FgEdl m)) ++
  opt (has (CfFlag FgBrs)) (CoFlag FgBrs (can_has FgBrs m)) ++
  opt (has (CfFlag FgEsi)) (CoFlag FgEsi (can_has FgEsi m)) ++
  opt (has (CfFlag FgR1)) (CoFlag FgR1 (can_has FgR1 m)) ++
  opt (has (CfFlag FgWakeUp)) (CoFlag FgWakeUp (can_has FgWakeUp m)) ++
  opt (has (CfFlag FgSingleWire)) (CoFlag FgSingleWire (can_has FgSingleWire m)) ++
  opt (has CfDur) (CoDur (can_dur_ m)) ++ opt (has CfPos) (CoDur (can_pos_ m)).

Lemma can_length_fits : forall m, N.of_nat (length (can_data_ m)) < 256 ->
  can_length m = N.of_nat (length (can_data_ m)).
Proof. intros m H. apply N.mod_small. exact H. Qed.

Ltac obs_run Hnum Hdata :=
  repeat match goal with
    | |- obs_all (obs ?l ?R ?f ?set :: ?k) ?m0 = _ =>
        let r := eval cbn in (can_find l f) in
        match r with
        | None => rewrite (obs_skip l R f set m0 k) by reflexivity
        | Some ?c =>
            erewrite (obs_step l R f set m0 c _ k);
            [| reflexivity | eapply (Hnum f c); [cbn; tauto | reflexivity | reflexivity] ]; cbv beta
        end
    | |- obs_all (obs_data ?st ?l ?data ?vlsd ?R :: ?k) ?m0 = _ =>
        let r := eval cbn in (can_find l CfData) in
        match r with
        | None => change (obs_all (obs_data st l data vlsd R :: k) m0) with (obs_all k m0)
        | Some ?c => rewrite (Hdata c m0 k); [| reflexivity | cbn; tauto | ]
        end
    end.
Ltac flags_back :=
  repeat match goal with |- context [negb ((if ?b then 1 else 0) =? 0)] =>
    change (negb ((if b then 1 else 0) =? 0)) with (negb (b2n b =? 0)); rewrite (b2n_true b) end.

Ltac ops_out :=
  cbv [seen_ops can_channels can_data_channels can_remote_channels can_error_channels
       can_overload_channels can_find find field_eqb flag_eqb flag_bit option_map snd fst app
       N.eqb Pos.eqb fold_left can_apply].

Ltac effects_out :=
  cbv [seen_ops can_channels can_data_channels can_remote_channels can_error_channels
       can_overload_channels can_find find field_eqb flag_eqb flag_bit option_map snd fst app
       N.eqb Pos.eqb fold_left can_effect].

Lemma can_parse_ops : forall data vlsd t mand st max m R,
  can_ok m ->
  (st = VlsdGroup -> vlsd = can_data m) ->
  (st = Mlsd -> (length (can_data m) <= max)%nat /\ (length (can_data m) < 256)%nat) ->
  (forall f c, In (f, c) (can_channels t mand st max) ->
     read_content (fun h => h) data c R = Ok (can_content st max m f)) ->
  can_parse st (can_channels t mand st max) data vlsd R
  = Ok (fold_left can_apply (seen_ops m (can_channels t mand st max)) can_new).
Proof.
  intros data vlsd t mand st max m R Hm Hv Hd Hch.
  assert (Hnum: forall f c v, In (f, c) (can_channels t mand st max) -> ch_dtype c = UnsignedLe ->
            can_content st max m f = num v -> obs_num c R = Ok v).
  { intros f c v Hin Hc E. apply (obs_num_read data); auto. rewrite (Hch f c Hin), E. reflexivity. }
  assert (Hdata: forall c m0 k, can_find (can_channels t mand st max) CfData = Some c ->
            In (CfData, c) (can_channels t mand st max) -> can_length m0 = can_length m ->
            obs_all (obs_data st (can_channels t mand st max) data vlsd R :: k) m0
            = obs_all k (can_set_data m0 (can_data m))).
  { intros c m0 k Hf Hin Hlen. cbn [obs_all]. unfold obs_data. rewrite Hf.
    assert (Hc: ch_dtype c = ByteArray).
    { clear - Hin. destruct t, mand, st; cbn in Hin;
        repeat (destruct Hin as [Hin|Hin]; [try discriminate; injection Hin as <-; reflexivity|]);
        contradiction. }
    destruct st; cbn [bind].
    - rewrite (obs_bytes_read data c R _ Hc (Hch _ _ Hin)). cbn [bind].
      destruct (Hd eq_refl) as [Hd1 Hd2]. unfold can_data in *.
      rewrite Hlen, can_length_fits, padded_length by lia.
      destruct (N.ltb_spec (N.of_nat (length (can_data_ m))) (N.of_nat max)).
      + rewrite Nat2N.id, padded_cut by lia. reflexivity.
      + assert (E: max = length (can_data_ m)) by lia. rewrite E, padded_full. reflexivity.
    - rewrite (obs_bytes_read data c R _ Hc (Hch _ _ Hin)). reflexivity.
    - rewrite Hv by reflexivity. reflexivity. }
  assert (Hw8: forall x, x < 2 ^ 8 -> w8 x = x) by (intros; apply N.mod_small; auto).
  assert (Hw32: forall x, x < 2 ^ 32 -> w32 x = x) by (intros; apply N.mod_small; auto).
  assert (Hw16: forall x, x < 2 ^ 16 -> w16 x = x) by (intros; apply N.mod_small; auto).
  assert (Hid32: can_id m < 2 ^ 32) by exact (bound_ldiff _ (co_id m Hm)).
  assert (Hlen0: forall m0, can_length (can_set_length m0 (can_length m)) = can_length m).
  { intros m0. can_fields. rewrite resize_length, N2Nat.id. apply N.mod_mod. discriminate. }
  unfold can_parse, obs_flag.
  destruct t, mand; obs_run Hnum Hdata;
    cbn [obs_all]; flags_back;
    rewrite ?(Hw8 (can_bus_ m)), ?(Hw8 (can_dlc m)), ?(Hw8 (can_length m)), ?(Hw32 (can_id m)),
         ?(Hw32 (can_crc_ m)), ?(Hw32 (can_dur_ m)), ?(Hw16 (can_pos_ m))
         by first [exact (co_bus m Hm) | exact (can_length_lt m) | exact Hid32 | exact (co_crc m Hm) |
                   exact (co_dur m Hm) | exact (co_pos m Hm) |
                   exact (N.lt_trans _ _ 256 (can_dlc_lt m) eq_refl)];
    lazymatch goal with |- can_length _ = _ => apply Hlen0 | _ => ops_out; reflexivity end.
Qed.

Lemma fold_effect_app : forall f a b c,
  fold_left (fun c o => can_effect o f c) (a ++ b) c
  = fold_left (fun c o => can_effect o f c) b (fold_left (fun c o => can_effect o f c) a c).
Proof. intros. apply fold_left_app. Qed.

Lemma seen_ops_ok : forall m l, can_ok m -> Forall can_arg_ok (seen_ops m l).
Proof.
  intros m l Hm. unfold seen_ops. repeat (apply Forall_app; split).
  all: match goal with |- Forall _ (if ?b then _ else _) => destruct b end; constructor; [|constructor].
  all: cbn [can_arg_ok]; try exact Logic.I.
  - exact (co_bus m Hm).
  - exact (bound_ldiff _ (co_id m Hm)).
  - exact (N.lt_trans _ _ 256 (can_dlc_lt m) eq_refl).
  - exact (can_length_lt m).
  - exact (co_data m Hm).
  - exact (co_crc m Hm).
  - exact (co_dur m Hm).
  - exact (N.lt_trans _ _ (2 ^ 32) (co_pos m Hm) eq_refl).
Qed.

Lemma can_id_mod : forall m, can_ok m -> can_id m mod 2 ^ 31 = can_id m.
Proof. intros m Hm. apply N.mod_small. exact (proj2 (can_id_split m (co_id m Hm))). Qed.

(** What the decoded message shows. *)
Lemma can_observe : forall data vlsd t mand st max m R,
  can_ok m ->
  (st = VlsdGroup -> vlsd = can_data m) ->
  (st = Mlsd -> (length (can_data m) <= max)%nat /\ (length (can_data m) < 256)%nat) ->
  (forall f c, In (f, c) (can_channels t mand st max) ->
     read_content (fun h => h) data c R = Ok (can_content st max m f)) ->
  exists m', can_parse st (can_channels t mand st max) data vlsd R = Ok m' /\
    (forall f c, In (f, c) (can_channels t mand st max) -> can_lost t f = false ->
       f <> CfDlc -> can_get m' f = can_get m f) /\
    (can_find (can_channels t mand st max) CfDlc <> None -> can_dlc m' = code_for (can_length m)) /\
    (forall f, can_find (can_channels t mand st max) f = None -> f <> CfData ->
       can_get m' f = can_get can_new f).
Proof.
  intros data vlsd t mand st max m R Hm Hv Hd Hch.
  eexists. split; [apply can_parse_ops; eassumption|].
  pose proof (fun f => proj2 (can_history (seen_ops m (can_channels t mand st max)) can_new f can_new_ok
    (seen_ops_ok m _ Hm))) as H.
  pose proof (can_id_mod m Hm) as Hidm.
  assert (Hlm: can_length m mod 256 = can_length m) by (apply N.mod_small, can_length_lt).
  assert (Hdm: can_dlc m mod 16 = can_dlc m) by (apply N.mod_small, can_dlc_lt).
  split; [|split].
  - intros f c Hin Hl Hf. rewrite H. clear H.
    destruct t, mand; cbn in Hin;
      repeat (destruct Hin as [Hin|Hin]; [injection Hin as <- <-; try discriminate Hl; try congruence;
        effects_out; cbn [can_get]; rewrite ?Hidm; reflexivity |]);
      contradiction.
  - intros Hf. specialize (H CfDlc).
    match goal with |- can_dlc ?M = _ =>
      change (can_dlc M) with (match can_get M CfDlc with Num (VU u) => u | _ => 0 end) end.
    rewrite H. clear H.
    destruct t, mand; try (exfalso; apply Hf; reflexivity);
      effects_out; change (N.of_nat (length (can_data m)) mod 256) with (can_length m); reflexivity.
  - intros f Hf Hf'. rewrite H. clear H.
    destruct f as [ | | | | | |g| | | | |]; [..|destruct g| | | | |]; try congruence;
      destruct t, mand; try discriminate Hf; effects_out; reflexivity.
Qed.
