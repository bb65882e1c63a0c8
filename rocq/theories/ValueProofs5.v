(** The samples of a program with their times. *)
From Verif Require Import Base BlockModel ConvModel CcModel StreamModel StreamSpec QueueModel QueueSpec ObsModel ChannelModel ChannelSpec HistProofs MetaModel MeasModel
  ValueModel ValueSpec ValueProofs ValueProofs4.
Local Open Scope N_scope.
Local Open Scope list_scope.

Lemma master_found : forall l, match master_pos l with
  | None => find is_master l = None
  | Some mi => exists c, nth_error l mi = Some c /\ find is_master l = Some c
  end.
Proof.
  induction l as [|[h cx] l IH]; [reflexivity|]. cbn [master_pos find is_master].
  rewrite (orb_comm (n_sync h =? 1)). destruct ((n_type h =? 2) && ((n_sync h =? 0) || (n_sync h =? 1))).
  - eexists. split; reflexivity.
  - destruct (master_pos l) as [mi|]; exact IH.
Qed.

Lemma put_nth : forall ps cs k c p, nth_error cs k = Some c -> nth_error ps k = Some p -> nth_error (put_places ps cs) k = Some (put_place p c).
Proof.
  induction ps as [|q ps IH]; intros cs [|k] c p A B; destruct cs as [|x cs]; try discriminate A; try discriminate B; cbn [put_places nth_error] in *.
  - congruence.
  - apply IH; auto.
Qed.

(** The master channel of a prepared group. *)
Lemma master_prepared : forall off g mi, is_vlsd g = false -> record_bytes (chans_of g) < 2 ^ 28 -> master_plain off g -> off (g_record g) = false ->
  master_pos (g_cns (prepare_cg g)) = Some mi ->
  exists c0 p c, nth_error (chans_of g) mi = Some c0 /\ numeric c0 /\
    nth_error (g_cns (prepare_cg g)) mi = Some c /\ chan_of (prepare_cg g) c = p /\ nth_error (chans_of (prepare_cg g)) mi = Some p /\
    (match c with mkCn h _ => n_conv h end) = None /\ ch_invalid p = false /\ placed p (record_bytes (chans_of g)).
Proof.
  intros off g mi V B MP O M. destruct (MP V O mi M) as (c0 & h & cx & N0 & NU & INV & NC & CV).
  destruct (prepared g V) as (P & _). destruct (prepare_group_eq _ B) as (l2 & P2 & LEN & NTH).
  assert (E2 : l2 = chans_of (prepare_cg g)) by congruence. subst l2. clear P2.
  pose proof (NTH _ _ N0) as NP. set (p := placed_chan (chans_of g) mi c0) in *.
  assert (NCP : nth_error (g_cns (prepare_cg g)) mi = Some (put_place p (mkCn h cx))).
  { clear - V P NC NP. remember (chans_of (prepare_cg g)) as lp eqn:ELP. unfold prepare_cg. rewrite V, P. cbn [g_cns]. apply put_nth; auto. }
  exists c0, p, (put_place p (mkCn h cx)). split; [exact N0|]. split; [exact NU|]. split; [exact NCP|].
  assert (CH : chan_of (prepare_cg g) (put_place p (mkCn h cx)) = p).
  { unfold chans_of in NP. rewrite nth_error_map, NCP in NP. cbn [option_map] in NP. congruence. }
  split; [exact CH|]. split; [exact NP|]. split; [exact CV|]. split.
  - destruct (kept_group _ _ _ _ P) as [K _]. clearbody p. clear - K N0 NP INV. revert mi N0 NP. generalize dependent (chans_of (prepare_cg g)).
    induction (chans_of g) as [|a l IH]; intros l' K mi N0 NP; inversion K as [|? q ? r K1 K2]; subst; destruct mi as [|mi]; cbn [nth_error] in *; try discriminate.
    + assert (a = c0) by congruence. assert (q = p) as -> by congruence. subst a. destruct (ch_invalid p) eqn:X; [|reflexivity].
      destruct K1 as (_ & _ & _ & K1). rewrite (K1 X) in INV. discriminate INV.
    + eapply IH; eauto.
  - apply placed_chan_placed; auto.
Qed.

Lemma find_group : forall gs k g, NoDup (map g_record gs) -> nth_error gs k = Some g -> find (fun x => g_record x =? g_record g) gs = Some g.
Proof.
  induction gs as [|a gs IH]; intros [|k] g ND K; try discriminate K; cbn [nth_error find map] in *.
  - assert (a = g) as -> by congruence. rewrite N.eqb_refl. reflexivity.
  - inversion ND as [|? ? NI ND']; subst. destruct (N.eqb_spec (g_record a) (g_record g)) as [E|E]; [|eapply IH; eauto].
    exfalso. apply NI. rewrite E. apply in_map. eapply nth_error_In; eauto.
Qed.

Lemma rel_ok : forall T ts, T < 2 ^ 63 -> ts < 2 ^ 63 -> rel_seconds T ts = Some (seconds T ts).
Proof.
  intros T ts A B. unfold rel_seconds, seconds.
  assert (X : forall n, n < 2 ^ 63 -> to_int64 n = Z.of_N n).
  { intros n L. unfold to_int64, w64. rewrite N.mod_small by (change (2 ^ 64) with 18446744073709551616; change (2 ^ 63) with 9223372036854775808 in L; lia).
    change (2 ^ 63) with 9223372036854775808 in L. rewrite (proj2 (Z.ltb_lt _ _)); [reflexivity|]. change (2 ^ 63)%Z with 9223372036854775808%Z. lia. }
  rewrite !X by auto. change (2 ^ 63) with 9223372036854775808 in *. change (2 ^ 63)%Z with 9223372036854775808%Z.
  rewrite (proj2 (Z.leb_le _ _)), (proj2 (Z.ltb_lt _ _)) by lia. reflexivity.
Qed.

(** A sample with its time: the sample buffer after one more call. *)
Lemma sample_timed : forall d2f gs off T k g ts fresh ops b, (forall x, d2f x < 2 ^ 32) ->
  NoDup (map g_record (prepared_groups gs)) -> nth_error gs k = Some g -> is_vlsd g = false -> record_bytes (chans_of g) < 2 ^ 28 ->
  master_plain off g -> T < 2 ^ 63 -> ts < 2 ^ 63 -> time_fits off T g ts ->
  Forall (op_ok d2f (chans_of g) (chans_of (prepare_cg g))) ops ->
  buf_ok g fresh -> run_ops d2f (chans_of (prepare_cg g)) ops fresh = Ok b ->
  exists b', retime d2f (prepared_groups gs) off T (sample_of (prepare_cg g) ts b) = Ok (sample_of (prepare_cg g) ts b') /\
    run_ops d2f (chans_of (prepare_cg g)) (stamped off T (prepare_cg g) ts ops) fresh = Ok b' /\
    Forall (op_ok d2f (chans_of g) (chans_of (prepare_cg g))) (stamped off T (prepare_cg g) ts ops) /\ buf_ok g b'.
Proof.
  intros d2f gs off T k g ts fresh ops b D ND K V B MP TT TS TF FO BO RO.
  destruct (prepared g V) as (P & ER & _). destruct BO as [B1 B2].
  destruct (run_ops_inv (fun x => x) (fun x => x) d2f _ _ _ _ B P ops fresh FO B1 B2) as (b0 & RO' & X1 & X2 & _).
  rewrite RO in RO'. assert (b0 = b) by congruence. subst b0. clear RO'.
  assert (NT : nth_error (prepared_groups gs) k = Some (prepare_cg g)) by (unfold prepared_groups; rewrite nth_error_map, K; reflexivity).
  unfold retime. cbn [sample_of s_id s_ts s_rec s_has s_vbuf]. rewrite (find_group _ k) by auto.
  unfold stamped, master_of. pose proof (master_found (g_cns (prepare_cg g))) as MF.
  destruct (master_pos (g_cns (prepare_cg g))) as [mi|] eqn:M.
  2: { rewrite MF. exists b. split; [reflexivity|]. split; [exact RO|]. split; [exact FO|split; assumption]. }
  destruct MF as (c & NC & FC). rewrite FC. rewrite ER in *. destruct (off (g_record g)) eqn:O.
  { exists b. split; [unfold sample_of; rewrite ER; reflexivity|]. split; [exact RO|]. split; [exact FO|split; assumption]. }
  destruct (master_prepared off g mi V B MP O M) as (c0 & p & c' & N0 & NU & NC' & CH & NP & CV & INV & PL).
  rewrite NC in NC'. assert (c' = c) by congruence. subst c'. rewrite NP, CH, CV, rel_ok by auto.
  destruct (time_value p (seconds T ts)) as [v|] eqn:TV; [|exfalso; exact (TF O mi p M NP TV)].
  assert (PL' : placed p (N.of_nat (length b))) by (rewrite X2; exact PL).
  destruct (set_time d2f p b (seconds T ts) v D PL' INV TV) as [ST VF].
  assert (OK1 : op_ok d2f (chans_of g) (chans_of (prepare_cg g)) (mkOp mi v true 0)).
  { exists c0, p. cbn [op_chan op_idx op_value]. split; [exact N0|]. split; [exact NP|]. split; [exact NU|]. split; [unfold elems; lia|exact VF]. }
  assert (FO' : Forall (op_ok d2f (chans_of g) (chans_of (prepare_cg g))) (ops ++ [mkOp mi v true 0])) by (apply Forall_app; split; [exact FO|constructor; [exact OK1|constructor]]).
  destruct (run_ops_inv (fun x => x) (fun x => x) d2f _ _ _ _ B P _ fresh FO' B1 B2) as (b' & RO' & Y1 & Y2 & _).
  exists b'. split; [|split; [exact RO'|split; [exact FO'|split; assumption]]].
  rewrite run_ops_app, RO in RO'. cbn [bind run_ops op_chan op_value op_valid op_idx] in RO'. rewrite NP in RO'. rewrite ST.
  destruct (set_channel d2f p b v true 0) as [b2| |]; cbn [bind] in RO' |- *; try discriminate RO'.
  assert (b2 = b') as -> by congruence. unfold sample_of. rewrite ER. reflexivity.
Qed.
