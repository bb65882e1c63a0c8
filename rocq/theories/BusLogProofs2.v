(** Saving CAN messages: the sample, its time bytes and the message decoded from it. *)
From Coq Require Import String.
From Verif Require Import Base ChannelModel ChannelSpec StreamModel StreamSpec QueueModel QueueSpec EncProofs BusModel BusSpec CanModel CanSpec CanProofs CanProofs2 CanProps SortModel SortSpec
  MetaModel MetaSpec MetaProofs3 MeasModel MeasSpec ValueModel ValueProofs BusLogModel BusLogSpec BusLogProofs.
Local Open Scope N_scope.
Local Open Scope list_scope.
Local Notation poke := BusModel.poke (only parsing).
Local Notation stored := BusModel.stored (only parsing).

(* ------------------------------------------------------------------ *)
(** ** Statements that leave the first 8 bytes alone *)

Definition above (st : stmt) : Prop := forall a b l, length a = 8%nat -> length b = 8%nat ->
  match st (a ++ l) with
  | Ok r => exists l', r = a ++ l' /\ st (b ++ l) = Ok (b ++ l')
  | Fail => st (b ++ l) = Fail
  | UB => st (b ++ l) = UB
  end.

Lemma poke_above' : forall (a : list N) i v l, (length a <= i)%nat ->
  poke i v (a ++ l) = match poke (i - length a) v l with Ok r => Ok (a ++ r) | Fail => Fail | UB => UB end.
Proof.
  induction a as [|x a IH]; intros i v l H; cbn [length app] in *.
  - rewrite Nat.sub_0_r. destruct (poke i v l); reflexivity.
  - destruct i as [|i]; [lia|]. cbn [poke]. rewrite IH by lia. cbn [Nat.sub]. destruct (poke (i - length a) v l); reflexivity.
Qed.
Lemma poke_above : forall i v, (8 <= i)%nat -> above (poke i v).
Proof.
  intros i v H a b l A B. rewrite !poke_above' by lia. rewrite A, B. destruct (poke (i - 8) v l) as [r| |]; auto. exists r. auto.
Qed.
Lemma peek_above : forall i (a b l : list N), length a = 8%nat -> length b = 8%nat -> (8 <= i)%nat -> peek i (a ++ l) = peek i (b ++ l).
Proof. intros i a b l A B H. unfold peek. rewrite !nth_error_app2 by lia. rewrite A, B. reflexivity. Qed.
Lemma poke_or_above : forall i v, (8 <= i)%nat -> above (poke_or i v).
Proof.
  intros i v H a b l A B. unfold poke_or. rewrite (peek_above i a b l A B H). destruct (peek i (b ++ l)) as [x| |]; cbn [bind]; auto.
  apply poke_above; auto.
Qed.
Lemma resize_above : forall n, (8 <= n)%nat -> above (do_resize n).
Proof.
  intros n H a b l A B. unfold do_resize, resize. exists (firstn (n - 8) l ++ repeat 0 (n - 8 - length l)). rewrite !app_length, !firstn_app, A, B.
  rewrite (firstn_all2 a), (firstn_all2 b) by lia. rewrite <- !app_assoc. replace (n - (8 + length l))%nat with (n - 8 - length l)%nat by lia. auto.
Qed.
Lemma grow_above : forall n, (8 <= n)%nat -> above (do_grow n).
Proof.
  intros n H a b l A B. unfold do_grow. rewrite !app_length, A, B. destruct (8 + length l <? n)%nat.
  - exact (resize_above n H a b l A B).
  - exists l. auto.
Qed.
Lemma bind_above : forall s t, above s -> above t -> above (fun rec => bind (s rec) t).
Proof.
  intros s t S T a b l A B. specialize (S a b l A B). cbn beta. destruct (s (a ++ l)) as [r| |]; cbn [bind].
  - destruct S as (l' & -> & ->). cbn [bind]. apply T; auto.
  - rewrite S. reflexivity.
  - rewrite S. reflexivity.
Qed.
Lemma run_above : forall l, Forall above l -> above (run l).
Proof.
  induction 1 as [|s l S F IH]; [intros a b r A B; exists r; auto|]. cbn [run]. apply (bind_above s (run l) S IH).
Qed.
Lemma bits_above : forall n value mask byte bit base, (8 <= base)%nat -> (0 <= bit <= 7)%Z -> (Z.of_nat n <= 8 * byte + bit + 1)%Z ->
  above (bits_loop true n value mask byte bit base).
Proof.
  induction n as [|n IH]; intros value mask byte bit base Hb Hbit Hn a b l A B; [exists l; auto|].
  cbn [bits_loop]. assert (P : (0 <= byte)%Z) by lia. replace (Z.of_nat base + byte <? 0)%Z with false by lia.
  rewrite (peek_above _ a b l A B) by lia. destruct (peek _ (b ++ l)) as [x| |]; cbn [bind]; auto.
  apply (bind_above (poke (Z.to_nat (Z.of_nat base + byte)) (if N.land value mask =? 0 then N.ldiff x (N.shiftl 1 (Z.to_N bit)) else N.lor x (N.shiftl 1 (Z.to_N bit))))
    (fun rec1 => if (bit - 1 <? 0)%Z then bits_loop true n value (N.shiftr mask 1) (byte - 1) 7 base rec1
                 else bits_loop true n value (N.shiftr mask 1) byte (bit - 1) base rec1)); auto.
  - apply poke_above. lia.
  - destruct (Z.ltb_spec (bit - 1) 0); apply IH; lia.
Qed.
Lemma num_above : forall len v base, (8 <= base)%nat -> len <> 0 -> above (put_num len v base).
Proof.
  intros len v base H L a b l A B. unfold put_num, unsigned_to_raw. replace (len =? 0) with false by lia.
  apply bits_above; auto; rewrite ?N_nat_Z.
  - rewrite Z.rem_mod_nonneg by lia. lia.
  - rewrite Z.rem_mod_nonneg, Z.quot_div_nonneg by lia. lia.
Qed.
Lemma data_above : forall max off d, (8 <= off)%nat -> above (data_loop off max d).
Proof.
  induction max as [|max IH]; intros off d H; [intros a b l A B; exists l; auto|]. cbn [data_loop].
  apply (bind_above (poke off (List.hd 255 d)) (data_loop (S off) max (tl d))); [apply poke_above; lia|apply IH; lia].
Qed.

Lemma put_above : forall off save max m, (8 <= off)%nat -> above (put_data off save max m).
Proof. intros off [] max m H; unfold put_data; [apply num_above; [lia|discriminate]|apply data_above; lia]. Qed.

Ltac above_one :=
  first [apply poke_above; lia | apply poke_or_above; lia | apply num_above; [lia|discriminate] | apply put_above; lia
        | apply resize_above; lia | apply grow_above; lia ].
Ltac above_all := unfold or_flag; repeat first [apply Forall_nil | apply Forall_cons; [above_one|]].

Lemma raw_above : forall t mand max st m (a b l : list N) v f r, length a = 8%nat -> length b = 8%nat ->
  can_to_raw t mand max st m (mkRaw (a ++ l) v f) = Ok r ->
  exists l', r_rec r = a ++ l' /\ can_to_raw t mand max st m (mkRaw (b ++ l) v f) = Ok (mkRaw (b ++ l') (r_vlsd r) (r_buf r)).
Proof.
  intros t mand max st m a b l v f r A B E. unfold can_to_raw in *. cbn [r_rec r_vlsd r_buf] in *.
  set (mx := if (max <? 8)%nat then 8%nat else max) in *. clearbody mx.
  assert (K : forall ss, Forall above ss -> forall r0, run ss (a ++ l) = Ok r0 -> exists l', r0 = a ++ l' /\ run ss (b ++ l) = Ok (b ++ l')).
  { intros ss F r0 R. pose proof (run_above ss F a b l A B) as X. rewrite R in X. exact X. }
  assert (W : forall ss, Forall above ss -> (if save_index st then with_data (can_data_ m) (run ss (a ++ l)) else plain (run ss (a ++ l))) = Ok r ->
    exists l', r_rec r = a ++ l' /\ (if save_index st then with_data (can_data_ m) (run ss (b ++ l)) else plain (run ss (b ++ l))) = Ok (mkRaw (b ++ l') (r_vlsd r) (r_buf r))).
  { intros ss F X. destruct (run ss (a ++ l)) as [r0| |] eqn:R; [|destruct (save_index st); discriminate X|destruct (save_index st); discriminate X].
    destruct (K ss F r0 R) as (l' & -> & ->). exists l'.
    destruct (save_index st); cbn [with_data plain bind] in *; injection X as <-; cbn [r_rec r_vlsd r_buf]; auto. }
  destruct t.
  - apply W; [|exact E]. unfold can_data_frame. apply Forall_app. split; [destruct mand; above_all|]. destruct mand; above_all.
  - destruct (run (can_remote_frame mand m) (a ++ l)) as [r0| |] eqn:R; try discriminate E. cbn [bind] in E. injection E as <-. cbn [r_rec r_vlsd r_buf].
    destruct (K (can_remote_frame mand m)) with (r0 := r0) as (l' & -> & ->); [|exact R|exists l'; auto].
    unfold can_remote_frame. apply Forall_app. split; [destruct mand; above_all|]. destruct mand; above_all.
  - apply W; [|exact E]. unfold can_error_frame. above_all.
  - destruct (run (can_overload_frame m) (a ++ l)) as [r0| |] eqn:R; try discriminate E. cbn [bind] in E. injection E as <-. cbn [r_rec r_vlsd r_buf].
    destruct (K (can_overload_frame m)) with (r0 := r0) as (l' & -> & ->); [|exact R|exists l'; auto]. unfold can_overload_frame. above_all.
Qed.

(* ------------------------------------------------------------------ *)
(** ** The size of the records and the time channel *)

Lemma bare_chan : forall g c, chan_of g (bare_cn c) = chan_of g c.
Proof.
  intros g [h cx]. cbn [bare_cn chan_of bare_h n_type n_dtype n_byteoff n_bitoff n_bits n_flags n_invalid]. rewrite arrays_map. reflexivity.
Qed.
Lemma bare_chans : forall g l, map bare_cn (g_cns g) = l -> chans_of g = map (chan_of g) l.
Proof. intros g l <-. unfold chans_of. rewrite map_map. apply map_ext. intros c. symmetry. apply bare_chan. Qed.

Definition time_chan (n : N) : chan := mkChan Master FloatLe 0 0 64 1 false 0 n 0.
Lemma can_chans : forall g t mand st max, map bare_cn (g_cns g) = can_cns t mand st max ->
  chans_of g = [time_chan (g_data g); mkChan FixedLength ByteArray 0 0 (8 * frame_bytes t mand st max) 1 false 0 (g_data g) 0].
Proof.
  intros g t mand st max E. rewrite (bare_chans g _ E). unfold can_cns, time_cn, time_chan, bare_cnh.
  cbn [map chan_of n_type n_dtype n_byteoff n_bitoff n_bits n_flags n_invalid arrays_of flat_map].
  assert (A : flat_map (fun x => match x with CArr a => [a] | CSub _ => [] end) (map (fun p => CSub (member_cn t p)) (can_channels t mand st max)) = []).
  { clear. induction (can_channels t mand st max) as [|x l IH]; [reflexivity|exact IH]. }
  unfold arrays_of. rewrite A. reflexivity.
Qed.

Lemma can_bytes : forall g t mand st max, map bare_cn (g_cns g) = can_cns t mand st max ->
  record_bytes (chans_of g) = N.of_nat (can_size t mand st max).
Proof.
  intros g t mand st max E. rewrite (can_chans g t mand st max E). unfold record_bytes, time_chan.
  assert (P : 0 < frame_bytes t mand st max) by (destruct t, mand, st; cbn [frame_bytes]; lia).
  assert (S1 : space_of (mkChan Master FloatLe 0 0 64 1 false 0 (g_data g) 0) = 8) by reflexivity.
  assert (S2 : space_of (mkChan FixedLength ByteArray 0 0 (8 * frame_bytes t mand st max) 1 false 0 (g_data g) 0) = frame_bytes t mand st max).
  { unfold space_of, prepare_channel, prepare_bits, data_bytes, elems. cbn [ch_type ch_dtype ch_bits ch_invalid ch_array].
    replace (8 * frame_bytes t mand st max =? 0) with false by lia. cbn [ch_bits ch_bit ch_type ch_dtype].
    replace (8 * frame_bytes t mand st max / 8) with (frame_bytes t mand st max) by (rewrite N.mul_comm, N.div_mul; [reflexivity|discriminate]).
    replace (8 * frame_bytes t mand st max mod 8) with 0 by (rewrite N.mul_comm, N.mod_mul; [reflexivity|discriminate]). change (0 <? 0) with false. cbv iota. change (N.max 1 1) with 1. lia. }
  assert (I1 : invals_of (mkChan Master FloatLe 0 0 64 1 false 0 (g_data g) 0) = 0) by reflexivity.
  assert (I2 : invals_of (mkChan FixedLength ByteArray 0 0 (8 * frame_bytes t mand st max) 1 false 0 (g_data g) 0) = 0).
  { unfold invals_of, prepare_channel, prepare_bits. cbn [ch_type ch_dtype ch_bits ch_invalid ch_array].
    destruct (8 * frame_bytes t mand st max =? 0); reflexivity. }
  cbn [sum_of]. rewrite S1, S2, I1, I2. change ((0 + (0 + 0) + 7) / 8) with 0.
  destruct t, mand, st; cbn [frame_bytes can_size]; lia.
Qed.

(* ------------------------------------------------------------------ *)
(** ** The sample of a message *)

(** The sample made of message [m] when the first 8 bytes of the sample buffer are [x]. *)
Definition made (c : clog) (t : can_type) (x : list N) (ts : N) (m : can) (s : sample) : Prop :=
  exists r, can_to_raw t (lg_mand c) (lg_max c) (lg_st c) m (mkRaw (x ++ skipn 8 (lg_buf c)) false []) = Ok r /\
    s = mkS ts (lg_id c) (r_rec r) (r_vlsd r) (r_buf r).

Definition in_own (c : clog) (t : can_type) : bool := has_bytes t && save_index (lg_st c).

Lemma raw_values : forall t mand max st m l r, can_to_raw t mand max st m (mkRaw l false []) = Ok r ->
  r_vlsd r = has_bytes t && save_index st /\ r_buf r = if has_bytes t && save_index st then can_data m else [].
Proof.
  intros t mand max st m l r E. unfold can_to_raw in E. cbn [r_rec r_vlsd r_buf] in E.
  destruct t; cbn [has_bytes andb].
  - destruct (save_index st); destruct (run _ l); cbn [with_data plain bind] in E; try discriminate E; injection E as <-; split; reflexivity.
  - destruct (run _ l); cbn [bind] in E; try discriminate E; injection E as <-; split; reflexivity.
  - destruct (save_index st); destruct (run _ l); cbn [with_data plain bind] in E; try discriminate E; injection E as <-; split; reflexivity.
  - destruct (run _ l); cbn [bind] in E; try discriminate E; injection E as <-; split; reflexivity.
Qed.

Lemma size_8 : forall t mand st max, (8 <= max)%nat -> (8 <= can_size t mand st max)%nat.
Proof. intros t mand st max H. destruct t, mand, st; cbn [can_size]; lia. Qed.

Section Made.
Context (d : dg) (c : clog) (t : can_type) (LO : log_ok d c t).

Lemma log_max : (8 <= lg_max c)%nat /\ N.of_nat (lg_max c) < 2 ^ 27.
Proof. exact (lo_max _ _ _ LO). Qed.
Lemma buf_8 : (8 <= length (lg_buf c))%nat.
Proof. destruct (lo_buf _ _ _ LO) as [_ L]. rewrite L. apply size_8. apply log_max. Qed.

Lemma raw_made : forall x m idx, length x = 8%nat -> bytes_ok x -> message_ok c m -> idx + 4 + N.of_nat (length (can_data m)) < 2 ^ 63 ->
  exists r, can_to_raw t (lg_mand c) (lg_max c) (lg_st c) m (mkRaw (x ++ skipn 8 (lg_buf c)) false []) = Ok r /\
    firstn 8 (stored r idx) = x /\ length (stored r idx) = can_size t (lg_mand c) (lg_st c) (lg_max c) /\ bytes_ok (stored r idx) /\
    exists m', can_parse (lg_st c) (can_channels t (lg_mand c) (lg_st c) (lg_max c)) [] (if in_own c t then can_data m else []) (stored r idx) = Ok m' /\
      same_message t (lg_mand c) (lg_st c) (lg_max c) m m'.
Proof.
  intros x m idx LX BX (CO & ID & LD & MD) LI. destruct log_max as [M1 M2]. destruct (lo_buf _ _ _ LO) as [B1 B2].
  pose proof buf_8 as B8.
  assert (LR : length (x ++ skipn 8 (lg_buf c)) = length (lg_buf c)) by (rewrite app_length, skipn_length; lia).
  assert (BR : bytes_ok (x ++ skipn 8 (lg_buf c))).
  { unfold bytes_ok in *. apply Forall_app. split; [exact BX|]. rewrite Forall_forall in *. intros y Y. apply B1.
    rewrite <- (firstn_skipn 8 (lg_buf c)). apply in_or_app. right. exact Y. }
  set (data := repeat 0 (N.to_nat idx) ++ le_bytes 4 (N.of_nat (length (can_data m))) ++ can_data m ++ []).
  assert (SD : sd_holds data idx (can_data m)).
  { exists (repeat 0 (N.to_nat idx)), []. split; [reflexivity|]. split; [rewrite repeat_length; lia|]. split; [|exact LD].
    unfold data. rewrite !app_length, repeat_length, le_bytes_length. cbn [length]. lia. }
  destruct (can_round_trip (fun h => h) data t (lg_mand c) (lg_max c) (lg_st c) m (mkRaw (x ++ skipn 8 (lg_buf c)) false []) idx) as
    (r & E1 & E2 & E3 & E4 & E5 & E6); cbn [r_rec r_vlsd]; auto; try lia.
  destruct (C42_observer_partial data (can_data m) t (lg_mand c) (lg_max c) (lg_st c) m (mkRaw (x ++ skipn 8 (lg_buf c)) false []) idx) as
    (r' & m' & F1 & F2 & F3); cbn [r_rec r_vlsd]; auto; try lia.
  assert (r' = r) by congruence. subst r'. cbn [r_rec] in E3.
  exists r. split; [exact E1|]. split; [|split; [exact E4|split; [exact E5|]]].
  - rewrite E3, firstn_app, firstn_all2 by lia. rewrite LX. apply app_nil_r.
  - exists m'. split; [|exact F3]. rewrite <- F2. unfold in_own. pose proof (lo_store _ _ _ LO) as NS.
    destruct t, (lg_mand c), (lg_st c); try congruence; reflexivity.
Qed.

Lemma made_sample : forall x ts m s, length x = 8%nat -> bytes_ok x -> message_ok c m -> made c t x ts m s ->
  sample_ok (dgroup_of d) s /\ s_ts s = ts /\ s_id s = lg_id c /\ s_has s = in_own c t /\ s_vbuf s = (if in_own c t then can_data m else []) /\
  length (s_rec s) = can_size t (lg_mand c) (lg_st c) (lg_max c) /\
  forall idx, idx + 4 + N.of_nat (length (can_data m)) < 2 ^ 63 ->
    let rec := if in_own c t then patch_index (s_rec s) idx else s_rec s in
    firstn 8 rec = x /\ length rec = can_size t (lg_mand c) (lg_st c) (lg_max c) /\ bytes_ok rec /\
    exists m', can_parse (lg_st c) (can_channels t (lg_mand c) (lg_st c) (lg_max c)) [] (if in_own c t then can_data m else []) rec = Ok m' /\
      same_message t (lg_mand c) (lg_st c) (lg_max c) m m'.
Proof.
  intros x ts m s LX BX MO (r & E & ->). cbn [s_ts s_id s_has s_vbuf s_rec].
  destruct (raw_values _ _ _ _ _ _ _ E) as [V1 V2]. fold (in_own c t) in V1, V2.
  assert (K : forall idx, idx + 4 + N.of_nat (length (can_data m)) < 2 ^ 63 ->
    firstn 8 (stored r idx) = x /\ length (stored r idx) = can_size t (lg_mand c) (lg_st c) (lg_max c) /\ bytes_ok (stored r idx) /\
    exists m', can_parse (lg_st c) (can_channels t (lg_mand c) (lg_st c) (lg_max c)) [] (if in_own c t then can_data m else []) (stored r idx) = Ok m' /\
      same_message t (lg_mand c) (lg_st c) (lg_max c) m m').
  { intros idx LI. destruct (raw_made x m idx LX BX MO LI) as (r' & E' & K). assert (r' = r) by congruence. subst r'. exact K. }
  assert (LR : length (r_rec r) = can_size t (lg_mand c) (lg_st c) (lg_max c)).
  { destruct (K 0) as (_ & L & _).
    - destruct MO as (_ & _ & L & _). change (2 ^ 32) with 4294967296 in L. change (2 ^ 63) with 9223372036854775808. lia.
    - unfold BusModel.stored in L. destruct (r_vlsd r); [rewrite patch_length in L|]; exact L. }
  split.
  - split; [|cbn [s_vbuf]; rewrite V2; destruct MO as (_ & _ & L & _); destruct (in_own c t); [exact L|reflexivity]].
    destruct (lo_group _ _ _ LO) as (g & G1 & G2 & G3 & G4 & G5). destruct (prepared g G2) as (P & ER & V' & _).
    exists (MeasModel.group_of (prepare_cg g)). cbn [dgroup_of StreamModel.d_groups s_id s_rec]. split; [apply in_map; exact G1|].
    cbn [MeasModel.group_of StreamModel.g_id StreamModel.g_vlsd]. split; [congruence|]. split; [exact V'|].
    unfold StreamModel.rec_size. cbn [MeasModel.group_of StreamModel.g_data StreamModel.g_inval].
    pose proof (can_bytes g _ _ _ _ G5) as CB. destruct log_max as [M1 M2].
    assert (SB : record_bytes (chans_of g) < 2 ^ 28).
    { rewrite CB. change (2 ^ 27) with 134217728 in M2. change (2 ^ 28) with 268435456. clear - M2. destruct t, (lg_mand c), (lg_st c); cbn [can_size]; lia. }
    rewrite prepared_sizes by auto. rewrite CB, LR. unfold w32. rewrite N.mod_small; [lia|]. rewrite <- CB.
    change (2 ^ 28) with 268435456 in SB. change (2 ^ 32) with 4294967296. lia.
  - split; [reflexivity|]. split; [reflexivity|]. split; [exact V1|]. split; [exact V2|]. split; [exact LR|].
    intros idx LI. generalize (K idx LI). unfold BusModel.stored. rewrite V1. auto.
Qed.

Lemma save_made : forall ts m, message_ok c m -> exists s, save_can c ts m = Ok s /\ made c t (firstn 8 (lg_buf c)) ts m s.
Proof.
  intros ts m MO. pose proof buf_8 as B8. destruct (lo_buf _ _ _ LO) as [B1 _].
  assert (BX : bytes_ok (firstn 8 (lg_buf c))).
  { unfold bytes_ok in *. rewrite Forall_forall in *. intros y Y. apply B1. rewrite <- (firstn_skipn 8 (lg_buf c)). apply in_or_app. left. exact Y. }
  destruct (raw_made (firstn 8 (lg_buf c)) m 0) as (r & E & _); auto.
  - rewrite firstn_length. lia.
  - destruct MO as (_ & _ & L & _). change (2 ^ 32) with 4294967296 in L. change (2 ^ 63) with 9223372036854775808. lia.
  - exists (mkS ts (lg_id c) (r_rec r) (r_vlsd r) (r_buf r)). split.
    + unfold save_can. rewrite (lo_kind _ _ _ LO). rewrite firstn_skipn in E. rewrite E. reflexivity.
    + exists r. split; [exact E|reflexivity].
Qed.

(** Writing the time first, as SaveCanMessage does, or into the finished sample gives the same. *)
Lemma save_stamped : forall x y ts m s, length x = 8%nat -> length y = 8%nat -> made c t x ts m s ->
  made c t y ts m (mkS (s_ts s) (s_id s) (y ++ skipn 8 (s_rec s)) (s_has s) (s_vbuf s)).
Proof.
  intros x y ts m s LX LY (r & E & ->). destruct (raw_above _ _ _ _ _ x y _ _ _ _ LX LY E) as (l' & E1 & E2).
  eexists. split; [exact E2|]. cbn [s_ts s_id s_rec s_has s_vbuf r_rec r_vlsd r_buf]. rewrite E1.
  rewrite skipn_app, LX, Nat.sub_diag, skipn_all2 by lia. reflexivity.
Qed.
End Made.
