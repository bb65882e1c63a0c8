(** The time channel of a CAN group, and the records of the samples. *)
From Coq Require Import String.
From Verif Require Import Base BlockModel ConvModel CcModel CcProofs ChannelModel ChannelSpec ChannelProps HistProofs StreamModel StreamSpec StreamProofs QueueModel QueueSpec EncProofs BusModel BusSpec CanModel CanSpec SortModel SortSpec
  MetaModel MetaSpec MetaProofs3 MeasModel MeasSpec ValueModel ValueSpec ValueProofs ValueProofs2 ValueProofs5 BusLogModel BusLogSpec BusLogProofs BusLogProofs2.
Local Open Scope N_scope.
Local Open Scope list_scope.

(* ------------------------------------------------------------------ *)
(** ** Time *)

(** The first channel of the prepared group is the time channel. *)
Lemma time_first : forall g t mand st max, MeasModel.is_vlsd g = false -> (8 <= max)%nat -> N.of_nat max < 2 ^ 27 -> map bare_cn (g_cns g) = can_cns t mand st max ->
  exists h rest, g_cns (prepare_cg g) = mkCn h [] :: rest /\ n_type h = 2 /\ n_sync h = 1 /\ n_conv h = None /\
    forall g0, chan_of g0 (mkCn h []) = time_chan (g_data g0).
Proof.
  intros g t mand st max V M1 M2 E. pose proof (can_chans g t mand st max E) as C. pose proof (can_bytes g t mand st max E) as CB.
  assert (SB : record_bytes (chans_of g) < 2 ^ 28).
  { rewrite CB. change (2 ^ 27) with 134217728 in M2. change (2 ^ 28) with 268435456. clear - M2. destruct t, mand, st; cbn [can_size]; lia. }
  destruct (prepared g V) as (P & _). destruct (prepare_group_eq _ SB) as (l2 & P2 & LEN & NTH).
  assert (E2 : l2 = chans_of (prepare_cg g)) by congruence. subst l2. clear P2.
  assert (N0 : nth_error (chans_of g) 0 = Some (time_chan (g_data g))) by (rewrite C; reflexivity).
  pose proof (NTH _ _ N0) as NP. rewrite C in NP. cbn [firstn sum_of] in NP.
  destruct (g_cns g) as [|[h x] l] eqn:EG; [discriminate E|]. unfold can_cns in E. cbn [map bare_cn] in E.
  assert (E1 : bare_h h = bare_cnh 2 1 4 0 0 64 0 (lit "t") /\ x = []).
  { destruct x; [|discriminate E]. unfold time_cn in E. split; [|reflexivity]. congruence. }
  destruct E1 as [E1 ->].
  pose proof (f_equal n_sync E1) as X1. pose proof (f_equal n_conv E1) as X2. pose proof (f_equal n_dtype E1) as X3. pose proof (f_equal n_flags E1) as X4.
  cbn [bare_h bare_cnh n_sync n_conv n_dtype n_flags] in X1, X2, X3, X4.
  remember (chans_of (prepare_cg g)) as ps eqn:EP. destruct ps as [|p ps]; [discriminate NP|]. cbn [nth_error] in NP.
  assert (Ep : p = placed_chan (chans_of g) 0 (time_chan (g_data g))) by (rewrite C; congruence). clear NP.
  assert (G : g_cns (prepare_cg g) = put_places (p :: ps) (mkCn h [] :: l)).
  { clear - V P EG. unfold prepare_cg. rewrite V, P. cbn [g_cns]. rewrite EG. reflexivity. }
  rewrite G. cbn [put_places put_place]. do 2 eexists. split; [reflexivity|]. cbn [n_type n_sync n_conv chan_of n_dtype n_byteoff n_bitoff n_bits n_flags n_invalid].
  rewrite Ep, X1, X2, X3, X4. clear. unfold time_chan, placed_chan, prepare_channel, prepare_bits.
  cbn [ch_type ch_dtype ch_bits ch_byte ch_bit ch_array ch_invalid ch_inval_pos ch_cg_bytes ch_vlsd_id firstn sum_of].
  repeat split; intros; reflexivity.
Qed.

(** The bytes of a time. *)
Definition time_bytes (T ts : N) : list N := le_bytes 8 (bits_of_dbl (seconds T ts)).

Lemma retime_made : forall d2f off T d c t s, StreamSpec.dg_ok (dgroup_of d) -> log_ok d c t -> off (lg_id c) = false -> T < 2 ^ 63 -> s_ts s < 2 ^ 63 ->
  s_id s = lg_id c -> (8 <= length (s_rec s))%nat ->
  retime d2f (d_cgs d) off T s = Ok (mkS (s_ts s) (s_id s) (time_bytes T (s_ts s) ++ skipn 8 (s_rec s)) (s_has s) (s_vbuf s)).
Proof.
  intros d2f off T d c t s DO LO O TT TS I L8. destruct (lo_group _ _ _ LO) as (g & G1 & G2 & G3 & G4 & G5). destruct (lo_max _ _ _ LO) as [M1 M2].
  destruct (time_first g _ _ _ _ G2 M1 M2 G5) as (h & rest & F1 & F2 & F3 & F4 & F5).
  unfold retime. apply In_nth_error in G1. destruct G1 as [k G1].
  assert (ND : NoDup (map g_record (d_cgs d))).
  { pose proof (dg_ids _ DO) as ND. cbn [dgroup_of StreamModel.d_groups] in ND. rewrite map_map in ND. exact ND. }
  assert (ER : g_record (prepare_cg g) = g_record g) by (apply prepared; exact G2).
  assert (FG : find (fun x => g_record x =? s_id s) (d_cgs d) = Some (prepare_cg g)) by (rewrite I, <- G3, <- ER; exact (find_group _ k _ ND G1)).
  rewrite FG.
  unfold master_of. rewrite F1. cbn [find is_master]. rewrite F2, F3. cbn [N.eqb Pos.eqb andb orb].
  rewrite I, O, rel_ok by auto. rewrite F5, F4. unfold set_timestamp, time_chan. cbn [ch_bits ch_dtype].
  change (N.to_nat (64 / 8)) with 8%nat. cbn [Nat.eqb]. unfold ValueModel.poke. cbn [ch_byte]. unfold wr.
  assert (LB : length (ChannelModel.enc true 8 (bits_of_dbl (seconds T (s_ts s)))) = 8%nat) by (apply le_bytes_length). rewrite LB.
  rewrite (proj2 (N.leb_le _ _)) by lia. cbn [lift bind]. unfold splice. rewrite LB. reflexivity.
Qed.

Lemma message_shown : forall h2d f2d e g t mand st max rec T ts, MeasModel.is_vlsd g = false -> (8 <= max)%nat -> N.of_nat max < 2 ^ 27 ->
  map bare_cn (g_cns g) = can_cns t mand st max ->
  bytes_ok rec -> length rec = can_size t mand st max -> firstn 8 rec = time_bytes T ts ->
  message_time h2d f2d (in_file e g) rec = bits_of_dbl (seconds T ts).
Proof.
  intros h2d f2d e g t mand st max rec T ts V M1 M2 E B L F.
  destruct (time_first g _ _ _ _ V M1 M2 E) as (h & rest & F1 & F2 & F3 & F4 & F5).
  unfold message_time, get_master. rewrite file_cns, F1. cbn [map cn_form flat_map all_channels app find cnh_form n_type]. rewrite F2. cbn [N.eqb Pos.eqb orb].
  assert (CH : chan_of (in_file e g) (mkCn (cnh_form h) []) = time_chan (g_data (in_file e g))) by apply F5.
  rewrite CH. clear CH. generalize (g_data (in_file e g)). intros n.
  pose proof (size_8 t mand st max M1) as L8. rewrite <- L in L8.
  assert (LM : N.of_nat (length rec) < 2 ^ 28).
  { rewrite L. change (2 ^ 27) with 134217728 in M2. change (2 ^ 28) with 268435456. clear - M2. destruct t, mand, st; cbn [can_size]; lia. }
  assert (PL : placed (time_chan 8) (N.of_nat (length rec))).
  { constructor; try reflexivity; try discriminate; try (exact LM).
    - right. reflexivity.
    - cbn [time_chan ch_cg_bytes]. lia. }
  destruct (C05_set_get h2d f2d (fun x => x mod 2 ^ 32) (time_chan 8) rec (VF (bits_of_dbl (seconds T ts))) true 0 B PL) as (b & S1 & S2 & S3 & S4).
  - reflexivity.
  - unfold value_fits. cbn [time_chan ch_dtype ch_bits]. apply bits_small.
  - assert (b = rec).
    { unfold set_channel, time_chan, set_float in S1. cbn [ch_dtype] in S1. destruct rec as [|r0 rec0] eqn:ER; [cbn in L8; lia|]. rewrite <- ER in *. clear r0 rec0 ER.
      assert (TB : too_big (time_chan 8) rec 0 = false).
      { change ((N.of_nat (length rec) <? 8) = false). clear - L8. apply N.ltb_ge. lia. }
      unfold time_chan in TB. rewrite TB in S1. change (data_bytes (mkChan Master FloatLe 0 0 64 1 false 0 8 0)) with 8 in S1. cbv iota in S1.
      unfold set_valid in S1. cbn [ch_invalid] in S1. unfold put, wr in S1. change (w64 (ch_byte (mkChan Master FloatLe 0 0 64 1 false 0 8 0) + w64 (data_bytes (mkChan Master FloatLe 0 0 64 1 false 0 8 0) * 0))) with 0 in S1.
      assert (LB : length (ChannelModel.enc true 8 (bits_of_dbl (seconds T ts))) = 8%nat) by (apply le_bytes_length). rewrite LB in S1.
      rewrite (proj2 (N.leb_le _ _)) in S1 by lia. cbn [lift] in S1. unfold splice in S1. rewrite LB in S1. cbn [N.to_nat firstn app Nat.add] in S1.
      assert (b = ChannelModel.enc true 8 (bits_of_dbl (seconds T ts)) ++ skipn 8 rec) as -> by congruence.
      unfold ChannelModel.enc. fold (time_bytes T ts). rewrite <- F. apply firstn_skipn. }
    subst b. change (get_channel h2d f2d (time_chan n) rec 0) with (get_channel h2d f2d (time_chan 8) rec 0). rewrite S4. reflexivity.
Qed.

(* ------------------------------------------------------------------ *)
(** ** Records *)

Definition mine (main : N) (l : list sample) : list sample := filter (fun s => s_id s =? main) l.

Lemma group_unique : forall d g g', StreamSpec.dg_ok d -> In g (d_groups d) -> In g' (d_groups d) -> g_id g = g_id g' -> g = g'.
Proof.
  intros d g g' DO A B E. pose proof (dg_ids _ DO) as ND. revert ND A B. induction (d_groups d) as [|x l IH]; intros ND A B; [destruct A|].
  cbn [map] in ND. inversion ND as [|? ? NI ND']; subst. destruct A as [->|A], B as [->|B]; auto.
  - exfalso. apply NI. rewrite E. apply in_map. exact B.
  - exfalso. apply NI. rewrite <- E. apply in_map. exact A.
Qed.

Lemma vlsd_facts : forall d s v, sample_ok d s -> vlsd_group d s = Some v -> s_has s = true /\ In v (d_groups d) /\ g_vlsd v = true /\ g_id v = w64 (s_id s + 1).
Proof.
  intros d s v ((g & G1 & G2 & G3 & _) & _) E. unfold vlsd_group in E. destruct (s_has s); [|discriminate E].
  destruct (find_cg_record_id d (w64 (s_id s + 1))) as [x|] eqn:F; [|discriminate E]. destruct (g_vlsd x) eqn:V; [|discriminate E].
  assert (x = v) by congruence. subst x. split; [reflexivity|]. unfold find_cg_record_id in F.
  destruct (d_groups d) as [|a [|b l]] eqn:EG; [destruct G1| |].
  - exfalso. destruct G1 as [->|[]]. assert (g = v) by congruence. subst. congruence.
  - rewrite <- EG in *. apply find_some in F. destruct F as [F1 F2]. split; [exact F1|]. split; [exact V|]. lia.
Qed.
Lemma vlsd_found : forall d s v, StreamSpec.dg_ok d -> s_has s = true -> In v (d_groups d) -> g_vlsd v = true -> g_id v = w64 (s_id s + 1) -> vlsd_group d s = Some v.
Proof.
  intros d s v DO H I V E. unfold vlsd_group. rewrite H, <- E. rewrite (find_cg_in d v DO I). rewrite V. reflexivity.
Qed.
Lemma ids_64 : forall d g, StreamSpec.dg_ok d -> In g (d_groups d) -> StreamModel.d_idsize d <> 0 -> g_id g < 2 ^ 64.
Proof.
  intros d g DO I Z. pose proof (dg_fit _ DO g I Z) as L. eapply N.lt_le_trans; [exact L|].
  destruct (dg_size _ DO) as [E|[E|[E|[E|[E|[]]]]]]; rewrite <- E in *; try congruence; vm_compute; discriminate.
Qed.
Lemma w64_next : forall a b, a < 2 ^ 64 -> b < 2 ^ 64 -> w64 (a + 1) = w64 (b + 1) -> a = b.
Proof. intros a b A B E. unfold w64 in E. change (2 ^ 64) with 18446744073709551616 in *. lia. Qed.

Section Recs.
Context (d : dgroup) (DO : StreamSpec.dg_ok d) (main : N) (gm : group) (IM : In gm (d_groups d)) (EM : g_id gm = main) (VM : g_vlsd gm = false).

Lemma rec_none : forall prev s, sample_ok d s -> vlsd_group d s = None -> sample_records d none prev s = [Rec (s_id s) (s_rec s)].
Proof. intros prev s SO V. unfold sample_records. rewrite (plain_group d s SO), V. unfold none. rewrite andb_false_r. reflexivity. Qed.
Lemma rec_some : forall prev s v, sample_ok d s -> vlsd_group d s = Some v ->
  sample_records d none prev s = [Rec (g_id v) (s_vbuf s); Rec (s_id s) (patch_index (s_rec s) (chunks_len (group_values d (g_id v) prev)))].
Proof. intros prev s v SO V. unfold sample_records. rewrite (plain_group d s SO), V. reflexivity. Qed.

Lemma recs_fixed : forall l prev, Forall (sample_ok d) l -> (forall s, In s l -> s_id s = main -> s_has s = false) ->
  filter (fun r => r_id r =? main) (records_from d none prev l) = map (fun s => Rec main (s_rec s)) (mine main l).
Proof.
  induction l as [|s l IH]; intros prev F H; [reflexivity|]. apply Forall_cons_iff in F. destruct F as [SO F].
  cbn [records_from]. rewrite filter_app, IH; [|exact F|intros x X; apply H; right; exact X]. unfold mine. cbn [filter].
  destruct (vlsd_group d s) as [v|] eqn:V.
  - rewrite (rec_some prev s v SO V). cbn [filter r_id]. destruct (vlsd_facts d s v SO V) as (V1 & V2 & V3 & V4).
    destruct (N.eqb_spec (s_id s) main) as [E|E]; [rewrite (H s (or_introl eq_refl) E) in V1; discriminate V1|].
    destruct (N.eqb_spec (g_id v) main) as [E'|E']; [|reflexivity].
    exfalso. assert (v = gm) by (apply (group_unique d); auto; congruence). subst v. congruence.
  - rewrite (rec_none prev s SO V). cbn [filter r_id]. destruct (N.eqb_spec (s_id s) main) as [E|E]; [|reflexivity].
    cbn [map app]. rewrite E. reflexivity.
Qed.

Lemma values_app : forall v a b, group_values d v (a ++ b) = group_values d v a ++ group_values d v b.
Proof. intros. unfold group_values. rewrite filter_app, map_app. reflexivity. Qed.
Lemma chunks_app : forall a b, chunks_len (a ++ b) = chunks_len a + chunks_len b.
Proof. induction a as [|x a IH]; intros b; cbn [app chunks_len fold_right]; [reflexivity|]. fold (chunks_len (a ++ b)). fold (chunks_len a). rewrite IH. lia. Qed.

Lemma values_bound : forall v l prev, Forall (sample_ok d) l -> chunks_len (group_values d v l) <= N.of_nat (length (stream d (records_from d none prev l))).
Proof.
  intros v. induction l as [|s l IH]; intros prev F; [cbn; lia|]. apply Forall_cons_iff in F. destruct F as [SO F].
  cbn [records_from]. unfold stream. rewrite map_app, concat_app, app_length. fold (stream d (records_from d none (prev ++ [s]) l)).
  change (s :: l) with ([s] ++ l). rewrite values_app, chunks_app. specialize (IH (prev ++ [s]) F).
  enough (chunks_len (group_values d v [s]) <= N.of_nat (length (concat (map (enc_rec d) (sample_records d none prev s))))) by lia.
  unfold group_values, in_vlsd. cbn [filter]. destruct (vlsd_group d s) as [x|] eqn:V; [|cbn; lia].
  destruct (g_id x =? v); [|cbn; lia]. destruct (vlsd_facts d s x SO V) as (V1 & V2 & V3 & V4).
  rewrite (rec_some prev s x SO V). cbn [map concat]. rewrite app_length. unfold enc_rec at 1. cbn [r_id r_data].
  assert (VI : vlsd_id d (g_id x) = true) by (unfold vlsd_id; apply existsb_exists; exists x; split; [exact V2|rewrite V3, N.eqb_refl; reflexivity]).
  rewrite VI, !app_length, !le_bytes_length. cbn [chunks_len fold_right]. lia.
Qed.

Context (gv : group) (IV : In gv (d_groups d)) (VV : g_vlsd gv = true) (EV : g_id gv = w64 (main + 1)).

Lemma size_not0 : StreamModel.d_idsize d <> 0.
Proof.
  intros Z. pose proof (dg_single _ DO Z) as L. destruct (d_groups d) as [|a [|b l]]; try discriminate L. destruct IM as [->|[]], IV as [->|[]]. congruence.
Qed.

Lemma recs_pairs : forall l prev, Forall (sample_ok d) l -> (forall s, In s l -> s_id s = main -> s_has s = true) ->
  exists ps, filter (fun r => (r_id r =? main) || (r_id r =? g_id gv)) (records_from d none prev l) = flat_map (pair_recs main (g_id gv)) ps /\
    Forall2 (fun s q => exists idx, q = mkV true (patch_index (s_rec s) idx) (s_vbuf s) /\
      idx + 4 + N.of_nat (length (s_vbuf s)) <= chunks_len (group_values d (g_id gv) (prev ++ l))) (mine main l) ps.
Proof.
  induction l as [|s l IH]; intros prev F H; [exists []; split; [reflexivity|constructor]|]. apply Forall_cons_iff in F. destruct F as [SO F].
  destruct (IH (prev ++ [s]) F ltac:(intros x X; apply H; right; exact X)) as (ps & E & FA). clear IH. rewrite <- app_assoc in FA. cbn [app] in FA.
  cbn [records_from]. rewrite filter_app, E. unfold mine. cbn [filter].
  assert (NV : s_id s <> g_id gv).
  { intros X. destruct SO as ((g & G1 & G2 & G3 & _) & _). assert (g = gv) by (apply (group_unique d); auto; congruence). subst g. congruence. }
  destruct (N.eqb_spec (s_id s) main) as [EI|NE].
  - assert (V : vlsd_group d s = Some gv) by (apply vlsd_found; auto; [apply H; [left; reflexivity|exact EI]|congruence]).
    rewrite (rec_some prev s gv SO V). cbn [filter r_id]. rewrite EI, !N.eqb_refl, orb_true_r. cbn [orb app].
    exists (mkV true (patch_index (s_rec s) (chunks_len (group_values d (g_id gv) prev))) (s_vbuf s) :: ps). split; [reflexivity|].
    constructor; [|exact FA]. eexists. split; [reflexivity|]. change (s :: l) with ([s] ++ l). rewrite !values_app, !chunks_app.
    assert (X : chunks_len (group_values d (g_id gv) [s]) = 4 + N.of_nat (length (s_vbuf s))).
    { unfold group_values, in_vlsd. cbn [filter]. rewrite V, N.eqb_refl. cbn [map chunks_len fold_right]. lia. }
    rewrite X. lia.
  - exists ps. split; [|exact FA]. replace (flat_map (pair_recs main (g_id gv)) ps) with ([] ++ flat_map (pair_recs main (g_id gv)) ps) by reflexivity.
    f_equal. destruct (vlsd_group d s) as [v|] eqn:V.
    + rewrite (rec_some prev s v SO V). destruct (vlsd_facts d s v SO V) as (V1 & V2 & V3 & V4). cbn [filter r_id].
      assert (A : g_id v <> main) by (intros X; assert (v = gm) by (apply (group_unique d); auto; congruence); subst v; congruence).
      assert (B : g_id v <> g_id gv).
      { intros X. apply NE. destruct SO as ((g & G1 & G2 & _) & _). apply w64_next; [| |congruence].
        - rewrite <- G2. apply (ids_64 d); auto. apply size_not0.
        - rewrite <- EM. apply (ids_64 d); auto. apply size_not0. }
      replace (g_id v =? main) with false by lia. replace (g_id v =? g_id gv) with false by lia.
      replace (s_id s =? main) with false by lia. replace (s_id s =? g_id gv) with false by lia. reflexivity.
    + rewrite (rec_none prev s SO V). cbn [filter r_id].
      replace (s_id s =? main) with false by lia. replace (s_id s =? g_id gv) with false by lia. reflexivity.
Qed.
End Recs.
