(** The values of the samples in the finished file. *)
From Verif Require Import Base BlockModel ConvModel CcModel StreamModel StreamSpec QueueModel QueueSpec EncProofs ObsModel ObsSpec ObsProofs
  ChannelModel ChannelSpec HistProofs MetaModel MetaSpec IdentModel IdentSpec MeasModel MeasSpec MeasStream MeasProps WriterModel WriterProofs
  ValueModel ValueSpec ValueProofs ValueProofs2 ValueProofs3 ValueProofs4 ValueProofs5.
Local Open Scope N_scope.
Local Open Scope list_scope.

(** A channel after the file. *)
Lemma form_arrays : forall cx, arrays_of (map (fun x => match x with CArr a => CArr a | CSub c => CSub (cn_form c) end) cx) = arrays_of cx.
Proof. induction cx as [|[a|c] cx IH]; cbn [map arrays_of flat_map app]; [reflexivity| |]; unfold arrays_of in *; rewrite IH; reflexivity. Qed.
Lemma form_chan : forall e g c, is_vlsd g = false -> chan_of (cg_form (counted e g)) (cn_form c) = chan_of g c.
Proof.
  intros e g [h cx] V. cbn [cn_form chan_of cnh_form n_type n_dtype n_byteoff n_bitoff n_bits n_flags n_invalid].
  rewrite form_arrays. f_equal. unfold cg_form. cbn [g_data]. destruct e as [e|]; [|reflexivity]. cbn [counted g_data].
  unfold is_vlsd in V. pose proof (MeasProofs4.vlsd_bit g) as VB. unfold is_vlsd in VB. rewrite V in VB. rewrite <- VB. reflexivity.
Qed.

Lemma kept_nth : forall l l' nd ni k c, prepare_group l = (l', nd, ni) -> nth_error l k = Some c ->
  exists p, nth_error l' k = Some p /\ kept c p.
Proof.
  intros l l' nd ni k c P. destruct (kept_group _ _ _ _ P) as [K _]. clear P. revert k. induction K as [|a b l l' K1 K2 IH]; intros [|k] N0; try discriminate N0; cbn [nth_error] in *.
  - exists b. split; [reflexivity|]. assert (a = c) as <- by congruence. exact K1.
  - apply IH. exact N0.
Qed.

(** What the samples must be for the values to be shown. *)
Definition samples_of (d2f : N -> N) (gs : list cg) (calls : nat -> nat -> option (list setop)) (l : list sample) : Prop :=
  forall j g, nth_error gs j = Some g -> is_vlsd g = false -> forall n,
    match calls j n with
    | None => nth_error (of_group (prepare_cg g) l) n = None
    | Some ops => exists s, nth_error (of_group (prepare_cg g) l) n = Some s /\
        run_ops d2f (chans_of (prepare_cg g)) ops (new_bufs (prepared_groups gs) j) = Ok (s_rec s) /\
        Forall (op_ok d2f (chans_of g) (chans_of (prepare_cg g))) ops
    end.

Lemma file_values : forall h2d f2d d2f i h ops k d l e gs calls, id_texts i -> id_numbers i -> hd_ok h -> calls_ok h ops -> in_turn ops ->
  nth_error (h_dgs h) k = Some d -> d_cgs d = prepared_groups gs -> StreamSpec.dg_ok (dgroup_of d) -> In k (sources ops) -> sizes_small gs ->
  Forall (sample_ok (dgroup_of d)) l -> Forall plain_sample l -> samples_of d2f gs calls l ->
  EncProofs.emitted (dgroup_of d) none l (saved k ops) e -> counters k ops = Some e ->
  exists m, bind (init_meas i h) (mrun ops) = Ok m /\
  forall x, N.of_nat (length (m_file m ++ x)) < 2 ^ 63 ->
  exists enough, forall fuel, (enough <= fuel)%nat ->
  exists h' d' blocks, read_file fuel (m_file m ++ x) = Ok (id_trimmed i, h') /\
    nth_error (h_dgs h') k = Some d' /\
    (forall inflate, group_data inflate (m_file m ++ x) d' = Some (Ok blocks)) /\
    values_shown h2d f2d d2f gs calls fuel d' blocks.
Proof.
  intros h2d f2d d2f i h ops k d l e gs calls IT IN OK CO TU Ed EG DO K SM F PL SO EM EC.
  destruct (file_observed i h ops k d l e IT IN OK CO TU Ed DO K F PL EM EC) as (m & E & R). exists m. split; [exact E|].
  intros x LX. destruct (R x LX) as [n RF]. clear R. exists n. intros fuel LF.
  destruct (RF fuel LF) as (h' & p & blocks & EF & Ek & CNT & GD & OBS). clear RF.
  set (d' := dg_form (dg_after ops k p d)) in *. exists h', d', blocks. split; [exact EF|]. split; [exact Ek|]. split; [exact GD|].
  intros j g ci c0 Hg V Hc NU.
  assert (SB : record_bytes (chans_of g) < 2 ^ 28).
  { unfold sizes_small in SM. rewrite Forall_forall in SM. apply SM; [eapply nth_error_In; eauto|exact V]. }
  destruct (prepared g V) as (P & ER & V' & LN). destruct (prepare_group_eq _ SB) as (l2 & P2 & _ & NTH).
  assert (E2 : l2 = chans_of (prepare_cg g)) by congruence. subst l2. clear P2.
  pose proof (NTH _ _ Hc) as NP. set (pc := placed_chan (chans_of g) ci c0) in *.
  assert (PP : placed pc (record_bytes (chans_of g))) by (apply placed_chan_placed; auto).
  destruct (kept_nth _ _ _ _ _ _ P Hc) as (pc' & NP' & (KD & KA & _)). assert (pc' = pc) by congruence. subst pc'. clear NP'.
  clearbody pc. pose proof NP as NQ. unfold chans_of in NQ. rewrite nth_error_map in NQ.
  destruct (nth_error (g_cns (prepare_cg g)) ci) as [c1|] eqn:C1; [|discriminate NQ]. cbn [option_map] in NQ.
  assert (CH : chan_of (prepare_cg g) c1 = pc) by congruence. clear NQ.
  set (g' := cg_form (counted (counters k ops) (prepare_cg g))). set (c' := cn_form c1). exists g', c'.
  assert (G1 : nth_error (d_cgs d') j = Some g').
  { unfold d'. cbn [dg_form dg_after d_cgs]. rewrite map_map, nth_error_map, EG. unfold prepared_groups. rewrite nth_error_map, Hg. reflexivity. }
  assert (G2 : g_record g' = g_record g).
  { unfold g'. rewrite EC. cbn [cg_form counted g_record]. exact ER. }
  assert (CC : chan_of g' c' = pc) by (unfold g', c'; rewrite form_chan by exact V'; exact CH).
  assert (INR : In (g_record g) (map g_record (d_cgs d))).
  { rewrite EG. rewrite <- ER. apply in_map. unfold prepared_groups. apply in_map. eapply nth_error_In; eauto. }
  assert (NOF : g_samples g' = N.of_nat (length (of_group (prepare_cg g) l))).
  { unfold of_group. rewrite ER, <- CNT by exact INR. unfold nof_of.
    assert (ND : NoDup (map g_record (d_cgs d'))).
    { pose proof (dg_ids _ (alike_ok _ _ DO (alike_after ops k p d))) as ND. fold d' in ND. cbn [dgroup_of StreamModel.d_groups] in ND. rewrite map_map in ND. exact ND. }
    pose proof (find_group _ _ _ ND G1) as FG. rewrite G2 in FG. cbn [dgroup_of StreamModel.d_groups]. clear - FG.
    induction (d_cgs d') as [|a r IH]; [discriminate FG|]. cbn [find map] in *. cbn [MeasModel.group_of StreamModel.g_id].
    destruct (g_record a =? g_record g); [|auto]. assert (a = g') as -> by congruence. reflexivity. }
  split; [exact G1|]. split; [unfold g', c'; rewrite EC; cbn [cg_form counted g_cns]; rewrite nth_error_map, C1; reflexivity|].
  split; [exact G2|]. rewrite CC. split; [exact KA|]. split; [exact KD|]. pose proof (SO j g Hg V) as SJ. split.
  - intros n0. specialize (SJ n0). rewrite NOF. destruct (calls j n0) as [o|].
    + destruct SJ as (s & NS & _). split; [intros _|discriminate]. assert (n0 < length (of_group (prepare_cg g) l))%nat by (apply nth_error_Some; congruence). lia.
    + split; [congruence|]. intros L. exfalso. apply nth_error_None in SJ. lia.
  - intros rv ids g0 q Q1 Q2 Q3 og ch answer.
    assert (AS : forall s, In s l -> s_id s = g_record g -> (N.to_nat (ch_array pc) <= length (s_rec s))%nat).
    { intros s Hs Es. rewrite Forall_forall in F. destruct (F s Hs) as ((gg & IG & EI & VV & LL) & _).
      assert (LR : N.of_nat (length (s_rec s)) = record_bytes (chans_of g)).
      { cbn [dgroup_of StreamModel.d_groups] in IG. rewrite EG in IG. apply in_map_iff in IG. destruct IG as (g1 & <- & IG).
        assert (g1 = prepare_cg g) as ->.
        { assert (ND : NoDup (map g_record (d_cgs d))).
          { pose proof (dg_ids _ DO) as ND. cbn [dgroup_of StreamModel.d_groups] in ND. rewrite map_map in ND. exact ND. }
          rewrite EG in ND. destruct (In_nth_error _ _ IG) as [k1 N1].
          pose proof (find_group _ _ _ ND N1) as F1.
          assert (N2 : nth_error (prepared_groups gs) j = Some (prepare_cg g)) by (unfold prepared_groups; rewrite nth_error_map, Hg; reflexivity).
          pose proof (find_group _ _ _ ND N2) as F2. cbn [MeasModel.group_of StreamModel.g_id] in EI. rewrite ER in F2. rewrite EI, Es in F1. congruence. }
        rewrite LL. unfold StreamModel.rec_size. cbn [MeasModel.group_of StreamModel.g_data StreamModel.g_inval].
        rewrite prepared_sizes by auto. rewrite N2Nat.id. unfold w32. apply N.mod_small. change (2 ^ 28) with 268435456 in SB. change (2 ^ 32) with 4294967296. lia. }
      pose proof (pl_data _ _ PP) as D1. pose proof (pl_cg _ _ PP) as D2. rewrite <- LR in *.
      assert (DB : 1 <= data_bytes pc).
      { pose proof (pl_size _ _ PP) as Sz. unfold num_size in Sz. unfold data_bytes. destruct (ch_dtype pc); try destruct Sz as [->|[->|[->| ->]]]; try destruct Sz as [->| ->]; vm_compute; intuition discriminate. }
      assert (AE : ch_array pc <= data_bytes pc * elems pc) by (clear - DB; unfold elems; nia). lia. }
    destruct (OBS value (VU 0) ch rv ids g0 q Q1 Q2) as (evs & RD & SH).
    + unfold ch, obs_chan. cbn [h_rid]. rewrite G2. exact Q3.
    + unfold ch, obs_chan. cbn [h_rid]. rewrite G2. exact INR.
    + left. discriminate.
    + unfold ch, obs_chan. cbn [h_rid h_asize]. rewrite G2, CC. exact AS.
    + exists evs. split; [exact RD|]. intros n0 idx o CL Hi. specialize (SJ n0). rewrite CL in SJ. destruct SJ as (s & NS & RO & FO).
      assert (NN : nof_of (dgroup_of d') (h_rid ch) = g_samples g').
      { unfold ch, obs_chan. cbn [h_rid]. rewrite G2, CNT by exact INR. rewrite NOF. unfold of_group. rewrite ER. reflexivity. }
      rewrite NN in SH. unfold og, answer. change (fun (_ : ptr) (_ : event) => true) with yes.
      rewrite (SH n0 s idx).
      * unfold ch, obs_chan, of_record. cbn [h_kind h_dec]. rewrite CC.
        destruct (new_ok gs j g SM Hg V) as [[B1 B2] EB]. rewrite EB in RO, B1, B2.
        destruct (history h2d f2d d2f _ _ _ _ o SB P FO) as (b & RB & _ & GT).
        assert (b = s_rec s) as -> by congruence.
        rewrite (GT ci c0 pc idx Hc NP NU) by (unfold elems; lia). unfold value_after.
        destruct (last_write o ci idx) as [[v ok]|]; reflexivity.
      * unfold ch, obs_chan. cbn [h_rid]. rewrite G2. unfold of_group in NS. rewrite ER in NS. exact NS.
      * unfold ch, obs_chan. cbn [h_asize]. rewrite CC, KA. exact Hi.
Qed.
