(** C71: a measurement written with compression is read back from its file. *)
From Verif Require Import Base BlockModel BlockSpec MetaModel MetaSpec DataModel DataSpec IdentModel IdentSpec QueueModel
  MeasModel MeasSpec MeasProofs4 MeasProofs5 MeasStream MetaProps IdentProps MeasProps
  CompModel CompSpec CompProofs CompProofs2 CompProofs3.
From Verif Require StreamModel StreamSpec StreamProofs StreamProofs2 QueueSpec EncProofs QueueProofs2 QueueProps DataProps.
Local Open Scope N_scope.

Lemma sizes_fit_ok : forall deflate ops, sizes_fit deflate ops -> sizes_ok deflate ops.
Proof. intros deflate ops H k. destruct (H k) as (A & _ & B). split; [exact A|exact B]. Qed.

(** InitMeasurement of a new file with compression, then any sequence of StartMeasurement, saves of
    any data groups in any order and FinalizeMeasurement succeeds, and after each of them the file
    holds the measurement so far: the identification, the whole description, for each data group the
    data blocks saved for it, in order, and the counters of its last save. Bytes that follow change
    nothing. *)
Theorem C71_file : forall deflate inflate i h ops, zlib_ok deflate inflate -> id_texts i -> id_numbers i -> hd_ok h ->
  calls_ok h (map plain_call ops) -> sizes_fit deflate ops ->
  exists m, bind (init_comp i h) (crun deflate ops) = Ok m /\
  forall x, N.of_nat (length (c_file m ++ x)) < 2 ^ 63 ->
  exists enough, forall fuel, (enough <= fuel)%nat ->
  exists h', read_file fuel (c_file m ++ x) = Ok (id_trimmed i, h') /\
    h_time h' = stored_time (h_time h) (map plain_call ops) /\
    (h_class h', h_flags h', h_angle h', h_distance h', h_md h', h_fhs h', h_ats h', h_chs h', h_evs h') =
    (h_class h, h_flags h, h_angle h, h_distance h, h_md h, h_fhs h, h_ats h, h_chs h, h_evs h) /\
    length (h_dgs h') = length (h_dgs h) /\
    forall k d, nth_error (h_dgs h) k = Some d -> exists l,
      let d' := dg_form (dg_after (map plain_call ops) k l d) in
      nth_error (h_dgs h') k = Some d' /\
      (In k (sources (map plain_call ops)) ->
       list_data fuel inflate (c_file m ++ x) d' = Some (Ok (concat (stored k ops)))) /\
      (~ In k (sources (map plain_call ops)) -> l = d_link d).
Proof.
  intros deflate inflate i h ops Z IT IN OK CO SZ.
  destruct (crun_inv deflate i h ops OK CO (sizes_fit_ok _ _ SZ)) as (m & hk & W & T & b & Xs & E & I).
  exists m. split; [exact E|]. intros x LX.
  assert (LF : N.of_nat (length (c_file m)) < 2 ^ 63) by (rewrite app_length in LX; lia).
  destruct (cinv_read _ _ _ _ _ _ _ _ _ _ _ _ _ OK IT IN (proj2 CO) I LF) as [n R].
  exists (n + length (flat_map (fun k => stored k ops) (seq 0 (length (h_dgs h)))) + 3)%nat. intros fuel L.
  exists (hd_form hk). split; [apply R; lia|].
  pose proof (cv_hk _ _ _ _ _ _ _ _ _ _ _ _ _ I) as EH.
  split; [rewrite EH; reflexivity|]. split; [rewrite EH; reflexivity|].
  split; [cbn [hd_form h_dgs]; rewrite map_length; apply (cv_len _ _ _ _ _ _ _ _ _ _ _ _ _ I)|].
  intros k d Ed. pose proof (cv_dgs _ _ _ _ _ _ _ _ _ _ _ _ _ I k d Ed) as EK.
  exists (lk_of (c_sts m) k d). cbv zeta. split.
  - cbn [hd_form h_dgs]. rewrite nth_error_map, EK. reflexivity.
  - split.
    + intros K. destruct (SZ k) as (S1 & S2 & _).
      apply (cinv_data deflate inflate Z _ _ _ (fun k => stored k ops) _ _ _ _ _ _ _ _ k _ x fuel I LX S1 S2); [|exact EK|exact K].
      assert (LK : (k < length (h_dgs h))%nat) by (apply nth_error_Some; rewrite Ed; discriminate).
      assert (B : forall l, In k l -> (length (stored k ops) <= length (flat_map (fun k => stored k ops) l))%nat).
      { induction l as [|a l IH]; intros H; [destruct H|]. cbn [flat_map]. rewrite app_length. destruct H as [->|H]; [lia|]. specialize (IH H). lia. }
      specialize (B (seq 0 (length (h_dgs h))) ltac:(apply in_seq; lia)). lia.
    + intros K. unfold lk_of. rewrite (cv_none _ _ _ _ _ _ _ _ _ _ _ _ _ I k K). reflexivity.
Qed.
Print Assumptions C71_file.

(** The data blocks hold the bytes that the same calls store without compression (C69). *)
Theorem C71_same_bytes : forall k ops, concat (concat (stored k ops)) = saved k (map plain_call ops).
Proof.
  intros k. induction ops as [|o ops IH]; [reflexivity|]. unfold stored, saved in *. cbn [map flat_map].
  rewrite !concat_app, IH. f_equal. destruct o as [t|j full rest e|]; try reflexivity. cbn [plain_call].
  destruct (j =? k)%nat; [|reflexivity]. cbn [concat]. rewrite app_nil_r. unfold blocks_of. rewrite concat_app. f_equal.
  destruct rest; [reflexivity|]. cbn [concat]. apply app_nil_r.
Qed.
Print Assumptions C71_same_bytes.

Lemma read_alike_blocks : forall d d' recs blocks fuel, StreamSpec.dg_ok d -> alike d d' -> Forall (StreamSpec.rec_ok d) recs ->
  (forall g', In g' (StreamModel.d_groups d') -> StreamSpec.occ (StreamModel.g_id g') recs <= StreamModel.g_nof g') ->
  Forall (fun b => b <> []) blocks -> concat blocks = StreamSpec.stream d recs -> (length (StreamSpec.stream d recs) < fuel)%nat ->
  exists evs, StreamModel.read_data d' (fun _ => true) (fun _ => true) fuel blocks = Some (Ok evs) /\
    map StreamSpec.ev_rec evs = recs /\
    forall i ev, nth_error evs i = Some ev -> StreamModel.e_sample ev = StreamSpec.occ (StreamModel.e_id ev) (firstn i recs).
Proof.
  intros d d' recs blocks fuel H AL R C NE EB L. pose proof (alike_ok d d' H AL) as H'.
  assert (R' : Forall (StreamSpec.rec_ok d') recs).
  { eapply Forall_impl; [|exact R]. intros r. apply alike_rec. exact AL. }
  exists (StreamSpec.expected d' (fun _ => true) [] recs). split.
  - rewrite (StreamProofs.read_complete d' _ _ recs); auto.
    + rewrite StreamProofs.upto_all; [reflexivity|]. induction (StreamSpec.expected _ _ _ _); cbn; auto.
    + rewrite EB. symmetry. apply alike_stream. exact AL.
    + rewrite (alike_stream d d' _ AL). exact L.
  - apply (StreamProofs2.expected_all recs d' (fun _ => true) [] H'); auto.
Qed.

(** The records: if the saves of a data group hold the samples [l] in blocks that are not empty, then
    the observers of a reader of the file get all records of [l] in order, numbered within their
    channel groups. *)
Theorem C71_records : forall deflate inflate i h ops k d hs l e, zlib_ok deflate inflate -> id_texts i -> id_numbers i -> hd_ok h ->
  calls_ok h (map plain_call ops) -> sizes_fit deflate ops ->
  nth_error (h_dgs h) k = Some d -> StreamSpec.dg_ok (dgroup_of d) -> In k (sources (map plain_call ops)) ->
  Forall (Forall (fun x => x <> [])) (stored k ops) ->
  EncProofs.emitted (dgroup_of d) hs l (saved k (map plain_call ops)) e -> counters k (map plain_call ops) = Some e ->
  exists m, bind (init_comp i h) (crun deflate ops) = Ok m /\
  forall x, N.of_nat (length (c_file m ++ x)) < 2 ^ 63 ->
  exists enough, forall fuel, (enough <= fuel)%nat ->
  exists h' d' blocks evs, read_file fuel (c_file m ++ x) = Ok (id_trimmed i, h') /\
    nth_error (h_dgs h') k = Some d' /\
    list_data fuel inflate (c_file m ++ x) d' = Some (Ok blocks) /\
    StreamModel.read_data (dgroup_of d') (fun _ => true) (fun _ => true) fuel blocks = Some (Ok evs) /\
    map StreamSpec.ev_rec evs = QueueSpec.records_of (dgroup_of d) hs l /\
    forall j ev, nth_error evs j = Some ev -> StreamModel.e_sample ev =
      StreamSpec.occ (StreamModel.e_id ev) (firstn j (QueueSpec.records_of (dgroup_of d) hs l)).
Proof.
  intros deflate inflate i h ops k d hs l e Z IT IN OK CO SZ Ed DO K NE EM EC.
  destruct (C71_file deflate inflate i h ops Z IT IN OK CO SZ) as (m & E & R). exists m. split; [exact E|]. intros x LX.
  destruct (R x LX) as [n RF]. clear R.
  destruct (emitted_parts _ _ _ _ _ DO EM) as (E1 & E2 & E3 & E4).
  exists (n + S (length (saved k (map plain_call ops))))%nat. intros fuel LF.
  destruct (RF fuel ltac:(lia)) as (h' & EF & _ & _ & _ & DG). destruct (DG k d Ed) as (p & Ek & GD & _). clear DG RF.
  set (d' := dg_form (dg_after (map plain_call ops) k p d)) in *.
  destruct (SZ k) as (LS & _). rewrite C71_same_bytes in LS.
  destruct (read_alike_blocks (dgroup_of d) (dgroup_of d') (QueueSpec.records_of (dgroup_of d) hs l) (concat (stored k ops)) fuel DO)
    as (evs & RD & M1 & M2); auto.
  - apply alike_after.
  - intros g' G. unfold d' in G. cbn [dgroup_of StreamModel.d_groups dg_form dg_after d_cgs] in G. rewrite !map_map in G.
    apply in_map_iff in G. destruct G as (g & <- & _).
    rewrite EC. cbn [group_of cg_form counted StreamModel.g_id StreamModel.g_nof g_record g_samples].
    rewrite E3. unfold w64. rewrite N.mod_small; [lia|].
    pose proof (occ_bytes _ _ (g_record g) DO E2) as OB. rewrite <- E1 in OB. lia.
  - apply Forall_concat. exact NE.
  - rewrite C71_same_bytes. exact E1.
  - rewrite <- E1. lia.
  - exists h', d', (concat (stored k ops)), evs. split; [exact EF|]. split; [exact Ek|]. split; [apply GD; exact K|].
    split; [exact RD|]. split; [exact M1|exact M2].
Qed.
Print Assumptions C71_records.

(** With the compressing worker thread of C20: samples saved by the application and steps of the
    worker in any order, then the worker finishes. If the saves of the data group are the blocks the
    worker made, all samples are read from the file, whatever is saved for other data groups in
    between. *)
Theorem C71_measurement : forall deflate inflate i h ops k d hs stale c sch n, zlib_ok deflate inflate ->
  id_texts i -> id_numbers i -> hd_ok h -> calls_ok h (map plain_call ops) -> sizes_fit deflate ops ->
  nth_error (h_dgs h) k = Some d -> StreamSpec.dg_ok (dgroup_of d) -> In k (sources (map plain_call ops)) ->
  Forall (QueueSpec.sample_ok (dgroup_of d)) (QueueSpec.zsaved sch) -> c_stop c = 0 ->
  QueueSpec.keeps_all c (QueueSpec.zsaved sch) ->
  (forall s, In s (QueueSpec.zsaved sch) ->
     d_idsize d + N.of_nat (length (s_rec s)) +
     (if s_has s then d_idsize d + 4 + N.of_nat (length (s_vbuf s)) else 0) < 4000000) ->
  (length (q_list (z_q (zrun (dgroup_of d) hs stale c sch zst0))) + 4 <= n)%nat ->
  let z := zrun (dgroup_of d) hs stale c (sch ++ QueueProofs2.zworks n) zst0 in
  concat (stored k ops) = map snd (z_blocks z) -> counters k (map plain_call ops) = Some (z_enc z) ->
  exists m, bind (init_comp i h) (crun deflate ops) = Ok m /\
  forall x, N.of_nat (length (c_file m ++ x)) < 2 ^ 63 ->
  exists enough, forall fuel, (enough <= fuel)%nat ->
  exists h' d' blocks evs, read_file fuel (c_file m ++ x) = Ok (id_trimmed i, h') /\
    nth_error (h_dgs h') k = Some d' /\
    list_data fuel inflate (c_file m ++ x) d' = Some (Ok blocks) /\
    StreamModel.read_data (dgroup_of d') (fun _ => true) (fun _ => true) fuel blocks = Some (Ok evs) /\
    map StreamSpec.ev_rec evs = QueueSpec.records_of (dgroup_of d) hs (QueueSpec.zsaved sch).
Proof.
  intros deflate inflate i h ops k d hs stale c sch n Z IT IN OK CO SZ Ed DO K SO ST KA SM LN z CS EC.
  destruct (QueueProofs2.zrun_all (dgroup_of d) hs stale c sch n DO SO ST KA LN) as (_ & _ & _ & _ & EM & _). fold z in EM.
  rewrite <- CS, C71_same_bytes in EM.
  assert (NE : Forall (fun b => snd b <> []) (z_blocks z)).
  { apply QueueProps.C20_no_empty_block. intros s IS. apply SM.
    rewrite QueueProofs2.zsaved_app, QueueProofs2.zworks_saved, app_nil_r in IS. exact IS. }
  destruct (C71_records deflate inflate i h ops k d hs (QueueSpec.zsaved sch) (z_enc z) Z IT IN OK CO SZ Ed DO K) as (m & E & R); auto.
  { apply Forall_forall. intros xs IX. apply Forall_forall. intros y IY.
    assert (IM : In y (map snd (z_blocks z))) by (rewrite <- CS; apply in_concat; eauto).
    apply in_map_iff in IM. destruct IM as (q & <- & IQ). rewrite Forall_forall in NE. apply NE. exact IQ. }
  exists m. split; [exact E|]. intros x LX. destruct (R x LX) as [n1 R1]. exists n1. intros fuel LF.
  destruct (R1 fuel LF) as (h' & d' & blocks & evs & A1 & A2 & A3 & A4 & A5 & _).
  exists h', d', blocks, evs. auto.
Qed.
Print Assumptions C71_measurement.

(** A measurement with two data groups, saved in turns; the data of one lie between those of the
    other. *)
Definition meas2 : hd := set_dgs meas1 [dg1; dg1].
Lemma meas2_ok : hd_ok meas2.
Proof.
  destruct meas1_ok as (A1 & A2 & A3 & A4 & A5 & A6 & A7). unfold hd_ok.
  repeat (split; [assumption|]). inversion A7 as [|? ? D _]; subst. constructor; [exact D|]. constructor; [exact D|constructor].
Qed.

Definition calls2 : list cop :=
  let a := enc_all [smp1 1 7; smp2 2 8] in
  let b := enc_all [smp1 1 7; smp2 2 8; smp1 3 9] in
  let c := enc_all [smp2 4 5] in
  [CStart (mkStamp4 5 0 0 2); CStore 0 [firstn 10 (fst a)] (skipn 10 (fst a)) (snd a); CStore 1 [] (fst c) (snd c);
   CStore 0 [skipn (length (fst a)) (fst b)] [] (snd b); CFinal].

Example C71_witness : hd_ok meas2 /\ calls_ok meas2 (map plain_call calls2) /\ sizes_fit DataProps.toy_deflate calls2 /\
  StreamSpec.dg_ok (dgroup_of dg1) /\ nth_error (h_dgs meas2) 0 = Some dg1 /\ sources (map plain_call calls2) = [0; 1; 0]%nat /\
  Forall (Forall (fun x => x <> [])) (stored 0 calls2) /\
  EncProofs.emitted (dgroup_of dg1) (fun _ => false) [smp1 1 7; smp2 2 8; smp1 3 9] (saved 0 (map plain_call calls2))
    (snd (enc_all [smp1 1 7; smp2 2 8; smp1 3 9])) /\
  counters 0 (map plain_call calls2) = Some (snd (enc_all [smp1 1 7; smp2 2 8; smp1 3 9])).
Proof.
  destruct C69_witness as (_ & _ & _ & DO & _ & _ & EM & _).
  split; [apply meas2_ok|]. split.
  { split.
    - intros k [<-|[<-|[<-|[]]]]; exists dg1; split; reflexivity.
    - intros t [X|[X|[X|[X|[X|[]]]]]]; try discriminate. injection X as <-. repeat split. }
  split.
  { intros k. destruct k as [|[|k]].
    - split; [vm_compute; reflexivity|]. split; [repeat constructor|].
      repeat (constructor || apply DataProps.toy_fits).
    - split; [vm_compute; reflexivity|]. split; [repeat constructor|].
      repeat (constructor || apply DataProps.toy_fits).
    - split; [vm_compute; reflexivity|]. split; constructor. }
  split; [exact DO|]. split; [reflexivity|]. split; [reflexivity|]. split; [repeat constructor; discriminate|].
  split; [exact EM|]. reflexivity.
Qed.
