(** C69: a measurement is read back from its file. *)
From Verif Require Import Base BlockModel BlockSpec MetaModel MetaSpec DataModel IdentModel IdentSpec QueueModel
  MeasModel MeasSpec MeasProofs4 MeasProofs5 MeasStream MetaProps IdentProps.
From Verif Require StreamModel StreamSpec QueueSpec EncProofs WriterModel WriterProofs QueueProps.
Local Open Scope N_scope.

(** InitMeasurement of a new file, then any sequence of StartMeasurement, saves of sample queues and
    FinalizeMeasurement succeeds, and after each of them the file holds the measurement so far: the
    identification, the whole description, for each data group the bytes saved for it and the
    counters of its last save. The start time is the one at the last FinalizeMeasurement. Bytes that
    follow (a save that was interrupted before its counters were written) change nothing. *)
Theorem C69_file : forall i h ops, id_texts i -> id_numbers i -> hd_ok h -> calls_ok h ops -> in_turn ops ->
  exists m, bind (init_meas i h) (mrun ops) = Ok m /\
  forall x, N.of_nat (length (m_file m ++ x)) < 2 ^ 63 ->
  exists enough, forall fuel, (enough <= fuel)%nat ->
  exists h', read_file fuel (m_file m ++ x) = Ok (id_trimmed i, h') /\
    h_time h' = stored_time (h_time h) ops /\
    (h_class h', h_flags h', h_angle h', h_distance h', h_md h', h_fhs h', h_ats h', h_chs h', h_evs h') =
    (h_class h, h_flags h, h_angle h, h_distance h, h_md h, h_fhs h, h_ats h, h_chs h, h_evs h) /\
    length (h_dgs h') = length (h_dgs h) /\
    forall k d, nth_error (h_dgs h) k = Some d -> exists l,
      let d' := dg_form (dg_after ops k l d) in
      nth_error (h_dgs h') k = Some d' /\
      (In k (sources ops) -> forall inflate, group_data inflate (m_file m ++ x) d' = Some (Ok [saved k ops])) /\
      (~ In k (sources ops) -> l = d_link d).
Proof.
  intros i h ops IT IN OK CO TU. destruct (run_inv i h ops OK CO TU) as (m & hk & W & T & b & E & I).
  exists m. split; [exact E|]. intros x LX.
  assert (LF : N.of_nat (length (m_file m)) < 2 ^ 63) by (rewrite app_length in LX; lia).
  destruct (inv_read _ _ _ _ _ _ _ _ _ _ _ _ OK IT IN (proj2 CO) I LF) as [n R]. exists n. intros fuel L.
  exists (hd_form hk). split; [apply R; exact L|].
  pose proof (iv_hk _ _ _ _ _ _ _ _ _ _ _ _ I) as EH.
  split; [rewrite EH; reflexivity|]. split; [rewrite EH; reflexivity|].
  split; [cbn [hd_form h_dgs]; rewrite map_length; apply (iv_len _ _ _ _ _ _ _ _ _ _ _ _ I)|].
  intros k d Ed. pose proof (iv_dgs _ _ _ _ _ _ _ _ _ _ _ _ I k d Ed) as EK.
  exists (link_of (m_dts m) k d). cbv zeta. split.
  - cbn [hd_form h_dgs]. rewrite nth_error_map, EK. reflexivity.
  - split.
    + intros K inflate. apply (inv_data inflate _ _ _ _ _ _ _ _ _ _ _ _ k _ x I LX EK K).
    + intros K. unfold link_of. rewrite (iv_none _ _ _ _ _ _ _ _ _ _ _ _ I k K). reflexivity.
Qed.
Print Assumptions C69_file.

(** The start time in a finished file is the one given to the last StartMeasurement. *)
Theorem C69_start_time : forall t0 a t b, (forall s, ~ In (MStart s) b) ->
  stored_time t0 (a ++ MStart t :: b ++ [MFinal]) = t.
Proof.
  intros t0 a t b H. unfold stored_time, times.
  change (a ++ MStart t :: b ++ [MFinal]) with (a ++ [MStart t] ++ b ++ [MFinal]).
  rewrite !fold_left_app. cbn [fold_left].
  match goal with |- context [fold_left ?F a ?z] => destruct (fold_left F a z) as [u v] end. cbv iota beta.
  revert v. induction b as [|o b IH]; intros v; [reflexivity|]. cbn [fold_left].
  destruct o as [s|k x e|]; [exfalso; apply (H s); left; reflexivity| |]; apply IH; intros s X; apply (H s); right; exact X.
Qed.
Print Assumptions C69_start_time.

Lemma alike_after : forall ops k l d, alike (dgroup_of d) (dgroup_of (dg_form (dg_after ops k l d))).
Proof.
  intros ops k l d. split; [reflexivity|]. cbn [dgroup_of StreamModel.d_groups dg_form dg_after d_cgs].
  rewrite !map_map. generalize (counters k ops). intros c. induction (d_cgs d) as [|g gs IH]; cbn [map]; constructor; auto.
  unfold alike_group. destruct c as [e|]; [|repeat split].
  cbn [group_of cg_form counted StreamModel.g_id StreamModel.g_vlsd StreamModel.g_data StreamModel.g_inval g_record g_data g_inval].
  unfold is_vlsd. cbn [g_flags]. split; [reflexivity|]. split; [reflexivity|].
  pose proof (vlsd_bit g) as V. unfold is_vlsd in V. rewrite <- V. intros ->. split; reflexivity.
Qed.

(** The records: if the saves of a data group hold the samples [l], then the observers of a reader of
    the file get all records of [l] in order, numbered within their channel groups. *)
Theorem C69_records : forall i h ops k d hs l e, id_texts i -> id_numbers i -> hd_ok h -> calls_ok h ops -> in_turn ops ->
  nth_error (h_dgs h) k = Some d -> StreamSpec.dg_ok (dgroup_of d) -> In k (sources ops) ->
  EncProofs.emitted (dgroup_of d) hs l (saved k ops) e -> counters k ops = Some e ->
  exists m, bind (init_meas i h) (mrun ops) = Ok m /\
  forall x, N.of_nat (length (m_file m ++ x)) < 2 ^ 63 ->
  exists enough, forall fuel, (enough <= fuel)%nat ->
  exists h' d' blocks evs, read_file fuel (m_file m ++ x) = Ok (id_trimmed i, h') /\
    nth_error (h_dgs h') k = Some d' /\
    (forall inflate, group_data inflate (m_file m ++ x) d' = Some (Ok blocks)) /\
    StreamModel.read_data (dgroup_of d') (fun _ => true) (fun _ => true) fuel blocks = Some (Ok evs) /\
    map StreamSpec.ev_rec evs = QueueSpec.records_of (dgroup_of d) hs l /\
    forall j ev, nth_error evs j = Some ev -> StreamModel.e_sample ev =
      StreamSpec.occ (StreamModel.e_id ev) (firstn j (QueueSpec.records_of (dgroup_of d) hs l)).
Proof.
  intros i h ops k d hs l e IT IN OK CO TU Ed DO K EM EC.
  destruct (C69_file i h ops IT IN OK CO TU) as (m & E & R). exists m. split; [exact E|]. intros x LX.
  destruct (R x LX) as [n RF]. clear R.
  destruct (emitted_parts _ _ _ _ _ DO EM) as (E1 & E2 & E3 & E4).
  exists (n + S (length (saved k ops)))%nat. intros fuel LF.
  destruct (RF fuel ltac:(lia)) as (h' & EF & _ & _ & _ & DG). destruct (DG k d Ed) as (p & Ek & GD & _). clear DG RF.
  set (d' := dg_form (dg_after ops k p d)) in *.
  assert (LS : (length (saved k ops) <= length (m_file m ++ x))%nat).
  { specialize (GD K (fun _ _ => [])). unfold group_data in GD.
    destruct (run_inv i h ops OK CO TU) as (m' & hk & W & T & b & E' & I). rewrite E in E'. injection E' as <-.
    destruct (iv_dt _ _ _ _ _ _ _ _ _ _ _ _ I k K) as (bk & _ & _ & _ & _ & _ & [HB _]). rewrite dt_bytes_length in HB.
    rewrite app_length. lia. }
  destruct (read_alike (dgroup_of d) (dgroup_of d') (QueueSpec.records_of (dgroup_of d) hs l) fuel DO) as (evs & RD & M1 & M2); auto.
  - apply alike_after.
  - intros g' G. unfold d' in G. cbn [dgroup_of StreamModel.d_groups dg_form dg_after d_cgs] in G. rewrite !map_map in G.
    apply in_map_iff in G. destruct G as (g & <- & _).
    rewrite EC. cbn [group_of cg_form counted StreamModel.g_id StreamModel.g_nof g_record g_samples].
    rewrite E3. unfold w64. rewrite N.mod_small; [lia|].
    pose proof (occ_bytes _ _ (g_record g) DO E2) as OB. rewrite <- E1 in OB. lia.
  - rewrite <- E1. lia.
  - exists h', d', [saved k ops], evs. split; [exact EF|]. split; [exact Ek|]. split; [intros inflate; apply GD; exact K|].
    rewrite E1. split; [exact RD|]. split; [exact M1|exact M2].
Qed.
Print Assumptions C69_records.

(** With the worker thread and the sample queue of C12 and C25: samples saved by the application and
    turns of the worker in any order, StartMeasurement(T), more of both, StopMeasurement. If the
    saves of the data group are what the worker wrote, all samples within the pre-trigger window are
    read from the file. *)
Theorem C69_measurement : forall i h k d st p pre trim ops1 T ops2, id_texts i -> id_numbers i -> hd_ok h ->
  nth_error (h_dgs h) k = Some d -> StreamSpec.dg_ok (dgroup_of d) ->
  let none := (fun _ => false) in
  Forall WriterProofs.plain ops1 -> Forall WriterProofs.plain ops2 ->
  let all := WriterProofs.wsaves ops1 ++ WriterProofs.wsaves ops2 in
  Forall (QueueSpec.sample_ok (dgroup_of d)) all -> QueueSpec.sorted_ts all ->
  (forall s, In s all -> T <= s_ts s + pre /\ s_ts s < 2 ^ 64) ->
  (forall s, In s (WriterProofs.wsaves ops1) -> s_ts s <= T) ->
  0 < T -> T < 2 ^ 64 -> pre <= T ->
  exists n0, forall n, (n0 <= n)%nat ->
  let w := WriterModel.wrun (dgroup_of d) none st p (WriterProofs.measurement ops1 T ops2 n) (WriterModel.winit pre trim) in
  forall ops, calls_ok h ops -> in_turn ops -> In k (sources ops) ->
  saved k ops = u_out (WriterModel.w_u w) -> counters k ops = Some (u_enc (WriterModel.w_u w)) ->
  exists m, bind (init_meas i h) (mrun ops) = Ok m /\
  forall x, N.of_nat (length (m_file m ++ x)) < 2 ^ 63 ->
  exists enough, forall fuel, (enough <= fuel)%nat ->
  exists h' d' blocks evs, read_file fuel (m_file m ++ x) = Ok (id_trimmed i, h') /\
    nth_error (h_dgs h') k = Some d' /\
    (forall inflate, group_data inflate (m_file m ++ x) d' = Some (Ok blocks)) /\
    StreamModel.read_data (dgroup_of d') (fun _ => true) (fun _ => true) fuel blocks = Some (Ok evs) /\
    map StreamSpec.ev_rec evs = QueueSpec.records_of (dgroup_of d) none all.
Proof.
  intros i h k d st p pre trim ops1 T ops2 IT IN OK Ed DO none P1 P2 all F S B BT TP HT HP.
  destruct (QueueProps.C25_stored_partial (dgroup_of d) none st p pre trim ops1 T ops2 DO P1 P2 F S) as (n0 & N0); auto.
  { intros s Hs. apply (B s Hs). }
  exists n0. intros n L w ops CO TU K ES EC.
  destruct (N0 n L) as (_ & _ & SH & G & EM). fold w in SH, G, EM.
  assert (GN : u_gone (WriterModel.w_u w) = []).
  { destruct (u_gone (WriterModel.w_u w)) as [|x r] eqn:E; auto. exfalso.
    assert (X : s_ts x + pre < T) by (apply G; left; auto).
    assert (Hx : In x all).
    { clear - SH. remember (x :: r) as b eqn:Eb.
      assert (KK : forall a b c : list sample, QueueSpec.shuffle a b c -> forall y, In y b -> In y c).
      { intros a b0 c Hs. induction Hs; intros y Hy; [destruct Hy|right; auto|].
        destruct Hy as [->|Hy]; [left; auto|right; auto]. }
      apply (KK _ _ _ SH). rewrite Eb. left; auto. }
    destruct (B x Hx). lia. }
  rewrite GN in SH. assert (SH' : u_log (WriterModel.w_u w) = all).
  { clear - SH. remember [] as z eqn:Ez. fold all in SH. revert SH. generalize all. intros c SH.
    induction SH; auto; [f_equal; auto|discriminate]. }
  rewrite SH' in EM. rewrite <- ES in EM.
  destruct (C69_records i h ops k d none all (u_enc (WriterModel.w_u w)) IT IN OK CO TU Ed DO K EM EC) as (m & E & R).
  exists m. split; [exact E|]. intros x LX. destruct (R x LX) as [n1 R1]. exists n1. intros fuel LF.
  destruct (R1 fuel LF) as (h' & d' & blocks & evs & A1 & A2 & A3 & A4 & A5 & _).
  exists h', d', blocks, evs. auto.
Qed.
Print Assumptions C69_measurement.

(** A measurement of the first data group of [meas1]: two saves of samples of its two channel groups,
    and the end. *)
Definition dg1 : dg := nth 0 (h_dgs meas1) (mkDg 0 None 0 []).
Definition smp1 (t x : N) : sample := mkS t 1 [x; 0; 0; 0; 0; 0; 0; 0; 255] false [].
Definition smp2 (t x : N) : sample := mkS t 2 [x; 1; 2; 3] false [].
Definition enc_all (l : list sample) : list N * enc :=
  fold_left (fun '(out, e) s => match emit4 (dgroup_of dg1) (fun _ => false) e s with
                                | Some (bs, e') => (out ++ bs, e')
                                | None => (out, e)
                                end) l ([], enc0).
Lemma enc_all_emitted : forall l, StreamSpec.dg_ok (dgroup_of dg1) -> Forall (QueueSpec.sample_ok (dgroup_of dg1)) l ->
  EncProofs.emitted (dgroup_of dg1) (fun _ => false) l (fst (enc_all l)) (snd (enc_all l)).
Proof.
  intros l DO. induction l as [|s l IH] using rev_ind; intros F; [apply EncProofs.emitted0|].
  apply Forall_app in F as [F1 F2]. inversion F2; subst. specialize (IH F1).
  destruct (EncProofs.emitted_step _ _ _ _ _ s DO H1 IH) as (b & e & M & E).
  unfold enc_all in *. rewrite fold_left_app. cbn [fold_left].
  destruct (fold_left _ l ([], enc0)) as [out e0]. cbn [fst snd] in *. rewrite M. exact E.
Qed.
Definition calls1 : list mop :=
  let a := enc_all [smp1 1 7; smp2 2 8] in
  let b := enc_all [smp1 1 7; smp2 2 8; smp1 3 9] in
  [MStart (mkStamp4 5 0 0 2); MSave 0 (fst a) (snd a); MSave 0 (skipn (length (fst a)) (fst b)) (snd b); MFinal].

Example C69_witness : hd_ok meas1 /\ calls_ok meas1 calls1 /\ in_turn calls1 /\ StreamSpec.dg_ok (dgroup_of dg1) /\
  nth_error (h_dgs meas1) 0 = Some dg1 /\ In 0%nat (sources calls1) /\
  EncProofs.emitted (dgroup_of dg1) (fun _ => false) [smp1 1 7; smp2 2 8; smp1 3 9] (saved 0 calls1)
    (snd (enc_all [smp1 1 7; smp2 2 8; smp1 3 9])) /\
  counters 0 calls1 = Some (snd (enc_all [smp1 1 7; smp2 2 8; smp1 3 9])) /\
  stored_time (h_time meas1) calls1 = mkStamp4 5 0 0 2 /\
  map (fun r => (StreamSpec.r_id r, StreamSpec.r_data r))
    (QueueSpec.records_of (dgroup_of dg1) (fun _ => false) [smp1 1 7; smp2 2 8; smp1 3 9]) =
    [(1, [7; 0; 0; 0; 0; 0; 0; 0; 255]); (2, [8; 1; 2; 3]); (1, [9; 0; 0; 0; 0; 0; 0; 0; 255])] /\
  saved 0 calls1 = [1; 7; 0; 0; 0; 0; 0; 0; 0; 255; 2; 8; 1; 2; 3; 1; 9; 0; 0; 0; 0; 0; 0; 0; 255].
Proof.
  assert (DO : StreamSpec.dg_ok (dgroup_of dg1)).
  { constructor.
    - discriminate.
    - vm_compute. repeat constructor; intros X; cbn in X; decompose [or] X; auto; discriminate.
    - vm_compute. auto.
    - intros g [<-|[<-|[]]] _; vm_compute; reflexivity.
    - intros X. vm_compute in X. discriminate.
    - intros g _ X. vm_compute in X. discriminate. }
  split; [apply meas1_ok|]. split.
  { split.
    - intros k [<-|[<-|[]]]; exists dg1; split; reflexivity.
    - intros t [X|[X|[X|[X|[]]]]]; try discriminate. injection X as <-. repeat split. }
  split.
  { intros l1 k l2 E K. destruct l1 as [|a [|b l1]]; [destruct K| |].
    - injection E as <- <- _. reflexivity.
    - cbn in E. injection E as _ _ E. destruct l1; discriminate. }
  split; [exact DO|]. split; [reflexivity|]. split; [left; reflexivity|]. split.
  { assert (S1 : forall t x, QueueSpec.sample_ok (dgroup_of dg1) (smp1 t x)).
    { intros t x. split; [|reflexivity]. eexists. split; [left; reflexivity|]. repeat split. }
    assert (S2 : forall t x, QueueSpec.sample_ok (dgroup_of dg1) (smp2 t x)).
    { intros t x. split; [|reflexivity]. eexists. split; [right; left; reflexivity|]. repeat split. }
    replace (saved 0 calls1) with (fst (enc_all [smp1 1 7; smp2 2 8; smp1 3 9])) by (vm_compute; reflexivity).
    apply enc_all_emitted; [exact DO|]. repeat (apply Forall_cons; auto). }
  split; [reflexivity|]. split; [reflexivity|]. split; vm_compute; reflexivity.
Qed.
