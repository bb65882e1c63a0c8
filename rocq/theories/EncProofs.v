(** Writing samples: the bytes and the group counters after any sequence of samples. *)
From Verif Require Import Base StreamModel StreamSpec StreamProofs StreamProofs2 IdProofs
  VlsdReadProofs QueueModel QueueSpec.
Local Open Scope N_scope.

Lemma chunks_len_app : forall a b, chunks_len (a ++ b) = chunks_len a + chunks_len b.
Proof. induction a as [|p a IH]; intros b; [reflexivity|]. cbn [app chunks_len fold_right]. fold (chunks_len (a ++ b)). fold (chunks_len a). rewrite IH. lia. Qed.

Lemma chunks_len_one : forall p, chunks_len [p] = 4 + N.of_nat (length p).
Proof. intros. cbn. lia. Qed.

Lemma records_from_app : forall a b d has_sd prev,
  records_from d has_sd prev (a ++ b) = records_from d has_sd prev a ++ records_from d has_sd (prev ++ a) b.
Proof.
  induction a as [|x a IH]; intros; cbn [app records_from].
  - rewrite app_nil_r. reflexivity.
  - rewrite IH, <- app_assoc, <- app_assoc. reflexivity.
Qed.

Lemma records_of_snoc : forall d has_sd l s,
  records_of d has_sd (l ++ [s]) = records_of d has_sd l ++ sample_records d has_sd l s.
Proof. intros. unfold records_of. rewrite records_from_app. cbn [app records_from]. rewrite app_nil_r. reflexivity. Qed.

Lemma group_values_snoc : forall d v l s,
  group_values d v (l ++ [s]) = group_values d v l ++ if in_vlsd d v s then [s_vbuf s] else [].
Proof. intros. unfold group_values. rewrite filter_app, map_app. cbn [filter]. destruct (in_vlsd d v s); reflexivity. Qed.

Lemma sd_values_snoc : forall d has_sd g l s,
  sd_values d has_sd g (l ++ [s]) = sd_values d has_sd g l ++ if in_sd d has_sd g s then [s_vbuf s] else [].
Proof. intros. unfold sd_values. rewrite filter_app, map_app. cbn [filter]. destruct (in_sd d has_sd g s); reflexivity. Qed.

(** The bytes of an SD block: length-prefixed values. *)
Definition chunks (l : list (list N)) : list N := concat (map chunk l).

Lemma chunks_length : forall l, N.of_nat (length (chunks l)) = chunks_len l.
Proof.
  induction l as [|p l IH]; [reflexivity|]. unfold chunks in *. cbn [map concat chunks_len fold_right].
  fold (chunks_len l). rewrite app_length, chunk_length. lia.
Qed.

Definition sum_len (l : list (list N)) : N := fold_right (fun p acc => N.of_nat (length p) + acc) 0 l.

Lemma sum_len_app : forall a b, sum_len (a ++ b) = sum_len a + sum_len b.
Proof. induction a as [|p a IH]; intros b; [reflexivity|]. cbn [app sum_len fold_right]. fold (sum_len (a ++ b)). fold (sum_len a). rewrite IH. lia. Qed.

(** The counters in terms of the samples stored. *)
Record enc_ok (d : dgroup) (has_sd : N -> bool) (l : list sample) (e : enc) : Prop := {
  eo_cnt : forall id, e_cnt e id = occ id (records_of d has_sd l);
  eo_vidx : forall v, e_vidx e v = w64 (chunks_len (group_values d v l));
  eo_tot : forall v, e_tot e v = w64 (sum_len (group_values d v l));
  eo_sd : forall g, e_sd e g = chunks (sd_values d has_sd g l)
}.

Lemma enc0_ok : forall d has_sd, enc_ok d has_sd [] enc0.
Proof. intros. constructor; intros; reflexivity. Qed.

Lemma patch_w64 : forall rec x, patch_index rec (w64 x) = patch_index rec x.
Proof. intros. unfold patch_index, w64. rewrite N.mod_mod by lia. reflexivity. Qed.

Lemma patch_length : forall rec x, length (patch_index rec x) = length rec.
Proof.
  intros. unfold patch_index. destruct (Nat.leb_spec 8 (length rec)); auto.
  rewrite app_length, firstn_length, le_bytes_length. lia.
Qed.

Lemma find_cg_sample : forall d s g, dg_ok d -> In g (d_groups d) -> g_id g = s_id s ->
  find_cg_record_id d (s_id s) = Some g.
Proof. intros d s g H Hin E. rewrite <- E. apply find_cg_in; auto. Qed.

Lemma find_cg_some_in : forall d id g, find_cg_record_id d id = Some g -> In g (d_groups d).
Proof.
  intros d id g H. unfold find_cg_record_id in H.
  destruct (d_groups d) as [|a [|b l]]; [discriminate|injection H as <-; left; auto|].
  apply find_some in H. tauto.
Qed.

Lemma vlsd_group_in : forall d s v, vlsd_group d s = Some v -> In v (d_groups d) /\ g_vlsd v = true.
Proof.
  intros d s v H. unfold vlsd_group in H. destruct (s_has s); [|discriminate].
  destruct (find_cg_record_id d (w64 (s_id s + 1))) as [x|] eqn:E; [|discriminate].
  destruct (g_vlsd x) eqn:V; [|discriminate]. injection H as <-.
  split; auto. apply find_cg_some_in in E; auto.
Qed.

Lemma same_group : forall d g h, dg_ok d -> In g (d_groups d) -> In h (d_groups d) ->
  g_id g = g_id h -> g = h.
Proof.
  intros d g h H Hg Hh E. pose proof (find_cg_in d g H Hg) as F1. pose proof (find_cg_in d h H Hh) as F2.
  rewrite E in F1. congruence.
Qed.

(** One sample. *)
Lemma emit_step : forall d has_sd prev e s, dg_ok d -> sample_ok d s -> enc_ok d has_sd prev e ->
  exists bytes e', emit4 d has_sd e s = Some (bytes, e') /\
    bytes = concat (map (written d) (sample_records d has_sd prev s)) /\
    Forall (rec_ok d) (sample_records d has_sd prev s) /\
    enc_ok d has_sd (prev ++ [s]) e'.
Proof.
  intros d has_sd prev e s H ((g & Hin & Eid & NV & LR) & LV) EO.
  pose proof (find_cg_sample d s g H Hin Eid) as F.
  unfold emit4. rewrite F.
  assert (GO : group_of d s = Some (g_id g)) by (unfold group_of; rewrite F; reflexivity).
  assert (VG : vlsd_id d (g_id g) = false) by (rewrite vlsd_id_in; auto).
  unfold write_sample4.
  destruct (vlsd_group d s) as [v|] eqn:V.
  - destruct (vlsd_group_in d s v V) as [Hv Vv].
    assert (NE : g_id v <> g_id g).
    { intros E. pose proof (same_group d v g H Hv Hin E). congruence. }
    assert (SR : sample_records d has_sd prev s =
      [Rec (g_id v) (s_vbuf s);
       Rec (g_id g) (patch_index (s_rec s) (chunks_len (group_values d (g_id v) prev)))]).
    { unfold sample_records. rewrite GO, V. reflexivity. }
    rewrite SR. eexists; eexists. split; [reflexivity|]. split; [|split].
    + cbn [map concat]. unfold written. cbn [r_id r_data].
      rewrite (vlsd_id_in d v H Hv), Vv, VG, app_nil_r, (eo_vidx _ _ _ _ EO), patch_w64. reflexivity.
    + repeat constructor.
      * exists v. rewrite Vv. auto.
      * exists g. cbn [r_id r_data]. rewrite NV, patch_length. auto.
    + assert (IV : forall x, in_vlsd d x s = (x =? g_id v)).
      { intros x. unfold in_vlsd. rewrite V. apply N.eqb_sym. }
      constructor; intros x; unfold count_up, vlsd_up; cbn [e_cnt e_vidx e_tot e_sd].
      * rewrite records_of_snoc, SR, occ_app, !occ_cons. cbn [r_id]. unfold upd.
        rewrite !(eo_cnt _ _ _ _ EO). change (occ x []) with 0.
        destruct (N.eqb_spec x (g_id g)) as [->|N1].
        -- replace (g_id g =? g_id v) with false by lia. replace (g_id v =? g_id g) with false by lia.
           rewrite N.eqb_refl. lia.
        -- replace (g_id g =? x) with false by lia.
           destruct (N.eqb_spec x (g_id v)) as [->|N2].
           ++ rewrite N.eqb_refl. lia.
           ++ replace (g_id v =? x) with false by lia. lia.
      * rewrite group_values_snoc, IV, chunks_len_app. unfold upd.
        destruct (N.eqb_spec x (g_id v)) as [->|N2].
        -- rewrite chunks_len_one, (eo_vidx _ _ _ _ EO). unfold w64.
           rewrite <- N.add_assoc, N.add_mod_idemp_l by lia. reflexivity.
        -- rewrite (eo_vidx _ _ _ _ EO). change (chunks_len []) with 0. rewrite N.add_0_r. reflexivity.
      * rewrite group_values_snoc, IV, sum_len_app. unfold upd.
        destruct (N.eqb_spec x (g_id v)) as [->|N2].
        -- rewrite (eo_tot _ _ _ _ EO). unfold w64. rewrite N.add_mod_idemp_l by lia.
           f_equal. cbn. lia.
        -- rewrite (eo_tot _ _ _ _ EO). change (sum_len []) with 0. rewrite N.add_0_r. reflexivity.
      * rewrite sd_values_snoc. unfold in_sd. rewrite V, andb_false_r. cbn [andb].
        rewrite app_nil_r. apply (eo_sd _ _ _ _ EO).
  - assert (IV : forall x, in_vlsd d x s = false) by (intros; unfold in_vlsd; rewrite V; reflexivity).
    assert (CNT : forall r x, r_id r = g_id g ->
      upd (e_cnt e) (g_id g) (e_cnt e (g_id g) + 1) x = occ x (records_of d has_sd prev ++ [r])).
    { intros r x Er. rewrite occ_app, occ_cons, Er. change (occ x []) with 0. unfold upd.
      rewrite !(eo_cnt _ _ _ _ EO). rewrite (N.eqb_sym (g_id g)).
      destruct (N.eqb_spec x (g_id g)) as [->|]; lia. }
    destruct (s_has s && has_sd (g_id g)) eqn:SD.
    + assert (SR : sample_records d has_sd prev s =
        [Rec (g_id g) (patch_index (s_rec s) (chunks_len (sd_values d has_sd (g_id g) prev)))]).
      { unfold sample_records. rewrite GO, V, SD. reflexivity. }
      assert (IS : forall x, in_sd d has_sd x s = (x =? g_id g)).
      { intros x. unfold in_sd. rewrite V, GO. cbn [andb].
        apply andb_true_iff in SD as [S1 S2]. rewrite S1.
        destruct (N.eqb_spec x (g_id g)) as [->|N1].
        - rewrite S2, N.eqb_refl. reflexivity.
        - replace (g_id g =? x) with false by lia. rewrite andb_false_r. reflexivity. }
      rewrite SR. eexists; eexists. split; [reflexivity|]. split; [|split].
      * cbn [map concat]. unfold written. cbn [r_id r_data].
        rewrite VG, app_nil_r, (eo_sd _ _ _ _ EO), chunks_length. reflexivity.
      * repeat constructor. exists g. cbn [r_id r_data]. rewrite NV, patch_length. auto.
      * constructor; intros x; unfold count_up; cbn [e_cnt e_vidx e_tot e_sd].
        -- rewrite records_of_snoc, SR. apply CNT. reflexivity.
        -- rewrite group_values_snoc, IV, app_nil_r. apply (eo_vidx _ _ _ _ EO).
        -- rewrite group_values_snoc, IV, app_nil_r. apply (eo_tot _ _ _ _ EO).
        -- rewrite sd_values_snoc, IS. unfold updl. rewrite (eo_sd _ _ _ _ EO).
           destruct (N.eqb_spec x (g_id g)) as [->|N1].
           ++ unfold chunks. rewrite map_app, concat_app. cbn [map concat]. rewrite app_nil_r.
              unfold chunk at 3. unfold w32. rewrite N.mod_small by auto. reflexivity.
           ++ rewrite app_nil_r. apply (eo_sd _ _ _ _ EO).
    + assert (SR : sample_records d has_sd prev s = [Rec (g_id g) (s_rec s)]).
      { unfold sample_records. rewrite GO, V, SD. reflexivity. }
      assert (IS : forall x, in_sd d has_sd x s = false).
      { intros x. unfold in_sd. rewrite V, GO, andb_true_r.
        destruct (N.eqb_spec (g_id g) x) as [<-|N1].
        - rewrite SD. reflexivity.
        - apply andb_false_r. }
      rewrite SR. eexists; eexists. split; [reflexivity|]. split; [|split].
      * cbn [map concat]. unfold written. cbn [r_id r_data]. rewrite VG, app_nil_r. reflexivity.
      * repeat constructor. exists g. cbn [r_id r_data]. rewrite NV. auto.
      * constructor; intros x; unfold count_up; cbn [e_cnt e_vidx e_tot e_sd].
        -- rewrite records_of_snoc, SR. apply CNT. reflexivity.
        -- rewrite group_values_snoc, IV, app_nil_r. apply (eo_vidx _ _ _ _ EO).
        -- rewrite group_values_snoc, IV, app_nil_r. apply (eo_tot _ _ _ _ EO).
        -- rewrite sd_values_snoc, IS, app_nil_r. apply (eo_sd _ _ _ _ EO).
Qed.

(* ------------------------------------------------------------------ *)
(** ** Reading [records_of] *)

(** What the data contains for a list of samples. *)
Definition emitted (d : dgroup) (has_sd : N -> bool) (l : list sample) (out : list N) (e : enc) : Prop :=
  out = concat (map (written d) (records_of d has_sd l)) /\
  Forall (rec_ok d) (records_of d has_sd l) /\ enc_ok d has_sd l e.

Lemma emitted0 : forall d has_sd, emitted d has_sd [] [] enc0.
Proof. intros. split; [reflexivity|]. split; [constructor|apply enc0_ok]. Qed.

Lemma emitted_step : forall d has_sd l out e s, dg_ok d -> sample_ok d s ->
  emitted d has_sd l out e ->
  exists bytes e', emit4 d has_sd e s = Some (bytes, e') /\
    emitted d has_sd (l ++ [s]) (out ++ bytes) e'.
Proof.
  intros d has_sd l out e s H S (E1 & E2 & E3).
  destruct (emit_step d has_sd l e s H S E3) as (bytes & e' & M & B & R & O).
  exists bytes, e'. split; auto. unfold emitted. rewrite records_of_snoc, map_app, concat_app.
  split; [congruence|]. split; auto. apply Forall_app. auto.
Qed.

(** Number of samples of an ordinary group. *)
Lemma occ_records : forall d has_sd l g, dg_ok d -> Forall (sample_ok d) l -> In g (d_groups d) ->
  occ (g_id g) (records_of d has_sd l) =
  if g_vlsd g then N.of_nat (length (group_values d (g_id g) l))
  else N.of_nat (length (filter (fun s => s_id s =? g_id g) l)).
Proof.
  intros d has_sd l g H. induction l as [|s l IH] using rev_ind; intros F Hg.
  - destruct (g_vlsd g); reflexivity.
  - apply Forall_app in F as [F1 F2]. inversion F2 as [|? ? S _]; subst.
    destruct S as ((k & Hk & Ek & NV & _) & _).
    rewrite records_of_snoc, occ_app, IH by auto.
    pose proof (find_cg_sample d s k H Hk Ek) as FC.
    assert (GO : group_of d s = Some (g_id k)) by (unfold group_of; rewrite FC; reflexivity).
    assert (KG : g_vlsd g = false -> (g_id k =? g_id g) = (s_id s =? g_id g)) by (rewrite Ek; auto).
    assert (KV : g_vlsd g = true -> (g_id k =? g_id g) = false).
    { intros V. apply N.eqb_neq. intros E. pose proof (same_group d k g H Hk Hg E). congruence. }
    rewrite group_values_snoc, filter_app, !app_length.
    unfold sample_records. rewrite GO. unfold in_vlsd.
    destruct (vlsd_group d s) as [v|] eqn:V.
    + destruct (vlsd_group_in d s v V) as [Hv Vv]. rewrite !occ_cons. cbn [r_id].
      change (occ (g_id g) []) with 0.
      destruct (g_vlsd g) eqn:VG.
      * rewrite (KV eq_refl). destruct (g_id v =? g_id g); cbn [length]; lia.
      * rewrite (KG eq_refl). cbn [filter].
        replace (g_id v =? g_id g) with false
          by (symmetry; apply N.eqb_neq; intros E; pose proof (same_group d v g H Hv Hg E); congruence).
        destruct (s_id s =? g_id g); cbn [length]; lia.
    + assert (O : forall r, r_id r = g_id k -> occ (g_id g) [r] = if g_id k =? g_id g then 1 else 0).
      { intros r Er. rewrite occ_cons, Er. change (occ (g_id g) []) with 0. destruct (g_id k =? g_id g); lia. }
      replace (occ (g_id g) (if s_has s && has_sd (g_id k) then _ else _))
        with (if g_id k =? g_id g then 1 else 0)
        by (destruct (s_has s && has_sd (g_id k)); rewrite O; reflexivity).
      destruct (g_vlsd g) eqn:VG.
      * rewrite (KV eq_refl). cbn [length]. lia.
      * rewrite (KG eq_refl). cbn [filter]. destruct (s_id s =? g_id g); cbn [length]; lia.
Qed.

(** The data group after writing satisfies the premises of the reading theorems. *)
Lemma with_counts_ids : forall d e, map g_id (d_groups (with_counts d e)) = map g_id (d_groups d).
Proof.
  intros. unfold with_counts. cbn [d_groups]. rewrite map_map. apply map_ext. intros g.
  destruct (g_vlsd g); reflexivity.
Qed.

Lemma with_counts_in : forall d e g', In g' (d_groups (with_counts d e)) ->
  exists g, In g (d_groups d) /\ g_id g' = g_id g /\ g_vlsd g' = g_vlsd g /\
    (g_vlsd g = false -> rec_size g' = rec_size g) /\ g_nof g' = e_cnt e (g_id g).
Proof.
  intros d e g' H. unfold with_counts in H. cbn [d_groups] in H. apply in_map_iff in H as (g & E & Hg).
  exists g. destruct (g_vlsd g) eqn:V; rewrite <- E; cbn; auto 8; try discriminate.
  repeat split; auto; discriminate.
Qed.

Lemma with_counts_in2 : forall d e g, In g (d_groups d) -> 
  exists g', In g' (d_groups (with_counts d e)) /\ g_id g' = g_id g /\ g_vlsd g' = g_vlsd g /\
    (g_vlsd g = false -> rec_size g' = rec_size g).
Proof.
  intros d e g H. unfold with_counts. cbn [d_groups].
  eexists. split; [apply in_map; exact H|]. destruct (g_vlsd g); cbn; auto.
  repeat split; auto; discriminate.
Qed.

Lemma with_counts_ok : forall d e, dg_ok d -> dg_ok (with_counts d e).
Proof.
  intros d e H. constructor.
  - intros E. apply (dg_some _ H). pose proof (with_counts_ids d e) as W. rewrite E in W.
    destruct (d_groups d); [reflexivity|discriminate].
  - rewrite with_counts_ids. apply dg_ids; auto.
  - apply (dg_size _ H).
  - intros g' Hg' Z. destruct (with_counts_in d e g' Hg') as (g & Hg & E & _). rewrite E.
    apply (dg_fit _ H); auto.
  - intros Z. unfold with_counts. cbn [d_groups]. rewrite map_length. apply (dg_single _ H Z).
  - intros g' Hg' Z V. destruct (with_counts_in d e g' Hg') as (g & Hg & E & E2 & E3 & _).
    rewrite V in E2. rewrite E3 by auto. apply (dg_bytes _ H); auto.
Qed.

Lemma with_counts_vlsd : forall d e id, vlsd_id (with_counts d e) id = vlsd_id d id.
Proof.
  intros. unfold vlsd_id, with_counts. cbn [d_groups]. generalize (d_groups d). induction l as [|g l IH]; [reflexivity|].
  cbn [map existsb]. rewrite IH. destruct (g_vlsd g); reflexivity.
Qed.

Lemma with_counts_rec_ok : forall d e r, rec_ok d r -> rec_ok (with_counts d e) r.
Proof.
  intros d e r (g & Hg & E & R). destruct (with_counts_in2 d e g Hg) as (g' & Hg' & E1 & E2 & E3).
  exists g'. split; auto. split; [congruence|]. rewrite E2. destruct (g_vlsd g); auto.
  rewrite E3 by auto. auto.
Qed.

Lemma with_counts_stream : forall d e recs, stream (with_counts d e) recs = stream d recs.
Proof.
  intros. unfold stream. f_equal. apply map_ext. intros r. unfold enc_rec.
  rewrite with_counts_vlsd. reflexivity.
Qed.

Lemma emitted_read : forall d has_sd l out e blocks fuel, dg_ok d -> emitted d has_sd l out e ->
  Forall (fun b => b <> []) blocks -> concat blocks = out -> (length out < fuel)%nat ->
  exists evs, read_data (with_counts d e) (fun _ => true) (fun _ => true) fuel blocks = Some (Ok evs) /\
    map ev_rec evs = records_of d has_sd l /\
    forall i ev, nth_error evs i = Some ev ->
      e_sample ev = occ (e_id ev) (firstn i (records_of d has_sd l)).
Proof.
  intros d has_sd l out e blocks fuel H (E1 & E2 & E3) NB CB LF.
  rewrite written_stream in E1 by auto.
  pose proof (with_counts_ok d e H) as H'.
  assert (R' : Forall (rec_ok (with_counts d e)) (records_of d has_sd l)).
  { eapply Forall_impl; [|exact E2]. intros r. apply with_counts_rec_ok. }
  exists (expected (with_counts d e) (fun _ => true) [] (records_of d has_sd l)). split.
  - rewrite (read_complete _ _ _ (records_of d has_sd l)); auto.
    + rewrite upto_all; [reflexivity|]. induction (expected _ _ _ _); cbn; auto.
    + rewrite with_counts_stream. congruence.
    + rewrite with_counts_stream. congruence.
  - apply (expected_all _ (with_counts d e) (fun _ => true) [] H'); auto.
    intros g' Hg'. destruct (with_counts_in d e g' Hg') as (g & Hg & F1 & _ & _ & F4).
    cbn [app]. rewrite F4, F1, (eo_cnt _ _ _ _ E3). lia.
Qed.

(* ------------------------------------------------------------------ *)
(** ** C16: the stored index is the offset of the value *)

Lemma offsets_from_nth : forall a p b off,
  nth_error (offsets_from off (a ++ p :: b)) (length a) = Some (off + chunks_len a, p).
Proof.
  induction a as [|x a IH]; intros; cbn [app offsets_from length nth_error].
  - change (chunks_len []) with 0. rewrite N.add_0_r. reflexivity.
  - rewrite IH. f_equal. f_equal. cbn [chunks_len fold_right]. fold (chunks_len a). lia.
Qed.

Lemma payloads_app : forall id a b, payloads id (a ++ b) = payloads id a ++ payloads id b.
Proof. intros. unfold payloads. rewrite filter_app, map_app. reflexivity. Qed.

(** The records of a VLSD group are the values stored in it. *)
Lemma payloads_records : forall d has_sd l v, dg_ok d -> Forall (sample_ok d) l -> In v (d_groups d) ->
  g_vlsd v = true -> payloads (g_id v) (records_of d has_sd l) = group_values d (g_id v) l.
Proof.
  intros d has_sd l v H. induction l as [|s l IH] using rev_ind; intros F Hv Vv; [reflexivity|].
  apply Forall_app in F as [F1 F2]. inversion F2 as [|? ? S _]; subst.
  destruct S as ((k & Hk & Ek & NV & _) & _).
  rewrite records_of_snoc, payloads_app, IH, group_values_snoc by auto. f_equal.
  pose proof (find_cg_sample d s k H Hk Ek) as FC.
  assert (GO : group_of d s = Some (g_id k)) by (unfold group_of; rewrite FC; reflexivity).
  assert (KV : (g_id k =? g_id v) = false).
  { apply N.eqb_neq. intros E. pose proof (same_group d k v H Hk Hv E). congruence. }
  unfold sample_records, in_vlsd. rewrite GO. destruct (vlsd_group d s) as [x|].
  - unfold payloads. cbn [filter r_id]. rewrite KV. destruct (g_id x =? g_id v); reflexivity.
  - unfold payloads. destruct (s_has s && has_sd (g_id k)); cbn [filter r_id]; rewrite KV; reflexivity.
Qed.

(** The number in the last 8 bytes of a record. *)
Definition stored_index (rec : list N) : N := le_num (skipn (length rec - 8) rec).

Lemma stored_patch : forall rec x, (8 <= length rec)%nat -> x < 2 ^ 64 ->
  stored_index (patch_index rec x) = x /\
  firstn (length rec - 8) (patch_index rec x) = firstn (length rec - 8) rec.
Proof.
  intros rec x L B. unfold stored_index. rewrite patch_length. unfold patch_index.
  replace (8 <=? length rec)%nat with true by (symmetry; apply Nat.leb_le; auto).
  assert (LF : length (firstn (length rec - 8) rec) = (length rec - 8)%nat) by (rewrite firstn_length; lia).
  split.
  - rewrite skipn_app, LF, Nat.sub_diag, (skipn_all2 (firstn (length rec - 8) rec)) by lia.
    cbn [app skipn]. rewrite le_num_bytes. unfold w64. rewrite (N.mod_small x) by auto.
    apply N.mod_small. exact B.
  - rewrite firstn_app, LF, Nat.sub_diag, firstn_O, app_nil_r, firstn_firstn, Nat.min_id. reflexivity.
Qed.
