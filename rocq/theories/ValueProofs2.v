(** The samples of the sample queue as the observers of a reader of the finished file show them. *)
From Verif Require Import Base BlockModel StreamModel StreamSpec StreamProofs StreamProofs2 QueueModel QueueSpec EncProofs ObsModel ObsSpec ObsProofs ObsProps
  MetaModel MetaSpec IdentModel IdentSpec MeasModel MeasSpec MeasProofs4 MeasProofs5 MeasStream MeasProps.
Local Open Scope N_scope.
Local Open Scope list_scope.

Definition none : N -> bool := fun _ => false.
Definition plain_sample (s : sample) : Prop := s_has s = false.
Definition rec_of (s : sample) : srec := Rec (s_id s) (s_rec s).

Lemma plain_group : forall d s, sample_ok d s -> QueueSpec.group_of d s = Some (s_id s).
Proof.
  intros d s ((g & G & E & _) & _). unfold QueueSpec.group_of, find_cg_record_id. rewrite <- E.
  assert (X : option_map g_id (find (fun x => g_id x =? g_id g) (d_groups d)) = Some (g_id g)).
  { destruct (find (fun x => g_id x =? g_id g) (d_groups d)) as [x|] eqn:F.
    - apply find_some in F. destruct F as [_ F]. cbn [option_map]. f_equal. apply N.eqb_eq. exact F.
    - exfalso. pose proof (find_none _ _ F g G) as X. cbn beta in X. rewrite N.eqb_refl in X. discriminate X. }
  destruct (d_groups d) as [|a [|b l]]; [destruct G| |exact X]. destruct G as [->|[]]. reflexivity.
Qed.
Lemma plain_records : forall d l, Forall (sample_ok d) l -> Forall plain_sample l -> records_of d none l = map rec_of l.
Proof.
  intros d l. unfold records_of. generalize (@nil sample). induction l as [|s l IH]; intros p F P; [reflexivity|].
  inversion F; inversion P; subst. cbn [records_from map]. rewrite IH by auto.
  unfold sample_records. rewrite plain_group by auto. unfold vlsd_group. rewrite H5. reflexivity.
Qed.

Lemma plain_payloads : forall id l, payloads id (map rec_of l) = map s_rec (filter (fun s => s_id s =? id) l).
Proof.
  intros id. unfold payloads. induction l as [|s l IH]; [reflexivity|]. cbn [map filter]. cbn [rec_of r_id].
  destruct (s_id s =? id); cbn [map]; rewrite IH; reflexivity.
Qed.
Lemma plain_occ : forall id l, occ id (map rec_of l) = N.of_nat (length (filter (fun s => s_id s =? id) l)).
Proof.
  intros id l. unfold occ. f_equal. induction l as [|s l IH]; [reflexivity|]. cbn [map filter]. cbn [rec_of r_id].
  destruct (s_id s =? id); cbn [length]; rewrite IH; reflexivity.
Qed.
Lemma space_bound : forall d id a l, (forall s, In s l -> s_id s = id -> (a <= length (s_rec s))%nat) ->
  (length (filter (fun s => s_id s =? id)%N l) * a <= length (stream d (map rec_of l)))%nat.
Proof.
  intros d id a. induction l as [|s l IH]; intros H; [cbn; lia|]. cbn [filter map].
  change (stream d (rec_of s :: map rec_of l)) with (enc_rec d (rec_of s) ++ stream d (map rec_of l)).
  specialize (IH (fun s' I => H s' (or_intror I))). rewrite app_length.
  assert (B : (length (s_rec s) <= length (enc_rec d (rec_of s)))%nat) by (unfold enc_rec; rewrite !app_length; cbn [rec_of r_data]; lia).
  destruct (N.eqb_spec (s_id s) id) as [E|E]; cbn [length]; [|lia]. specialize (H s (or_introl eq_refl) E). lia.
Qed.

Lemma counted_nof : forall ops k l d e, counters k ops = Some e -> forall id, In id (map g_id (StreamModel.d_groups (dgroup_of d))) ->
  nof_of (dgroup_of (dg_form (dg_after ops k l d))) id = w64 (e_cnt e id).
Proof.
  intros ops k l d e EC id I. unfold nof_of. cbn [dgroup_of StreamModel.d_groups dg_form dg_after d_cgs] in *.
  rewrite EC. rewrite !map_map in *. induction (d_cgs d) as [|g gs IH]; [destruct I|]. cbn [map find].
  cbn [MeasModel.group_of cg_form counted StreamModel.g_id StreamModel.g_nof g_record g_samples] in *.
  destruct (N.eqb_spec (g_record g) id) as [->|NE]; [reflexivity|]. apply IH. destruct I as [I|I]; [contradiction|exact I].
Qed.

(** The observers of a reader of the file, for the samples of a save. *)
Lemma file_observed : forall i h ops k d l e, id_texts i -> id_numbers i -> hd_ok h -> calls_ok h ops -> in_turn ops ->
  nth_error (h_dgs h) k = Some d -> StreamSpec.dg_ok (dgroup_of d) -> In k (sources ops) ->
  Forall (sample_ok (dgroup_of d)) l -> Forall plain_sample l ->
  EncProofs.emitted (dgroup_of d) none l (saved k ops) e -> counters k ops = Some e ->
  exists m, bind (init_meas i h) (mrun ops) = Ok m /\
  forall x, N.of_nat (length (m_file m ++ x)) < 2 ^ 63 ->
  exists enough, forall fuel, (enough <= fuel)%nat ->
  exists h' p blocks, let d' := dg_form (dg_after ops k p d) in
    read_file fuel (m_file m ++ x) = Ok (id_trimmed i, h') /\
    nth_error (h_dgs h') k = Some d' /\
    (forall id, In id (map g_record (d_cgs d)) -> nof_of (dgroup_of d') id = N.of_nat (length (filter (fun s => s_id s =? id) l))) /\
    (forall inflate, group_data inflate (m_file m ++ x) d' = Some (Ok blocks)) /\
    forall T (t0 : T) (ch : ObsModel.chan T) rv ids g0 q,
      let needs := needs_of ids in
      let og := init_fast needs (map g_record (d_cgs d')) g0 in
      q <> 0 -> In q (do_list g0) -> In (h_rid ch) (ids q) -> In (h_rid ch) (map g_record (d_cgs d)) ->
      (h_kind ch <> KVariable \/ h_vlsd ch = 0) ->
      (forall s, In s l -> s_id s = h_rid ch -> (N.to_nat (h_asize ch) <= length (s_rec s))%nat) ->
      exists evs,
        read_data (dgroup_of d') (subscribing needs g0) (fun ev => fst (notify_obs (noted yes) og ev [])) fuel blocks = Some (Ok evs) /\
        forall n s idx, nth_error (filter (fun s => s_id s =? h_rid ch) l) n = Some s -> idx < h_asize ch ->
          get_sample t0 ch (run_obs ch rv (calls_of q (all_calls yes og evs)) (cobs_new t0 ch (nof_of (dgroup_of d') (h_rid ch)))) (N.of_nat n) idx
          = of_record t0 ch rv (N.of_nat n) (s_rec s) idx.
Proof.
  intros i h ops k d l e IT IN OK CO TU Ed DO K F P EM EC.
  destruct (C69_file i h ops IT IN OK CO TU) as (m & E & R). exists m. split; [exact E|]. intros x LX.
  destruct (R x LX) as [n RF]. clear R.
  destruct (emitted_parts _ _ _ _ _ DO EM) as (E1 & E2 & E3 & E4). rewrite plain_records in E1, E2, E3 by auto.
  exists (n + S (length (saved k ops)))%nat. intros fuel LF.
  destruct (RF fuel ltac:(lia)) as (h' & EF & _ & _ & _ & DG). destruct (DG k d Ed) as (p & Ek & GD & _). clear DG RF.
  cbv zeta in Ek, GD. exists h', p, [saved k ops]. intros d'. fold d' in Ek, GD.
  assert (LS : N.of_nat (length (saved k ops)) < 2 ^ 63).
  { specialize (GD K (fun _ _ => [])). unfold group_data in GD.
    destruct (run_inv i h ops OK CO TU) as (m' & hk & W & T & b & E' & I). rewrite E in E'. injection E' as <-.
    destruct (iv_dt _ _ _ _ _ _ _ _ _ _ _ _ I k K) as (bk & _ & _ & _ & _ & _ & [HB _]). rewrite dt_bytes_length in HB.
    rewrite app_length in LX. lia. }
  assert (CNT : forall id, In id (map g_record (d_cgs d)) -> nof_of (dgroup_of d') id = N.of_nat (length (filter (fun s => s_id s =? id) l))).
  { intros id Hi. unfold d'. rewrite (counted_nof ops k p d e EC).
    - rewrite E3, plain_occ. unfold w64. apply N.mod_small. rewrite <- plain_occ.
      pose proof (occ_bytes _ _ id DO E2) as OB. rewrite <- E1 in OB. change (2 ^ 63) with 9223372036854775808 in LS.
      change (2 ^ 64) with 18446744073709551616. lia.
    - cbn [dgroup_of StreamModel.d_groups]. rewrite map_map. exact Hi. }
  split; [exact EF|]. split; [exact Ek|]. split; [exact CNT|]. split; [intros inflate; apply GD; exact K|].
  intros T t0 ch rv ids g0 q needs og Q1 Q2 Q3 Q4 Q5 Q6.
  assert (AL : alike (dgroup_of d) (dgroup_of d')) by apply alike_after.
  destruct l as [|s0 l0] eqn:EL.
  { exists []. split; [|intros [|n'] s idx X; discriminate X]. rewrite E1. cbn [map stream concat].
    destruct fuel as [|fuel]; [lia|]. unfold read_data.
    cbn [concat app length read_loop]. unfold parse_record. destruct (StreamModel.d_groups (dgroup_of d')) as [|g gl]; reflexivity. }
  rewrite <- EL in *. assert (NE : l <> []) by (rewrite EL; discriminate). clear EL s0 l0.
  assert (IDS : map g_record (d_cgs d') = map g_id (StreamModel.d_groups (dgroup_of d'))).
  { cbn [dgroup_of StreamModel.d_groups]. rewrite map_map. reflexivity. }
  assert (IDS2 : map g_id (StreamModel.d_groups (dgroup_of d')) = map g_record (d_cgs d)).
  { rewrite (alike_ids _ _ (proj2 AL)). cbn [dgroup_of StreamModel.d_groups]. rewrite map_map. reflexivity. }
  destruct (C52_file T t0 ch rv (dgroup_of d') (map rec_of l) [saved k ops] fuel ids g0 q) as (evs & RD & SH); auto.
  - eapply alike_ok; eauto.
  - eapply Forall_impl; [|exact E2]. intros r. apply alike_rec. exact AL.
  - constructor; [|constructor]. intros Z. rewrite Z in E1. destruct l as [|s l]; [congruence|].
    inversion E2 as [|? ? R1 R2]; subst. pose proof (enc_rec_pos _ (rec_of s) DO R1) as PO.
    cbn [map] in E1. change (stream (dgroup_of d) (rec_of s :: map rec_of l)) with (enc_rec (dgroup_of d) (rec_of s) ++ stream (dgroup_of d) (map rec_of l)) in E1.
    destruct (enc_rec (dgroup_of d) (rec_of s)); [cbn in PO; lia|discriminate E1].
  - cbn [concat]. rewrite app_nil_r, (alike_stream _ _ _ AL). exact E1.
  - rewrite (alike_stream _ _ _ AL), <- E1. lia.
  - rewrite IDS2. exact Q4.
  - rewrite CNT by exact Q4. pose proof (space_bound (dgroup_of d) (h_rid ch) (N.to_nat (h_asize ch)) l Q6) as SB.
    rewrite <- E1 in SB. apply (N.le_lt_trans _ (N.of_nat (length (saved k ops)))).
    + clear - SB. rewrite <- (N2Nat.id (h_asize ch)), <- Nat2N.inj_mul. lia.
    + change (2 ^ 63) with 9223372036854775808 in LS. change (2 ^ 64) with 18446744073709551616. lia.
  - cbv zeta in RD, SH. unfold og, needs. rewrite IDS. exists evs. split; [exact RD|]. intros n' s idx NS Hi.
    rewrite SH; auto.
    + rewrite Nat2N.id, plain_payloads, nth_error_map, NS. reflexivity.
    + rewrite CNT by exact Q4. assert (n' < length (filter (fun s => s_id s =? h_rid ch)%N l))%nat by (apply nth_error_Some; rewrite NS; discriminate). lia.
Qed.
