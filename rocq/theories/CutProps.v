(** C70: a call that is interrupted leaves a readable file. *)
From Verif Require Import Base BlockModel BlockSpec BlockProofs MetaModel MetaSpec DataModel IdentModel IdentSpec QueueModel
  MeasModel MeasSpec MeasProofs2 MeasProofs4 MeasProofs5 MeasStream MetaProps IdentProps MeasProps CutModel CutSpec CutProofs CutProofs2.
From Verif Require StreamModel StreamSpec QueueSpec EncProofs.
Local Open Scope N_scope.

(** The writes of a call make the file that the call leaves. *)
Theorem C70_writes : forall i h ops o, hd_ok h -> calls_ok h (ops ++ [o]) -> in_turn (ops ++ [o]) ->
  exists m m', bind (init_meas i h) (mrun ops) = Ok m /\ mstep o m = Ok m' /\
  puts (m_file m) (op_steps o m) = m_file m'.
Proof.
  intros i h ops o OK CO TU.
  destruct (run_inv i h ops OK (calls_prefix _ _ _ CO) (in_turn_prefix _ _ TU)) as (m & hk & W & T & b & E & I).
  destruct (run_inv i h (ops ++ [o]) OK CO TU) as (m' & _ & _ & _ & _ & E' & _).
  assert (EB : bind (init_meas i h) (mrun (ops ++ [o])) = bind (bind (init_meas i h) (mrun ops)) (mstep o)).
  { destruct (init_meas i h) as [m0| |]; [|reflexivity|reflexivity]. cbn [bind]. apply mrun_snoc. }
  rewrite EB, E in E'. cbn [bind] in E'. exists m, m'. split; [exact E|]. split; [exact E'|].
  destruct o as [t|k bytes e|]; cbn [mstep op_steps] in *.
  - injection E' as <-. reflexivity.
  - destruct CO as [CO _]. rewrite sources_app in CO. cbn [sources flat_map app] in CO.
    destruct (CO k ltac:(apply in_or_app; right; left; reflexivity)) as (d & Ed & Ld).
    destruct (save_cut _ _ _ _ _ _ _ _ _ _ _ _ k d bytes e I Ed) as [SC _].
    { intros K. apply last_head; [exact K|]. apply (TU (sources ops) k []); [|exact K]. rewrite sources_app. reflexivity. }
    { intros K. split; [exact Ld|]. apply saved_none. exact K. }
    symmetry. apply SC. exact E'.
  - injection E' as <-. reflexivity.
Qed.
Print Assumptions C70_writes.

(** Any sequence of calls, and the process stops after any number of writes of the next call: the
    file is read. The identification and the description are unchanged, except for the start time and
    the counters, which are each the old or the new value. The data of each data group is the data
    saved before the call, or all of the call is in the file. *)
Theorem C70_interrupted : forall i h ops o, id_texts i -> id_numbers i -> hd_ok h ->
  calls_ok h (ops ++ [o]) -> in_turn (ops ++ [o]) ->
  exists m m', bind (init_meas i h) (mrun ops) = Ok m /\ mstep o m = Ok m' /\
  forall j, let F := cut j o m in N.of_nat (length F) < 2 ^ 63 ->
  exists enough, forall fuel, (enough <= fuel)%nat ->
  exists h', read_file fuel F = Ok (id_trimmed i, h') /\
    (h_time h' = stored_time (h_time h) ops \/ h_time h' = stored_time (h_time h) (ops ++ [o])) /\
    (h_class h', h_flags h', h_angle h', h_distance h', h_md h', h_fhs h', h_ats h', h_chs h', h_evs h') =
    (h_class h, h_flags h, h_angle h, h_distance h, h_md h, h_fhs h, h_ats h, h_chs h, h_evs h) /\
    length (h_dgs h') = length (h_dgs h) /\
    forall k d, nth_error (h_dgs h) k = Some d -> exists l gs,
      let d' := dg_form (mkDg (d_idsize d) (d_md d) l gs) in
      nth_error (h_dgs h') k = Some d' /\
      Forall2 (between (counters k ops) (counters k (ops ++ [o]))) (d_cgs d) gs /\
      (In k (sources (ops ++ [o])) -> exists blocks,
         (forall inflate, group_data inflate F d' = Some (Ok blocks)) /\
         ((blocks = [] \/ exists x, blocks = [x]) /\ concat blocks = saved k ops \/
          F = m_file m' /\ gs = map (counted (counters k (ops ++ [o]))) (d_cgs d) /\ blocks = [saved k (ops ++ [o])])) /\
      (~ In k (sources (ops ++ [o])) -> l = d_link d).
Proof.
  intros i h ops o IT IN OK CO TU.
  destruct (C70_writes i h ops o OK CO TU) as (m & m' & E & E' & EA).
  exists m, m'. split; [exact E|]. split; [exact E'|]. intros j F LF.
  match goal with |- ?G => assert (OLD : forall x, F = m_file m ++ x -> G); [|assert (NEW : F = m_file m' -> G)] end.
  { intros x EF. destruct (C69_file i h ops IT IN OK (calls_prefix _ _ _ CO) (in_turn_prefix _ _ TU)) as (m1 & E1 & R).
    rewrite E in E1. injection E1 as <-. rewrite EF in *. destruct (R x LF) as [n RF]. exists n. intros fuel L.
    destruct (RF fuel L) as (h' & A1 & A2 & A3 & A4 & A5). exists h'. split; [exact A1|]. split; [left; exact A2|].
    split; [exact A3|]. split; [exact A4|]. intros k d Ed. destruct (A5 k d Ed) as (l & B1 & B2 & B3).
    exists l, (map (counted (counters k ops)) (d_cgs d)). cbv zeta. unfold dg_after in *.
    split; [exact B1|]. split; [apply Forall2_map_r; intros g; apply between_l|]. split.
    - intros K. destruct (in_dec Nat.eq_dec k (sources ops)) as [K1|K1].
      + exists [saved k ops]. split; [intros; apply B2; exact K1|]. left. split; [right; eauto|]. cbn [concat]. apply app_nil_r.
      + exists []. split; [|left; split; [left; reflexivity|rewrite saved_none by exact K1; reflexivity]].
        intros inflate. apply no_data. cbn [dg_form d_link]. rewrite (B3 K1). destruct CO as [CO _].
        destruct (CO k K) as (d1 & Ed1 & L1). rewrite Ed in Ed1. apply some_eq in Ed1. subst d1. exact L1.
    - intros K. apply B3. intros X. apply K. rewrite sources_app. apply in_or_app. left. exact X. }
  { intros EF. destruct (C69_file i h (ops ++ [o]) IT IN OK CO TU) as (m1 & E1 & R).
    assert (EB : bind (init_meas i h) (mrun (ops ++ [o])) = bind (bind (init_meas i h) (mrun ops)) (mstep o)).
    { destruct (init_meas i h) as [m0| |]; [|reflexivity|reflexivity]. cbn [bind]. apply mrun_snoc. }
    rewrite EB, E in E1. cbn [bind] in E1. rewrite E' in E1. injection E1 as <-.
    specialize (R []). rewrite app_nil_r in R. rewrite EF in *. destruct (R LF) as [n RF]. exists n. intros fuel L.
    destruct (RF fuel L) as (h' & A1 & A2 & A3 & A4 & A5). exists h'. split; [exact A1|]. split; [right; exact A2|].
    split; [exact A3|]. split; [exact A4|]. intros k d Ed. destruct (A5 k d Ed) as (l & B1 & B2 & B3).
    exists l, (map (counted (counters k (ops ++ [o]))) (d_cgs d)). cbv zeta. unfold dg_after in *.
    split; [exact B1|]. split; [apply Forall2_map_r; intros g; apply between_r|]. split; [|exact B3].
    intros K. exists [saved k (ops ++ [o])]. split; [intros; apply B2; exact K|]. right. auto. }
  destruct (Nat.le_gt_cases (length (op_steps o m)) j) as [LJ|LJ].
  { apply NEW. unfold F, cut. rewrite firstn_all2 by exact LJ. exact EA. }
  destruct (run_inv i h ops OK (calls_prefix _ _ _ CO) (in_turn_prefix _ _ TU)) as (m1 & hk & W & T & b & E1 & I).
  rewrite E in E1. injection E1 as <-.
  destruct o as [t|k bytes e|].
  - cbn [op_steps length] in LJ. lia.
  - cbn [op_steps] in LJ. pose proof CO as [CK _]. rewrite sources_app in CK. cbn [sources flat_map app] in CK.
    destruct (CK k ltac:(apply in_or_app; right; left; reflexivity)) as (d0 & Ed0 & Ld0).
    destruct (save_cut _ _ _ _ _ _ _ _ _ _ _ _ k d0 bytes e I Ed0) as [_ SC].
    { intros K. apply last_head; [exact K|]. apply (TU (sources ops) k []); [|exact K]. rewrite sources_app. reflexivity. }
    { intros K. split; [exact Ld0|]. apply saved_none. exact K. }
    destruct (SC j LJ) as [[x EX]|(m1 & hk1 & W1 & T1 & gs2 & W2 & x & I1 & EW & LW & EF & BT)]; [apply (OLD x); exact EX|].
    change (puts (m_file m) (firstn j (save_steps k bytes e m))) with F in EF. clear SC OLD NEW I.
    assert (LM : N.of_nat (length (m_file m1)) < 2 ^ 63).
    { rewrite EF in LF. rewrite (iv_file _ _ _ _ _ _ _ _ _ _ _ _ I1). rewrite !app_length in *. lia. }
    pose proof (inv_hd_ok _ _ _ _ _ _ _ _ _ _ _ _ OK (proj2 (calls_prefix _ _ _ CO)) I1 LM) as OK1.
    pose proof (iv_dgs _ _ _ _ _ _ _ _ _ _ _ _ I1 k d0 Ed0) as Ek.
    pose proof (set_cgs_ok _ _ _ _ _ _ _ _ OK OK1 Ed0 Ek BT) as OK2.
    destruct (file_read i _ W2 b IT IN OK2 EW) as [n RD].
    { rewrite LW. rewrite (iv_file _ _ _ _ _ _ _ _ _ _ _ _ I1), app_length in LM. lia. }
    exists n. intros fuel L. eexists. split; [rewrite EF; apply RD; exact L|].
    pose proof (iv_hk _ _ _ _ _ _ _ _ _ _ _ _ I1) as EH.
    split; [left; rewrite EH; reflexivity|]. split; [rewrite EH; reflexivity|].
    split; [cbn [hd_form h_dgs]; rewrite map_length, set_dgs_dgs, upd_length; apply (iv_len _ _ _ _ _ _ _ _ _ _ _ _ I1)|].
    assert (SR : forall q, In q (sources (ops ++ [MSave k bytes e])) <-> In q (k :: sources ops)).
    { intros q. rewrite sources_app, in_app_iff. cbn [sources flat_map app In]. tauto. }
    assert (DATA : forall q d gs, nth_error (h_dgs h) q = Some d -> In q (sources (ops ++ [MSave k bytes e])) ->
      forall inflate, group_data inflate F (dg_form (mkDg (d_idsize d) (d_md d) (link_of (m_dts m1) q d) gs)) = Some (Ok [saved q ops])).
    { intros q d gs Ed K inflate. apply SR in K. destruct (iv_dt _ _ _ _ _ _ _ _ _ _ _ _ I1 q K) as (bq & Fq & _ & _ & _ & Wq & Hq).
      pose proof (iv_ne _ _ _ _ _ _ _ _ _ _ _ _ I1) as NE.
      apply (dt_read inflate _ (b_pos bq)); [|lia|exact LF|].
      - rewrite EF, app_assoc. apply holds_ext. rewrite (iv_file _ _ _ _ _ _ _ _ _ _ _ _ I1) in Hq. revert Hq. apply holds_swap; auto.
      - cbn [dg_form d_link]. unfold link_of. rewrite Fq. reflexivity. }
    intros q d Ed. exists (link_of (m_dts m1) q d), (if (q =? k)%nat then gs2 else map (counted (counters q ops)) (d_cgs d)).
    cbv zeta. pose proof (iv_dgs _ _ _ _ _ _ _ _ _ _ _ _ I1 q d Ed) as Eq.
    split.
    { cbn [hd_form h_dgs]. rewrite nth_error_map, set_dgs_dgs, upd_nth_error, Eq.
      destruct (q =? k)%nat; cbn [option_map]; reflexivity. }
    split.
    { rewrite counters_snoc, (Nat.eqb_sym k q). destruct (Nat.eqb_spec q k) as [EQ|NQ].
      - subst q. rewrite Ed0 in Ed. apply some_eq in Ed. subst d0. exact BT.
      - apply Forall2_map_r. intros g. apply between_l. }
    split.
    + intros K. exists [saved q ops]. split; [apply DATA; auto|]. left. split; [right; eauto|]. cbn [concat]. apply app_nil_r.
    + intros K. unfold link_of. rewrite (iv_none _ _ _ _ _ _ _ _ _ _ _ _ I1 q); [reflexivity|]. rewrite <- SR. exact K.
  - destruct j as [|j].
    + apply (OLD []). unfold F, cut. cbn [firstn]. rewrite app_nil_r. reflexivity.
    + apply NEW. cbn [mstep] in E'. injection E' as <-. unfold F, cut. cbn [op_steps].
      apply (final_cut _ _ _ _ _ _ _ _ _ _ _ _ I). lia.
Qed.
Print Assumptions C70_interrupted.

Lemma counted_plain : forall c g, is_vlsd g = false -> g_data (counted c g) = g_data g /\ g_inval (counted c g) = g_inval g.
Proof. intros [e|] g V; [|auto]. rewrite vlsd_bit in V. unfold counted. cbn [g_data g_inval]. rewrite V. auto. Qed.

Lemma between_alike : forall c c' gs gs2, Forall2 (between c c') gs gs2 ->
  Forall2 alike_group (map group_of gs) (map group_of (map cg_form gs2)).
Proof.
  intros c c' gs gs2 B. induction B as [|g g2 gs gs2 (s & da & di & -> & Hs & Hd & Hi) B IH]; cbn [map]; constructor; auto.
  unfold alike_group, group_of, cg_form, is_vlsd. cbn [StreamModel.g_id StreamModel.g_vlsd StreamModel.g_data StreamModel.g_inval
    g_record g_data g_inval g_flags]. split; [reflexivity|]. split; [reflexivity|]. intros V.
  destruct (counted_plain c g V) as [C1 C2]. destruct (counted_plain c' g V) as [D1 D2].
  split; [destruct Hd as [->| ->]; auto|destruct Hi as [->| ->]; auto].
Qed.

Lemma occ_app : forall id a b, StreamSpec.occ id (a ++ b) = StreamSpec.occ id a + StreamSpec.occ id b.
Proof. intros id a b. unfold StreamSpec.occ. rewrite filter_app, app_length. lia. Qed.

Lemma counters_none : forall k ops, ~ In k (sources ops) -> counters k ops = None.
Proof.
  intros k ops. induction ops as [|o ops IH] using rev_ind; intros H; [reflexivity|]. rewrite counters_snoc.
  rewrite sources_app in H. destruct o as [t|q x e|]; [| |]; try (apply IH; intros X; apply H; apply in_or_app; left; exact X).
  destruct (Nat.eqb_spec q k) as [EQ|NQ]; [|apply IH; intros X; apply H; apply in_or_app; left; exact X].
  exfalso. apply H. apply in_or_app. right. left. exact EQ.
Qed.

(** The records: [l1] are the samples saved before the call, [l2] those of the call. A reader of the
    interrupted file gets all records of [l1] in order and nothing else, or the call is complete and
    the reader gets those of [l2] too. *)
Theorem C70_records : forall i h ops o k d hs l1 l2 e1 e2, id_texts i -> id_numbers i -> hd_ok h ->
  calls_ok h (ops ++ [o]) -> in_turn (ops ++ [o]) ->
  nth_error (h_dgs h) k = Some d -> StreamSpec.dg_ok (dgroup_of d) -> In k (sources (ops ++ [o])) ->
  EncProofs.emitted (dgroup_of d) hs l1 (saved k ops) e1 -> (In k (sources ops) -> counters k ops = Some e1) ->
  EncProofs.emitted (dgroup_of d) hs (l1 ++ l2) (saved k (ops ++ [o])) e2 -> counters k (ops ++ [o]) = Some e2 ->
  N.of_nat (length (saved k (ops ++ [o]))) < 2 ^ 64 ->
  exists m m', bind (init_meas i h) (mrun ops) = Ok m /\ mstep o m = Ok m' /\
  forall j, let F := cut j o m in N.of_nat (length F) < 2 ^ 63 ->
  exists enough, forall fuel, (enough <= fuel)%nat ->
  exists h' d' blocks evs, read_file fuel F = Ok (id_trimmed i, h') /\
    nth_error (h_dgs h') k = Some d' /\
    (forall inflate, group_data inflate F d' = Some (Ok blocks)) /\
    StreamModel.read_data (dgroup_of d') (fun _ => true) (fun _ => true) fuel blocks = Some (Ok evs) /\
    (map StreamSpec.ev_rec evs = QueueSpec.records_of (dgroup_of d) hs l1 \/
     F = m_file m' /\ map StreamSpec.ev_rec evs = QueueSpec.records_of (dgroup_of d) hs (l1 ++ l2)).
Proof.
  intros i h ops o k d hs l1 l2 e1 e2 IT IN OK CO TU Ed DO K EM1 EC1 EM2 EC2 LS.
  destruct (C70_interrupted i h ops o IT IN OK CO TU) as (m & m' & E & E' & R). exists m, m'.
  split; [exact E|]. split; [exact E'|]. intros j F LF. destruct (R j LF) as [n RF]. clear R.
  destruct (emitted_parts _ _ _ _ _ DO EM1) as (A1 & A2 & A3 & _).
  destruct (emitted_parts _ _ _ _ _ DO EM2) as (B1 & B2 & B3 & _).
  set (r1 := QueueSpec.records_of (dgroup_of d) hs l1) in *. set (r2 := QueueSpec.records_of (dgroup_of d) hs (l1 ++ l2)) in *.
  assert (RM : forall id, StreamSpec.occ id r1 <= StreamSpec.occ id r2).
  { intros id. unfold r1, r2, QueueSpec.records_of. rewrite EncProofs.records_from_app, occ_app. lia. }
  assert (N2 : forall id, w64 (e_cnt e2 id) = StreamSpec.occ id r2).
  { intros id. rewrite B3. unfold w64. apply N.mod_small. pose proof (occ_bytes _ _ id DO B2) as OB. rewrite <- B1 in OB. lia. }
  exists (n + S (length (saved k (ops ++ [o])) + length (saved k ops)))%nat. intros fuel L.
  destruct (RF fuel ltac:(lia)) as (h' & ER & _ & _ & _ & DG). destruct (DG k d Ed) as (l & gs & Ek & BT & GD & _). clear DG RF.
  destruct (GD K) as (blocks & GB & CASE). clear GD. set (d' := dg_form (mkDg (d_idsize d) (d_md d) l gs)) in *.
  assert (AL : alike (dgroup_of d) (dgroup_of d')) by (split; [reflexivity|]; apply (between_alike _ _ _ _ BT)).
  destruct CASE as [(SH & CB)|(EF & EG & ->)].
  - assert (LOW : forall g', In g' (StreamModel.d_groups (dgroup_of d')) -> StreamSpec.occ (StreamModel.g_id g') r1 <= StreamModel.g_nof g').
    { intros g' G. cbn [d' dgroup_of dg_form d_cgs StreamModel.d_groups] in G. rewrite map_map in G. apply in_map_iff in G.
      destruct G as (g2 & <- & G2). apply In_nth_error in G2 as [q G2].
      assert (X : exists g, between (counters k ops) (counters k (ops ++ [o])) g g2).
      { clear - BT G2. revert q G2. induction BT as [|x y xs ys XY B IH]; intros [|q] G; try discriminate; [|eauto].
        cbn in G. apply some_eq in G. subst y. eauto. }
      destruct X as (g & s & da & di & -> & Hs & _ & _).
      cbn [group_of cg_form StreamModel.g_id StreamModel.g_nof g_record g_samples]. destruct Hs as [->| ->].
      - destruct (in_dec Nat.eq_dec k (sources ops)) as [K1|K1].
        + rewrite (EC1 K1). cbn [counted g_samples]. rewrite A3. unfold w64. rewrite N.mod_small; [lia|].
          pose proof (occ_bytes _ _ (g_record g) DO B2) as OB. rewrite <- B1 in OB. specialize (RM (g_record g)). lia.
        + rewrite saved_none in A1 by exact K1. pose proof (occ_bytes _ _ (g_record g) DO A2) as OB. rewrite <- A1 in OB.
          cbn [length] in OB. lia.
      - rewrite EC2. cbn [counted g_samples]. rewrite N2. apply RM. }
    destruct (read_alike (dgroup_of d) (dgroup_of d') r1 fuel DO AL A2 LOW) as (evs & RD & M1 & _).
    { rewrite <- A1. lia. }
    destruct SH as [->|[x ->]].
    + exists h', d', [], []. split; [exact ER|]. split; [exact Ek|]. split; [exact GB|]. split; [reflexivity|]. left.
      cbn [concat] in CB. rewrite <- CB in A1. destruct r1 as [|r t]; [reflexivity|]. inversion A2 as [|? ? R1 R2]; subst.
      pose proof (StreamProofs.enc_rec_pos (dgroup_of d) r DO R1) as P.
      change (StreamSpec.stream (dgroup_of d) (r :: t)) with (StreamSpec.enc_rec (dgroup_of d) r ++ StreamSpec.stream (dgroup_of d) t) in A1.
      destruct (StreamSpec.enc_rec (dgroup_of d) r); [cbn in P; lia|discriminate].
    + exists h', d', [x], evs. cbn [concat] in CB. rewrite app_nil_r in CB. subst x.
      split; [exact ER|]. split; [exact Ek|]. split; [exact GB|]. rewrite A1. split; [exact RD|]. left. exact M1.
  - destruct (read_alike (dgroup_of d) (dgroup_of d') r2 fuel DO AL B2) as (evs & RD & M1 & _).
    { intros g' G. cbn [d' dgroup_of dg_form d_cgs StreamModel.d_groups] in G. rewrite EG, !map_map in G. apply in_map_iff in G.
      destruct G as (g & <- & _). rewrite EC2. cbn [group_of cg_form counted StreamModel.g_id StreamModel.g_nof g_record g_samples].
      rewrite N2. lia. }
    { rewrite <- B1. lia. }
    exists h', d', [saved k (ops ++ [o])], evs. split; [exact ER|]. split; [exact Ek|]. split; [exact GB|].
    rewrite B1. split; [exact RD|]. right. split; [exact EF|exact M1].
Qed.
Print Assumptions C70_records.

(** The second save of the measurement of C69, cut after the appended bytes and one counter: the
    counter of the first channel group is new, the data is old. *)
Definition before1 : list mop := firstn 2 calls1.
Definition save1 : mop := nth 2 calls1 MFinal.

Definition view (f : file) : option (list N * option (res (list (list N)))) :=
  match read_file 100 f with
  | Ok (_, h) => match h_dgs h with
                 | d :: _ => Some (map g_samples (d_cgs d), group_data (fun _ _ => []) f d)
                 | _ => None
                 end
  | _ => None
  end.
Definition cuts (o : mop) (r : res meas) (js : list nat) : list (option (list N * option (res (list (list N))))) :=
  match r with
  | Ok m => map (fun j => view (cut j o m)) js
  | _ => []
  end.

Example C70_witness : hd_ok meas1 /\ calls_ok meas1 (before1 ++ [save1]) /\ in_turn (before1 ++ [save1]) /\
  nth_error (h_dgs meas1) 0 = Some dg1 /\ In 0%nat (sources (before1 ++ [save1])) /\
  counters 0 before1 = Some (snd (enc_all [smp1 1 7; smp2 2 8])) /\
  saved 0 before1 = fst (enc_all [smp1 1 7; smp2 2 8]) /\
  counters 0 (before1 ++ [save1]) = Some (snd (enc_all ([smp1 1 7; smp2 2 8] ++ [smp1 3 9]))) /\
  saved 0 (before1 ++ [save1]) = fst (enc_all ([smp1 1 7; smp2 2 8] ++ [smp1 3 9])) /\
  cuts save1 (bind (init_meas new_id meas1) (mrun before1)) [0; 5; 11; 13]%nat =
      [Some ([1; 1], Some (Ok [[1; 7; 0; 0; 0; 0; 0; 0; 0; 255; 2; 8; 1; 2; 3]]));
       Some ([1; 1], Some (Ok [[1; 7; 0; 0; 0; 0; 0; 0; 0; 255; 2; 8; 1; 2; 3]]));
       Some ([2; 1], Some (Ok [[1; 7; 0; 0; 0; 0; 0; 0; 0; 255; 2; 8; 1; 2; 3]]));
       Some ([2; 1], Some (Ok [[1; 7; 0; 0; 0; 0; 0; 0; 0; 255; 2; 8; 1; 2; 3; 1; 9; 0; 0; 0; 0; 0; 0; 0; 255]]))].
Proof.
  destruct C69_witness as (A & B & C & _).
  assert (EP : calls1 = (before1 ++ [save1]) ++ [MFinal]) by reflexivity.
  split; [exact A|]. split; [apply (calls_prefix _ _ [MFinal]); rewrite <- EP; exact B|].
  split; [apply (in_turn_prefix _ [MFinal]); rewrite <- EP; exact C|].
  split; [reflexivity|]. split; [left; reflexivity|]. split; [reflexivity|]. split; [vm_compute; reflexivity|].
  split; [reflexivity|]. split; [vm_compute; reflexivity|]. vm_compute. reflexivity.
Qed.
