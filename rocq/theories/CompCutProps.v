(** C72: a compressed measurement that is interrupted stays readable. *)
From Verif Require Import Base BlockModel BlockSpec MetaModel MetaSpec DataModel DataSpec IdentModel IdentSpec IdentProofs QueueModel
  ListProofs StoreProofs StoreProofs2 MeasModel MeasSpec MeasProofs4 MeasProofs5 MeasStream MetaProps IdentProps MeasProps
  CutModel CutSpec CutProofs CutProofs2 CutProps
  CompModel CompSpec CompProofs CompProofs2 CompProofs3 CompProps CompCutModel CompCutProofs CompCutProofs2 CompCutProofs3.
From Verif Require StreamModel StreamSpec StreamProofs StreamProofs2 QueueSpec EncProofs DataProps BlockProofs2.
Local Open Scope N_scope.

Lemma sizes_fit_prefix : forall deflate a b, sizes_fit deflate (a ++ b) -> sizes_fit deflate a.
Proof.
  intros deflate a b H k. destruct (H k) as (A & B & C). rewrite stored_app in A, B, C. apply Forall_app in B as [B _]. apply Forall_app in C as [C _].
  rewrite !concat_app, app_length in A. split; [lia|]. split; assumption.
Qed.

Lemma crun_split : forall deflate i h ops o, bind (init_comp i h) (crun deflate (ops ++ [o])) =
  bind (bind (init_comp i h) (crun deflate ops)) (cstep deflate o).
Proof.
  intros. destruct (init_comp i h) as [m0| |]; [|reflexivity|reflexivity]. cbn [bind]. apply crun_snoc.
Qed.

(** The listed writes of a call are what the call does to the file. *)
Theorem C72_writes : forall deflate i h ops o, hd_ok h -> calls_ok h (map plain_call (ops ++ [o])) -> sizes_fit deflate (ops ++ [o]) ->
  exists m m', bind (init_comp i h) (crun deflate ops) = Ok m /\ cstep deflate o m = Ok m' /\
  puts (c_file m) (cop_steps deflate o m) = c_file m'.
Proof.
  intros deflate i h ops o OK CO SZ. pose proof CO as CO'. rewrite map_app in CO'.
  destruct (crun_inv deflate i h ops OK (calls_prefix _ _ _ CO') (sizes_fit_ok _ _ (sizes_fit_prefix _ _ _ SZ))) as (m & hk & W & T & b & Xs & E & I).
  destruct (crun_inv deflate i h (ops ++ [o]) OK CO (sizes_fit_ok _ _ SZ)) as (m' & _ & _ & _ & _ & _ & E' & _).
  rewrite crun_split, E in E'. cbn [bind] in E'. exists m, m'. split; [exact E|]. split; [exact E'|].
  destruct o as [t|k full rest e|]; cbn [cstep cop_steps] in *.
  - injection E' as <-. reflexivity.
  - destruct CO' as [CK _]. rewrite sources_app in CK. cbn [map plain_call sources flat_map app] in CK.
    destruct (CK k ltac:(apply in_or_app; right; left; reflexivity)) as (d & Ed & Ld).
    destruct (store_cut deflate _ _ _ _ _ _ _ _ _ _ _ _ k d full rest e I Ed) as [SC _].
    { intros K. split; [exact Ld|]. apply stored_none. exact K. }
    symmetry. apply SC. exact E'.
  - injection E' as <-. reflexivity.
Qed.
Print Assumptions C72_writes.

Lemma set_link_ok : forall hk k l, hd_ok hk -> u64 l -> hd_ok (set_dgs hk (upd_nth k (set_link l) (h_dgs hk))).
Proof.
  intros hk k l (P1 & P2 & P3 & P4 & P5 & P6 & P7) L. unfold hd_ok, set_dgs.
  cbn [h_time h_class h_flags h_angle h_distance h_md h_fhs h_ats h_chs h_evs h_dgs].
  repeat (split; [assumption|]). apply Forall_forall. intros d HD. apply In_nth_error in HD as [q HD].
  rewrite upd_nth_error in HD. rewrite Forall_forall in P7. destruct (q =? k)%nat.
  - destruct (nth_error (h_dgs hk) q) as [d0|] eqn:E0; [|discriminate]. cbn [option_map] in HD. apply some_eq in HD. subst d.
    destruct (P7 d0 (nth_error_In _ _ E0)) as (Q1 & _ & Q3 & Q4). unfold dg_ok, set_link. cbn [d_idsize d_md d_link d_cgs]. auto.
  - apply P7. apply (nth_error_In _ q). exact HD.
Qed.

(** Any sequence of calls, and the process stops after any number of writes of the next call: the
    file is read, the description is complete, the counters are the old or the new ones, and the data
    of every data group are those of the calls before, or all writes were made. Only if the data group
    had no data before, its first list block may be incomplete, and then reading its data fails. *)
Theorem C72_interrupted : forall deflate inflate i h ops o, zlib_ok deflate inflate -> id_texts i -> id_numbers i -> hd_ok h ->
  calls_ok h (map plain_call (ops ++ [o])) -> sizes_fit deflate (ops ++ [o]) ->
  exists m m', bind (init_comp i h) (crun deflate ops) = Ok m /\ cstep deflate o m = Ok m' /\
  forall j, let F := ccut deflate j o m in N.of_nat (length F) < 2 ^ 63 ->
  exists enough, forall fuel, (enough <= fuel)%nat ->
  exists h', read_file fuel F = Ok (id_trimmed i, h') /\
    (h_time h' = stored_time (h_time h) (map plain_call ops) \/ h_time h' = stored_time (h_time h) (map plain_call (ops ++ [o]))) /\
    (h_class h', h_flags h', h_angle h', h_distance h', h_md h', h_fhs h', h_ats h', h_chs h', h_evs h') =
    (h_class h, h_flags h, h_angle h, h_distance h, h_md h, h_fhs h, h_ats h, h_chs h, h_evs h) /\
    length (h_dgs h') = length (h_dgs h) /\
    forall k d, nth_error (h_dgs h) k = Some d -> exists l gs,
      let d' := dg_form (mkDg (d_idsize d) (d_md d) l gs) in
      nth_error (h_dgs h') k = Some d' /\
      Forall2 (between (counters k (map plain_call ops)) (counters k (map plain_call (ops ++ [o])))) (d_cgs d) gs /\
      (In k (sources (map plain_call (ops ++ [o]))) ->
         list_data fuel inflate F d' = Some (Ok (concat (stored k ops))) \/
         F = c_file m' /\ gs = map (counted (counters k (map plain_call (ops ++ [o])))) (d_cgs d) /\
           list_data fuel inflate F d' = Some (Ok (concat (stored k (ops ++ [o])))) \/
         ~ In k (sources (map plain_call ops)) /\ list_data fuel inflate F d' = Some Fail) /\
      (~ In k (sources (map plain_call (ops ++ [o]))) -> l = d_link d).
Proof.
  intros deflate inflate i h ops o Z IT IN OK CO SZ. pose proof CO as CO'. rewrite map_app in CO'.
  destruct (C72_writes deflate i h ops o OK CO SZ) as (m & m' & E & E' & EA).
  exists m, m'. split; [exact E|]. split; [exact E'|]. intros j F LF.
  match goal with |- ?G => assert (OLD : forall x, F = c_file m ++ x -> G); [|assert (NEW : F = c_file m' -> G)] end.
  { intros x EF. destruct (C71_file deflate inflate i h ops Z IT IN OK (calls_prefix _ _ _ CO') (sizes_fit_prefix _ _ _ SZ)) as (m1 & E1 & R).
    rewrite E in E1. injection E1 as <-. rewrite EF in *. destruct (R x LF) as [n RF]. exists (S n). intros fuel L.
    destruct (RF fuel ltac:(lia)) as (h' & A1 & A2 & A3 & A4 & A5). exists h'. split; [exact A1|]. split; [left; exact A2|].
    split; [exact A3|]. split; [exact A4|]. intros k d Ed. destruct (A5 k d Ed) as (l & B1 & B2 & B3).
    exists l, (map (counted (counters k (map plain_call ops))) (d_cgs d)). cbv zeta. unfold dg_after in *.
    split; [exact B1|]. split; [apply Forall2_map_r; intros g; apply between_l|]. split.
    - intros K. left. destruct (in_dec Nat.eq_dec k (sources (map plain_call ops))) as [K1|K1].
      + apply B2. exact K1.
      + rewrite stored_none by exact K1. unfold list_data. cbn [dg_form d_link]. rewrite (B3 K1). destruct CO as [CO _].
        destruct (CO k K) as (d1 & Ed1 & L1). rewrite Ed in Ed1. apply some_eq in Ed1. subst d1. rewrite L1.
        destruct fuel; [lia|]. reflexivity.
    - intros K. apply B3. intros X. apply K. rewrite map_app, sources_app. apply in_or_app. left. exact X. }
  { intros EF. destruct (C71_file deflate inflate i h (ops ++ [o]) Z IT IN OK CO SZ) as (m1 & E1 & R).
    rewrite crun_split, E in E1. cbn [bind] in E1. rewrite E' in E1. injection E1 as <-.
    specialize (R []). rewrite app_nil_r in R. rewrite EF in *. destruct (R LF) as [n RF]. exists n. intros fuel L.
    destruct (RF fuel L) as (h' & A1 & A2 & A3 & A4 & A5). exists h'. split; [exact A1|]. split; [right; exact A2|].
    split; [exact A3|]. split; [exact A4|]. intros k d Ed. destruct (A5 k d Ed) as (l & B1 & B2 & B3).
    exists l, (map (counted (counters k (map plain_call (ops ++ [o])))) (d_cgs d)). cbv zeta. unfold dg_after in *.
    split; [exact B1|]. split; [apply Forall2_map_r; intros g; apply between_r|]. split; [|exact B3].
    intros K. right. left. split; [reflexivity|]. split; [reflexivity|]. apply B2. exact K. }
  destruct (Nat.le_gt_cases (length (cop_steps deflate o m)) j) as [LJ|LJ].
  { apply NEW. unfold F, ccut. rewrite firstn_all2 by exact LJ. exact EA. }
  destruct (crun_inv deflate i h ops OK (calls_prefix _ _ _ CO') (sizes_fit_ok _ _ (sizes_fit_prefix _ _ _ SZ))) as (m1 & hk & W & T & b & Xs & E1 & I).
  rewrite E in E1. injection E1 as <-.
  destruct o as [t|k full rest e|].
  - cbn [cop_steps length] in LJ. lia.
  - cbn [cop_steps] in LJ. pose proof CO' as [CK _]. rewrite sources_app in CK. cbn [map plain_call sources flat_map app] in CK.
    destruct (CK k ltac:(apply in_or_app; right; left; reflexivity)) as (d0 & Ed0 & Ld0).
    destruct (store_cut deflate _ _ _ _ _ _ _ _ _ _ _ _ k d0 full rest e I Ed0) as [_ SC].
    { intros K. split; [exact Ld0|]. apply stored_none. exact K. }
    destruct (SC j LJ) as [[x EX]|(l & gs2 & W2 & x & EW & LW & EF & BT & HI & HN)]; [apply (OLD x); exact EX|].
    change (puts (c_file m) (firstn j (store_steps deflate k full rest e m))) with F in EF. clear SC OLD NEW.
    pose proof (cv_file _ _ _ _ _ _ _ _ _ _ _ _ _ I) as If.
    pose proof (cv_ne _ _ _ _ _ _ _ _ _ _ _ _ _ I) as Ie.
    assert (NC : (0 < length (c_file m))%nat) by (rewrite If, app_length; lia).
    assert (LM : N.of_nat (length (c_file m)) < 2 ^ 63).
    { rewrite EF in LF. rewrite If. rewrite !app_length in *. lia. }
    pose proof (cinv_hd_ok deflate _ _ _ _ _ _ _ _ _ _ _ _ OK (proj2 (calls_prefix _ _ _ CO')) I LM) as OK1.
    pose proof (cv_dgs _ _ _ _ _ _ _ _ _ _ _ _ _ I k d0 Ed0) as Ek.
    set (hk1 := set_dgs hk (upd_nth k (set_link l) (h_dgs hk))) in *.
    assert (Ek1 : nth_error (h_dgs hk1) k = Some (dg_is (counters k (map plain_call ops)) l d0)).
    { unfold hk1. rewrite set_dgs_dgs, upd_nth_error, Nat.eqb_refl, Ek. reflexivity. }
    assert (UL : u64 l).
    { destruct (in_dec Nat.eq_dec k (sources (map plain_call ops))) as [K|K].
      - rewrite (HI K). destruct OK1 as (_ & _ & _ & _ & _ & _ & P7). rewrite Forall_forall in P7.
        destruct (P7 _ (nth_error_In _ _ Ek)) as (_ & Q & _). exact Q.
      - destruct (HN K) as [-> _]. pose proof (BlockProofs2.pad8_align (length (c_file m))) as [_ PA]. unfold u64. lia. }
    pose proof (set_link_ok hk k l OK1 UL) as OK2. fold hk1 in OK2.
    pose proof (set_cgs_ok _ _ _ _ _ _ _ _ OK OK2 Ed0 Ek1 BT) as OK3.
    destruct (file_read i _ W2 b IT IN OK3 EW) as [n RD].
    { rewrite LW. rewrite If, app_length in LM. lia. }
    exists (n + length (flat_map (fun k => stored k ops) (seq 0 (length (h_dgs h)))) + 3)%nat. intros fuel L.
    eexists. split; [rewrite EF; apply RD; lia|].
    pose proof (cv_hk _ _ _ _ _ _ _ _ _ _ _ _ _ I) as EH.
    split; [left; unfold hk1; rewrite EH; reflexivity|]. split; [unfold hk1; rewrite EH; reflexivity|].
    split; [cbn [hd_form h_dgs]; unfold hk1; rewrite map_length, !set_dgs_dgs, !upd_length; apply (cv_len _ _ _ _ _ _ _ _ _ _ _ _ _ I)|].
    assert (SR : forall q, In q (sources (map plain_call (ops ++ [CStore k full rest e]))) <-> q = k \/ In q (sources (map plain_call ops))).
    { intros q. rewrite map_app, sources_app, in_app_iff. cbn [map plain_call sources flat_map app In].
      split; [intros [A|[A|[]]]; auto|]. intros [A|A]; auto. }
    assert (DATA : forall q d gs lq, nth_error (h_dgs h) q = Some d -> In q (sources (map plain_call ops)) ->
      lq = lk_of (c_sts m) q d ->
      list_data fuel inflate F (dg_form (mkDg (d_idsize d) (d_md d) lq gs)) = Some (Ok (concat (stored q ops)))).
    { intros q d gs lq Ed K ->. destruct (cv_st _ _ _ _ _ _ _ _ _ _ _ _ _ I q K) as (s & li & gq & hi & Fq & TI & _ & SRq & _).
      assert (KF : kept (Xs q) (c_file m) F).
      { rewrite EF, If. apply (kept_front deflate); [auto|]. intros p XQ. apply (ti_in _ _ _ _ _ _ _ TI) in XQ. rewrite If in XQ. exact XQ. }
      pose proof (tail_in_ok _ _ _ _ _ _ _ (tail_in_frame _ _ _ _ _ _ _ _ TI KF)) as TO.
      destruct (sizes_fit_prefix _ _ _ SZ q) as (S1 & S2 & _).
      assert (LQ : (q < length (h_dgs h))%nat) by (apply nth_error_Some; rewrite Ed; discriminate).
      assert (B : forall l, In q l -> (length (stored q ops) <= length (flat_map (fun k => stored k ops) l))%nat).
      { clear. induction l as [|a l IH]; intros H; [destruct H|]. cbn [flat_map]. rewrite app_length. destruct H as [->|H]; [lia|]. specialize (IH H). lia. }
      specialize (B (seq 0 (length (h_dgs h))) ltac:(apply in_seq; lia)).
      destruct (tail_read deflate inflate Z _ _ _ _ _ _ (stored q ops) fuel TO LF SRq S1 S2 ltac:(lia)) as (ds & R1 & R2).
      unfold list_data, dg_form, lk_of. rewrite Fq. cbn [d_link]. rewrite R1. cbn [bind]. rewrite R2. reflexivity. }
    intros q d Ed. pose proof (cv_dgs _ _ _ _ _ _ _ _ _ _ _ _ _ I q d Ed) as Eq.
    exists (if (q =? k)%nat then l else lk_of (c_sts m) q d), (if (q =? k)%nat then gs2 else map (counted (counters q (map plain_call ops))) (d_cgs d)).
    cbv zeta. split.
    { cbn [hd_form h_dgs]. rewrite nth_error_map, set_dgs_dgs, upd_nth_error. unfold hk1. rewrite set_dgs_dgs, upd_nth_error, Eq.
      destruct (q =? k)%nat; cbn [option_map]; reflexivity. }
    split.
    { rewrite map_app. cbn [map plain_call]. rewrite counters_snoc, (Nat.eqb_sym k q). destruct (Nat.eqb_spec q k) as [EQ|NQ].
      - subst q. rewrite Ed0 in Ed. apply some_eq in Ed. subst d0. exact BT.
      - apply Forall2_map_r. intros g. apply between_l. }
    destruct (Nat.eqb_spec q k) as [EQ|NQ].
    + subst q. rewrite Ed0 in Ed. apply some_eq in Ed. subst d0. split; [|intros K; exfalso; apply K; apply SR; auto].
      intros _. destruct (in_dec Nat.eq_dec k (sources (map plain_call ops))) as [K|K].
      * left. apply DATA; auto.
      * destruct (HN K) as [EL (y & EX & HY)]. rewrite stored_none by exact K. cbn [concat].
        assert (EY : F = (W2 ++ T ++ repeat 0 (pad8 (length (c_file m)))) ++ y) by (rewrite EF, EX, <- !app_assoc; reflexivity).
        set (Y := W2 ++ T ++ repeat 0 (pad8 (length (c_file m)))) in *.
        assert (LY : length Y = (length (c_file m) + pad8 (length (c_file m)))%nat).
        { unfold Y. rewrite !app_length, repeat_length, LW, If, app_length. lia. }
        unfold list_data. cbn [dg_form d_link]. rewrite EL, <- LY, EY.
        rewrite EY in LF. destruct (read_fresh Y y fuel ltac:(lia) LF HY ltac:(lia)) as [-> | ->]; [left; reflexivity|].
        right. right. split; [exact K|reflexivity].
    + split.
      * intros K. apply SR in K. destruct K as [K|K]; [congruence|]. left. apply DATA; auto.
      * intros K. unfold lk_of. rewrite (cv_none _ _ _ _ _ _ _ _ _ _ _ _ _ I q); [reflexivity|]. intros X. apply K. apply SR. auto.
  - destruct j as [|j].
    + apply (OLD []). unfold F, ccut. cbn [firstn]. rewrite app_nil_r. reflexivity.
    + apply NEW. cbn [cstep] in E'. injection E' as <-. unfold F, ccut. cbn [cop_steps].
      apply (final_ccut deflate _ _ _ _ _ _ _ _ _ _ _ _ I). lia.
Qed.
Print Assumptions C72_interrupted.

(** The records: [l1] are the samples of the data group saved before the call, [l2] those of the call.
    A reader of the interrupted file gets all records of [l1] in order and nothing else, or the call is
    complete and the reader gets those of [l2] too. *)
Theorem C72_records : forall deflate inflate i h ops o k d hs l1 l2 e1 e2, zlib_ok deflate inflate ->
  id_texts i -> id_numbers i -> hd_ok h -> calls_ok h (map plain_call (ops ++ [o])) -> sizes_fit deflate (ops ++ [o]) ->
  nth_error (h_dgs h) k = Some d -> StreamSpec.dg_ok (dgroup_of d) -> In k (sources (map plain_call ops)) ->
  Forall (Forall (fun x => x <> [])) (stored k (ops ++ [o])) ->
  EncProofs.emitted (dgroup_of d) hs l1 (saved k (map plain_call ops)) e1 -> counters k (map plain_call ops) = Some e1 ->
  EncProofs.emitted (dgroup_of d) hs (l1 ++ l2) (saved k (map plain_call (ops ++ [o]))) e2 ->
  counters k (map plain_call (ops ++ [o])) = Some e2 ->
  exists m m', bind (init_comp i h) (crun deflate ops) = Ok m /\ cstep deflate o m = Ok m' /\
  forall j, let F := ccut deflate j o m in N.of_nat (length F) < 2 ^ 63 ->
  exists enough, forall fuel, (enough <= fuel)%nat ->
  exists h' d' blocks evs, read_file fuel F = Ok (id_trimmed i, h') /\
    nth_error (h_dgs h') k = Some d' /\
    list_data fuel inflate F d' = Some (Ok blocks) /\
    StreamModel.read_data (dgroup_of d') (fun _ => true) (fun _ => true) fuel blocks = Some (Ok evs) /\
    (map StreamSpec.ev_rec evs = QueueSpec.records_of (dgroup_of d) hs l1 \/
     F = c_file m' /\ map StreamSpec.ev_rec evs = QueueSpec.records_of (dgroup_of d) hs (l1 ++ l2)).
Proof.
  intros deflate inflate i h ops o k d hs l1 l2 e1 e2 Z IT IN OK CO SZ Ed DO K NE EM1 EC1 EM2 EC2.
  destruct (C72_interrupted deflate inflate i h ops o Z IT IN OK CO SZ) as (m & m' & E & E' & R). exists m, m'.
  split; [exact E|]. split; [exact E'|]. intros j F LF. destruct (R j LF) as [n RF]. clear R.
  destruct (emitted_parts _ _ _ _ _ DO EM1) as (A1 & A2 & A3 & _).
  destruct (emitted_parts _ _ _ _ _ DO EM2) as (B1 & B2 & B3 & _).
  set (r1 := QueueSpec.records_of (dgroup_of d) hs l1) in *. set (r2 := QueueSpec.records_of (dgroup_of d) hs (l1 ++ l2)) in *.
  assert (RM : forall id, StreamSpec.occ id r1 <= StreamSpec.occ id r2).
  { intros id. unfold r1, r2, QueueSpec.records_of. rewrite EncProofs.records_from_app, occ_app. lia. }
  destruct (SZ k) as (LS & _). rewrite C71_same_bytes in LS.
  assert (N2 : forall id, w64 (e_cnt e2 id) = StreamSpec.occ id r2).
  { intros id. rewrite B3. unfold w64. apply N.mod_small. pose proof (occ_bytes _ _ id DO B2) as OB. rewrite <- B1 in OB. lia. }
  exists (n + S (length (saved k (map plain_call (ops ++ [o]))) + length (saved k (map plain_call ops))))%nat. intros fuel L.
  destruct (RF fuel ltac:(lia)) as (h' & ER & _ & _ & _ & DG). destruct (DG k d Ed) as (l & gs & Ek & BT & GD & _). clear DG RF.
  assert (K' : In k (sources (map plain_call (ops ++ [o])))) by (rewrite map_app, sources_app; apply in_or_app; left; exact K).
  set (d' := dg_form (mkDg (d_idsize d) (d_md d) l gs)) in *.
  assert (AL : alike (dgroup_of d) (dgroup_of d')) by (split; [reflexivity|]; apply (between_alike _ _ _ _ BT)).
  destruct (GD K') as [LD|[(EF & EG & LD)|(NK & _)]]; [| |exfalso; apply NK; exact K]; clear GD.
  - destruct (read_alike_blocks (dgroup_of d) (dgroup_of d') r1 (concat (stored k ops)) fuel DO AL A2) as (evs & RD & M1 & _).
    { intros g' G. cbn [d' dgroup_of dg_form d_cgs StreamModel.d_groups] in G. rewrite map_map in G. apply in_map_iff in G.
      destruct G as (g2 & <- & G2). apply In_nth_error in G2 as [q G2].
      assert (X : exists g, between (counters k (map plain_call ops)) (counters k (map plain_call (ops ++ [o]))) g g2).
      { clear - BT G2. revert q G2. induction BT as [|x y xs ys XY B IH]; intros [|q] G; try discriminate; [|eauto].
        cbn in G. apply some_eq in G. subst y. eauto. }
      destruct X as (g & s & da & di & -> & Hs & _ & _).
      cbn [group_of cg_form StreamModel.g_id StreamModel.g_nof g_record g_samples]. destruct Hs as [->| ->].
      - rewrite EC1. cbn [counted g_samples]. rewrite A3. unfold w64. rewrite N.mod_small; [lia|].
        pose proof (occ_bytes _ _ (g_record g) DO B2) as OB. rewrite <- B1 in OB. specialize (RM (g_record g)). lia.
      - rewrite EC2. cbn [counted g_samples]. rewrite N2. apply RM. }
    { apply Forall_concat. rewrite stored_app in NE. apply Forall_app in NE as [NE _]. exact NE. }
    { rewrite C71_same_bytes. exact A1. }
    { rewrite <- A1. lia. }
    exists h', d', (concat (stored k ops)), evs. split; [exact ER|]. split; [exact Ek|]. split; [exact LD|]. split; [exact RD|]. left. exact M1.
  - destruct (read_alike_blocks (dgroup_of d) (dgroup_of d') r2 (concat (stored k (ops ++ [o]))) fuel DO AL B2) as (evs & RD & M1 & _).
    { intros g' G. cbn [d' dgroup_of dg_form d_cgs StreamModel.d_groups] in G. rewrite EG, !map_map in G. apply in_map_iff in G.
      destruct G as (g & <- & _). rewrite EC2. cbn [group_of cg_form counted StreamModel.g_id StreamModel.g_nof g_record g_samples].
      rewrite N2. lia. }
    { apply Forall_concat. exact NE. }
    { rewrite C71_same_bytes. exact B1. }
    { rewrite <- B1. lia. }
    exists h', d', (concat (stored k (ops ++ [o]))), evs. split; [exact ER|]. split; [exact Ek|]. split; [exact LD|]. split; [exact RD|].
    right. split; [exact EF|exact M1].
Qed.
Print Assumptions C72_records.

(** The third save of the measurement of C71 is cut: two bytes into the list block, after the counters
    and before the last write, and not at all. *)
Definition before2 : list cop := firstn 3 calls2.
Definition store2 : cop := nth 3 calls2 CFinal.
Definition store1 : cop := nth 1 calls2 CFinal.

Definition cview (f : file) (k : nat) : option (list N * option (res (list (list N)))) :=
  match read_file 100 f with
  | Ok (_, h) => match nth_error (h_dgs h) k with
                 | Some d => Some (map g_samples (d_cgs d), list_data 8 DataProps.toy_inflate f d)
                 | _ => None
                 end
  | _ => None
  end.
Definition ccuts (o : cop) (r : res cmeas) (k : nat) (js : list nat) : list (option (list N * option (res (list (list N))))) :=
  match r with
  | Ok m => map (fun j => cview (ccut DataProps.toy_deflate j o m) k) js
  | _ => []
  end.
Definition nof_writes (o : cop) (r : res cmeas) : nat :=
  match r with Ok m => length (cop_steps DataProps.toy_deflate o m) | _ => 0 end.

Definition state0 : res cmeas := bind (init_comp new_id meas2) (crun DataProps.toy_deflate (firstn 1 calls2)).
Definition state2 : res cmeas := bind (init_comp new_id meas2) (crun DataProps.toy_deflate before2).

Lemma sizes2 : sizes_fit DataProps.toy_deflate calls2.
Proof. destruct C71_witness as (_ & _ & X & _). exact X. Qed.
Lemma calls2_ok : calls_ok meas2 (map plain_call calls2).
Proof. destruct C71_witness as (_ & X & _). exact X. Qed.

Example C72_witness : zlib_ok DataProps.toy_deflate DataProps.toy_inflate /\ hd_ok meas2 /\
  calls_ok meas2 (map plain_call (before2 ++ [store2])) /\ sizes_fit DataProps.toy_deflate (before2 ++ [store2]) /\
  In 0%nat (sources (map plain_call before2)) /\ Forall (Forall (fun x => x <> [])) (stored 0 (before2 ++ [store2])) /\
  counters 0 (map plain_call before2) = Some (snd (enc_all [smp1 1 7; smp2 2 8])) /\
  counters 0 (map plain_call (before2 ++ [store2])) = Some (snd (enc_all ([smp1 1 7; smp2 2 8] ++ [smp1 3 9]))) /\
  nof_writes store2 state2 = 122%nat /\
  ccuts store2 state2 0 [0; 1; 100; 121; 122]%nat =
    let old := Some (Ok [[1; 7; 0; 0; 0; 0; 0; 0; 0; 255]; [2; 8; 1; 2; 3]]) in
    [Some ([1; 1], old); Some ([2; 1], old); Some ([2; 1], old); Some ([2; 1], old);
     Some ([2; 1], Some (Ok [[1; 7; 0; 0; 0; 0; 0; 0; 0; 255]; [2; 8; 1; 2; 3]; [1; 9; 0; 0; 0; 0; 0; 0; 0; 255]]))].
Proof.
  assert (EP : calls2 = (before2 ++ [store2]) ++ [CFinal]) by reflexivity.
  split; [apply DataProps.toy_ok|]. split; [apply meas2_ok|]. split.
  { apply (calls_prefix _ _ (map plain_call [CFinal])). rewrite <- map_app, <- EP. apply calls2_ok. }
  split; [apply (sizes_fit_prefix _ _ [CFinal]); rewrite <- EP; apply sizes2|].
  split; [left; reflexivity|]. split; [repeat constructor; discriminate|]. split; [reflexivity|]. split; [reflexivity|].
  split; [vm_compute; reflexivity|]. vm_compute. reflexivity.
Qed.

Definition seen (f : file) (i' : idb) (h' : hd) (d' : dg) : Prop :=
  read_file 50 f = Ok (i', h') /\ nth_error (h_dgs h') 0 = Some d'.
Definition view50 (f : file) : option (idb * hd * dg) :=
  match read_file 50 f with
  | Ok (i', h') => match nth_error (h_dgs h') 0 with Some d' => Some (i', h', d') | None => None end
  | _ => None
  end.
Lemma view50_seen : forall f i' h' d', view50 f = Some (i', h', d') -> seen f i' h' d'.
Proof.
  intros f i' h' d' V. unfold view50 in V. unfold seen. destruct (read_file 50 f) as [[i1 h1]| |]; try discriminate.
  destruct (nth_error (h_dgs h1) 0) eqn:E; [|discriminate]. inversion V; subst. split; [reflexivity|exact E].
Qed.

(** Samples and readable records of the first channel group of the first data group. *)
Definition counts (f : file) : option (N * N) :=
  match view50 f with
  | Some (_, _, d') =>
      match list_data 50 DataProps.toy_inflate f d' with
      | Some (Ok blocks) =>
          match StreamModel.read_data (dgroup_of d') (fun _ => true) (fun _ => true) 50 blocks with
          | Some (Ok evs) =>
              match d_cgs d' with
              | g :: _ => Some (g_samples g, StreamSpec.occ (g_record g) (map StreamSpec.ev_rec evs))
              | [] => None
              end
          | _ => None
          end
      | _ => None
      end
  | None => None
  end.
Lemma counts_seen : forall f x y, counts f = Some (x, y) -> exists i' h' d' blocks evs g, seen f i' h' d' /\
  list_data 50 DataProps.toy_inflate f d' = Some (Ok blocks) /\
  StreamModel.read_data (dgroup_of d') (fun _ => true) (fun _ => true) 50 blocks = Some (Ok evs) /\ In g (d_cgs d') /\
  g_samples g = x /\ StreamSpec.occ (g_record g) (map StreamSpec.ev_rec evs) = y.
Proof.
  intros f x y C. unfold counts in C. destruct (view50 f) as [[[i' h'] d']|] eqn:V; [|discriminate].
  destruct (list_data 50 DataProps.toy_inflate f d') as [[blocks| |]|] eqn:EL; try discriminate.
  destruct (StreamModel.read_data (dgroup_of d') (fun _ => true) (fun _ => true) 50 blocks) as [[evs| |]|] eqn:EV; try discriminate.
  destruct (d_cgs d') as [|g r] eqn:EG; [discriminate|].
  exists i', h', d', blocks, evs, g. split; [apply view50_seen; exact V|]. split; [exact EL|]. split; [exact EV|].
  split; [rewrite EG; left; reflexivity|]. inversion C. split; reflexivity.
Qed.

Definition of_ok {A} (g : cmeas -> option A) (r : res cmeas) : option A := match r with Ok m => g m | _ => None end.
Lemma of_ok_some : forall A (g : cmeas -> option A) r a, of_ok g r = Some a -> exists m, r = Ok m /\ g m = Some a.
Proof. intros A g [m| |] a E; try discriminate. exists m. split; [reflexivity|exact E]. Qed.

Lemma state2_counts : of_ok (fun m => counts (ccut DataProps.toy_deflate 1 store2 m))
  (bind (init_comp new_id meas2) (crun DataProps.toy_deflate before2)) = Some (2, 1).
Proof. vm_compute. reflexivity. Qed.

Definition fails (f : file) : option unit :=
  match view50 f with
  | Some (_, _, d') => match list_data 50 DataProps.toy_inflate f d' with Some Fail => Some tt | _ => None end
  | None => None
  end.
Lemma state0_fails : of_ok (fun m => fails (ccut DataProps.toy_deflate 8 store1 m))
  (bind (init_comp new_id meas2) (crun DataProps.toy_deflate (firstn 1 calls2))) = Some tt.
Proof. vm_compute. reflexivity. Qed.

(** The counters are written before the data: after an interruption the number of samples of a channel
    group may be larger than the number of its records that can be read. *)
Theorem C72_counters_refuted : ~ (forall deflate inflate i h ops o j m i' h' d' fuel blocks evs g, zlib_ok deflate inflate -> hd_ok h ->
  calls_ok h (map plain_call (ops ++ [o])) -> sizes_fit deflate (ops ++ [o]) ->
  bind (init_comp i h) (crun deflate ops) = Ok m -> read_file fuel (ccut deflate j o m) = Ok (i', h') ->
  nth_error (h_dgs h') 0 = Some d' -> list_data fuel inflate (ccut deflate j o m) d' = Some (Ok blocks) ->
  StreamModel.read_data (dgroup_of d') (fun _ => true) (fun _ => true) fuel blocks = Some (Ok evs) ->
  In g (d_cgs d') -> g_samples g = StreamSpec.occ (g_record g) (map StreamSpec.ev_rec evs)).
Proof.
  intros H. destruct C72_witness as (A1 & A2 & A3 & A4 & _).
  destruct (of_ok_some _ _ _ _ state2_counts) as (m & ES & Q). cbv beta in Q.
  destruct (counts_seen _ _ _ Q) as (i' & h' & d' & blocks & evs & g & [B1 B2] & B3 & B4 & B5 & B6 & B7). clear Q.
  specialize (H DataProps.toy_deflate DataProps.toy_inflate new_id meas2 before2 store2 1%nat m i' h' d' 50%nat blocks evs g).
  specialize (H A1 A2 A3 A4). specialize (H ES). specialize (H B1 B2). specialize (H B3). specialize (H B4 B5). rename H into X.
  rewrite B6, B7 in X. clear - X. discriminate X.
Qed.
Print Assumptions C72_counters_refuted.

(** The data link is set before the list block is written: if the first save of a data group is
    interrupted, reading the data of the group may fail instead of finding no data. *)
Theorem C72_first_refuted : ~ (forall deflate inflate i h ops o j m i' h' d' fuel, zlib_ok deflate inflate -> hd_ok h ->
  calls_ok h (map plain_call (ops ++ [o])) -> sizes_fit deflate (ops ++ [o]) ->
  bind (init_comp i h) (crun deflate ops) = Ok m -> read_file fuel (ccut deflate j o m) = Ok (i', h') ->
  nth_error (h_dgs h') 0 = Some d' -> exists blocks, list_data fuel inflate (ccut deflate j o m) d' = Some (Ok blocks)).
Proof.
  intros H. assert (EP : calls2 = (firstn 1 calls2 ++ [store1]) ++ skipn 2 calls2) by reflexivity.
  assert (A3 : calls_ok meas2 (map plain_call (firstn 1 calls2 ++ [store1]))).
  { apply (calls_prefix _ _ (map plain_call (skipn 2 calls2))). rewrite <- map_app, <- EP. apply calls2_ok. }
  assert (A4 : sizes_fit DataProps.toy_deflate (firstn 1 calls2 ++ [store1])).
  { apply (sizes_fit_prefix _ _ (skipn 2 calls2)). rewrite <- EP. apply sizes2. }
  clear EP. destruct (of_ok_some _ _ _ _ state0_fails) as (m & ES & Q). cbv beta in Q.
  unfold fails in Q. destruct (view50 (ccut DataProps.toy_deflate 8 store1 m)) as [[[i' h'] d']|] eqn:V; [|discriminate].
  destruct (view50_seen _ _ _ _ V) as [B1 B2]. clear V.
  destruct (H DataProps.toy_deflate DataProps.toy_inflate new_id meas2 (firstn 1 calls2) store1 8%nat m i' h' d' 50%nat DataProps.toy_ok meas2_ok A3 A4 ES B1 B2) as [bl EB].
  rewrite EB in Q. discriminate.
Qed.
Print Assumptions C72_first_refuted.
