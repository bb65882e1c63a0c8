(** Calls of a measurement with compression. *)
From Verif Require Import Base BlockModel BlockSpec BlockProofs BlockProofs2 BlockProofs3 BlockProofs4
  MetaModel MetaSpec MetaProofs MetaProofs3 DataModel DataSpec DataProofs ListProofs StoreProofs StoreProofs2
  IdentModel IdentSpec IdentProofs QueueModel
  MeasModel MeasSpec MeasProofs MeasProofs2 MeasProofs3 MeasProofs4 MeasProofs5 CompModel CompSpec CompProofs CompProofs2.
Local Open Scope N_scope.

Section Comp.
Context (deflate : list N -> list N).
Notation cinv := (cinv deflate).

Lemma store_inv : forall i h src done cn tm m hk W T b Xs k d0 full rest e,
  cinv i h src done cn tm m hk W T b Xs -> nth_error (h_dgs h) k = Some d0 ->
  (~ In k src -> d_link d0 = 0 /\ done k = []) ->
  let chunks := step_chunks full rest in
  Forall (fits deflate) chunks ->
  N.of_nat (length (concat (concat (done k))) + length (concat chunks)) < 2 ^ 63 ->
  exists m' hk' W' T' Xs', store_group deflate k full rest e m = Ok m' /\
    cinv i h (k :: src) (set_at done k (done k ++ [chunks])) (set_at cn k (Some e)) tm m' hk' W' T' b Xs'.
Proof.
  intros i h src done cn tm m hk W T b Xs k d0 full rest e I E0 IN chunks FI BD.
  pose proof (cv_dgs _ _ _ _ _ _ _ _ _ _ _ _ _ I k d0 E0) as E1.
  assert (LK : (k < length (c_places m))%nat).
  { rewrite (cv_places _ _ _ _ _ _ _ _ _ _ _ _ _ I). pose proof (cv_write _ _ _ _ _ _ _ _ _ _ _ _ _ I) as Iw.
    unfold write_file in Iw. rewrite (hd_places_length _ _ _ _ Iw). apply nth_error_Some. rewrite E1. discriminate. }
  apply nth_error_Some in LK. destruct (nth_error (c_places m) k) as [[p cgs]|] eqn:EP; [|congruence]. clear LK.
  unfold store_group. rewrite EP. rewrite (cv_mem _ _ _ _ _ _ _ _ _ _ _ _ _ I).
  replace (h_dgs (set_time (fst tm) hk)) with (h_dgs hk) by reflexivity. rewrite E1.
  destruct (prepare deflate i h src done cn tm m hk W T b Xs k d0 p cgs e I E0 IN EP)
    as (f & l & hl & f1 & W1 & T1 & X & li & gs & hi & Q1 & Q2 & Q3 & Q4 & Q5 & Q6 & Q7 & Q8 & Q9 & Q10 & Q11 & Q12).
  rewrite Q1, Q2. fold chunks.
  set (st := find_st k (c_sts m)) in *.
  set (d := dg_is (cn k) (lk_of (c_sts m) k d0) d0) in *.
  set (off := match st with Some s => k_off s | None => 0 end) in *.
  assert (LO : (0 < length W)%nat) by (pose proof (cv_ne _ _ _ _ _ _ _ _ _ _ _ _ _ I); lia).
  destruct (tail_in_append X f1 (length W) hl li gs hi (match st with Some s => k_last s | None => None end)
              (chunks_dl off chunks) (step_blocks deflate full rest) LO Q8 Q9)
    as (f2 & db & f3 & hl3 & l3 & gs3 & R1 & R2 & R3 & R4 & R5 & R6 & R7 & R8).
  assert (HP : (0 < b_pos hl)%nat) by (pose proof (ti_lo _ _ _ _ _ _ _ Q8); lia).
  unfold store_dl. cbn [st_file st_dg st_hl st_last link b_links nth].
  replace (l =? 0) with false by (symmetry; apply N.eqb_neq; lia). cbn [bind].
  unfold link at 1. cbn [b_links nth].
  rewrite Q3. cbn [bind]. rewrite R1. cbn [bind]. rewrite R2. cbn [bind].
  unfold update_link4. cbn [b_links length link nth]. change (4 <=? 2)%nat with false. cbv iota.
  rewrite R6, <- Q4, N.eqb_refl. cbn [bind st_file st_dg st_hl st_last b_links nth].
  clear Q1 Q2 Q3 R1 R2.
  assert (EF : exists T', f3 = W1 ++ T').
  { exists (skipn (length W1) f3). rewrite <- (firstn_skipn (length W1) f3) at 1. f_equal.
    assert (LF1 : (length W1 <= length f1)%nat) by (rewrite Q5, app_length; lia).
    apply nth_error_ext_N; [rewrite firstn_length; lia|].
    intros q Q. rewrite firstn_length in Q. rewrite nth_error_firstn' by lia. rewrite R8; [|lia|].
    - rewrite Q5. apply nth_error_app1. lia.
    - intros HX. apply (ti_in _ _ _ _ _ _ _ Q8) in HX. lia. }
  destruct EF as [T' EF].
  destruct I as [Iw Ie If Ip Ipl It Im Ih Il Id In0 Ist Idis].
  destruct Q7 as [A C].
  eexists _, (set_dgs hk (upd_nth k (fun d => set_link l (count_dg e d)) (h_dgs hk))), W1, T', (set_at Xs k (grown X f1 f3)).
  split; [reflexivity|].
  constructor; cbn [c_file c_hd c_head c_places c_sts].
  - exact A.
  - lia.
  - exact EF.
  - exact Ip.
  - symmetry. exact C.
  - rewrite Im in It. exact It.
  - reflexivity.
  - rewrite Ih at 1. reflexivity.
  - rewrite set_dgs_dgs, upd_length. exact Il.
  - intros j dj Ej. rewrite set_dgs_dgs, upd_nth_error, (Id j dj Ej). unfold lk_of, set_at. rewrite find_st_cons.
    rewrite (Nat.eqb_sym j k). destruct (Nat.eqb_spec k j) as [<-|NJ]; [|reflexivity]. cbn [option_map k_hl].
    rewrite dg_is_again, R6, <- Q4. reflexivity.
  - intros j NJ. rewrite find_st_cons. replace (k =? j)%nat with false.
    + apply In0. intros H. apply NJ. right. exact H.
    + symmetry. apply Nat.eqb_neq. intros ->. apply NJ. left. reflexivity.
  - intros j J. rewrite find_st_cons. unfold set_at. rewrite (Nat.eqb_sym j k). destruct (Nat.eqb_spec k j) as [<-|NJ].
    + eexists _, l3, gs3, (length f3). split; [reflexivity|]. cbn [k_hl k_last k_off]. rewrite Q6.
      split; [exact R3|]. split; [exact R4|]. split.
      * rewrite R5. apply steps_rel_app; auto. rewrite N.add_0_l. rewrite <- Q11.
        destruct (chunks_dl_spec off chunks ltac:(lia)) as (C1 & C2 & C3 & C4).
        split; [apply step_made; auto|]. cbn [fst snd]. split; [apply step_blocks_length|]. auto.
      * rewrite Q11, !concat_app, app_length. cbn [concat]. rewrite app_nil_r. unfold w64.
        rewrite N.mod_small by lia. lia.
    + destruct J as [J|J]; [congruence|]. destruct (Ist j J) as (sj & lj & gj & hj & F1 & F2 & F3 & F4 & F5).
      exists sj, lj, gj, hj. rewrite Q6. split; [exact F1|]. split; [|auto].
      destruct (Q12 j ltac:(congruence) J) as [KJ DJ].
      pose proof (tail_in_frame _ _ _ _ _ _ _ _ F2 KJ) as F6. eapply tail_in_frame; [exact F6|].
      split; [exact R7|]. intros q XQ. apply R8; [apply (ti_in _ _ _ _ _ _ _ F6) in XQ; lia|]. intros XK. apply (DJ q XQ XK).
  - assert (G : forall j q, In j (k :: src) -> j <> k -> Xs j q -> grown X f1 f3 q -> False).
    { intros j q [J|J] NJ XJ XK; [congruence|]. destruct (Q12 j NJ J) as [KJ DJ].
      destruct XK as [XK|XK]; [apply (DJ q XJ XK)|].
      destruct (Ist j J) as (sj & lj & gj & hj & F1 & F2 & _). apply (ti_in _ _ _ _ _ _ _ F2) in XJ.
      destruct KJ as [KJ _]. lia. }
    intros j1 j2 q J1 J2 NJ. unfold set_at.
    destruct (Nat.eqb_spec j1 k) as [E|N1]; destruct (Nat.eqb_spec j2 k) as [E2|N2]; intros X1 X2.
    + congruence.
    + apply (G j2 q J2 N2 X2 X1).
    + apply (G j1 q J1 N1 X1 X2).
    + destruct J1 as [J1|J1]; [congruence|]. destruct J2 as [J2|J2]; [congruence|]. apply (Idis j1 j2 q J1 J2 NJ X1 X2).
Qed.

Lemma cstart_inv : forall i h src done cn tm m hk W T b Xs t, cinv i h src done cn tm m hk W T b Xs ->
  cinv i h src done cn (t, snd tm) (mkCM (c_file m) (set_time t (c_hd m)) (c_head m) (c_places m) (c_sts m)) hk W T b Xs.
Proof.
  intros i h src done cn tm m hk W T b Xs t [Iw Ie If Ip Ipl It Im Ih Il Id In0 Ist Idis].
  constructor; cbn [c_file c_hd c_head c_places c_sts fst snd]; auto.
  - rewrite It. reflexivity.
  - rewrite Im. reflexivity.
Qed.

Lemma cfinal_inv : forall i h src done cn tm m hk W T b Xs, cinv i h src done cn tm m hk W T b Xs ->
  exists hk' W' T', cinv i h src done cn (fst tm, fst tm) (finish m) hk' W' T' b Xs.
Proof.
  intros i h src done cn tm m hk W T b Xs [Iw Ie If Ip Ipl It Im Ih Il Id In0 Ist Idis].
  set (h' := set_time (fst tm) hk). fold h' in Im.
  assert (SP : same_parts hk h') by (repeat split).
  assert (NE : (0 < length (write_id false i []))%nat) by (rewrite write_id_new, id_bytes_length; lia).
  unfold write_file in Iw. destruct (hd_patch_fields _ _ _ _ _ NE SP Iw) as (A & B & C & _).
  set (w0 := [(b_pos b + 72, fields_bytes (hd_fields h'))]%nat) in *.
  assert (L0 : length (puts W w0) = length W) by (apply puts_length; exact B).
  destruct (file_patch i h' (puts W w0) b _ _ A (patches_all (h_dgs h'))) as (A2 & B2 & C2).
  set (ws := zip_writes _ _) in *.
  assert (SE : set_dgs h' (h_dgs h') = h') by reflexivity. rewrite SE in *. clear SE.
  assert (EW : hd_writes (c_head m) (c_places m) (c_hd m) = w0 ++ ws).
  { unfold hd_writes, w0. cbn [app]. rewrite Ip, Im. f_equal. rewrite Ipl. unfold ws. rewrite C. unfold zip_writes.
    generalize (hd_places hk (write_id false i [])). generalize (h_dgs h'). clear. intros ds.
    induction ds as [|d ds IH]; intros [|[p cgs] pls]; cbn [combine map concat]; auto. rewrite IH. reflexivity. }
  assert (LW : length (puts (puts W w0) ws) = length W) by (rewrite puts_length; auto).
  assert (EF : c_file (finish m) = puts (puts W w0) ws ++ T).
  { unfold finish. cbn [c_file]. rewrite EW, If, puts_app. rewrite puts_ext by exact B. apply puts_ext. exact B2. }
  exists h', (puts (puts W w0) ws), T.
  constructor; unfold finish; cbn [c_hd c_head c_places c_sts].
  - exact A2.
  - lia.
  - exact EF.
  - exact Ip.
  - rewrite C. exact Ipl.
  - rewrite Im. reflexivity.
  - exact Im.
  - cbn [fst snd]. unfold h'. rewrite Ih at 1. reflexivity.
  - exact Il.
  - exact Id.
  - exact In0.
  - intros j J. destruct (Ist j J) as (sj & lj & gj & hj & F1 & F2 & F3 & F4 & F5).
    exists sj, lj, gj, hj. rewrite LW. split; [exact F1|]. split; [|auto]. fold (finish m). rewrite EF.
    eapply tail_in_frame; [exact F2|]. rewrite If. pose proof (kept_front deflate (Xs j) W (puts (puts W w0) ws) T [] (eq_sym LW)) as Q.
    rewrite app_nil_r in Q. apply Q. intros q XQ. apply (ti_in _ _ _ _ _ _ _ F2) in XQ. rewrite If in XQ. exact XQ.
  - exact Idis.
Qed.

Lemma cinv_ext : forall i h src src' done done' cn cn' tm m hk W T b Xs,
  (forall k, In k src <-> In k src') -> (forall k, done k = done' k) -> (forall k, cn k = cn' k) ->
  cinv i h src done cn tm m hk W T b Xs -> cinv i h src' done' cn' tm m hk W T b Xs.
Proof.
  intros i h src src' done done' cn cn' tm m hk W T b Xs HS HP HC [Iw Ie If Ip Ipl It Im Ih Il Id In0 Ist Idis].
  constructor; auto.
  - intros k d E. rewrite <- HC. auto.
  - intros k K. apply In0. rewrite HS. exact K.
  - intros k K. rewrite <- HP. apply Ist. apply HS. exact K.
  - intros j k q J K. apply Idis; apply HS; assumption.
Qed.

Lemma crun_snoc : forall a o m, crun deflate (a ++ [o]) m = bind (crun deflate a m) (cstep deflate o).
Proof.
  induction a as [|x a IH]; intros o m; cbn [app crun].
  - cbn [bind]. destruct (cstep deflate o m); reflexivity.
  - destruct (cstep deflate x m) as [m1| |]; [|reflexivity|reflexivity]. cbn [bind]. apply IH.
Qed.

Lemma stored_app : forall k a b, stored k (a ++ b) = stored k a ++ stored k b.
Proof. intros. apply flat_map_app. Qed.

Lemma stored_none : forall k a, ~ In k (sources (map plain_call a)) -> stored k a = [].
Proof.
  intros k. induction a as [|o a IH]; intros H; [reflexivity|]. cbn [stored sources flat_map map] in *. fold (stored k a).
  rewrite in_app_iff in H. rewrite (IH (fun X => H (or_intror X))), app_nil_r. destruct o as [t|j f x e|]; try reflexivity.
  destruct (Nat.eqb_spec j k) as [->|NJ]; [|reflexivity]. exfalso. apply H. left. left. reflexivity.
Qed.

(** Sizes of the data of each data group. *)
Definition sizes_ok (ops : list cop) : Prop :=
  forall k, N.of_nat (length (concat (concat (stored k ops)))) < 2 ^ 63 /\ Forall (Forall (fits deflate)) (stored k ops).

Lemma sizes_prefix : forall a b, sizes_ok (a ++ b) -> sizes_ok a.
Proof.
  intros a b H k. destruct (H k) as [A B]. rewrite stored_app in A, B. apply Forall_app in B as [B _].
  rewrite !concat_app, app_length in A. split; [lia|exact B].
Qed.

Lemma crun_inv : forall i h ops, hd_ok h -> calls_ok h (map plain_call ops) -> sizes_ok ops ->
  exists m hk W T b Xs, bind (init_comp i h) (crun deflate ops) = Ok m /\
    cinv i h (sources (map plain_call ops)) (fun k => stored k ops) (fun k => counters k (map plain_call ops))
      (times (h_time h) (map plain_call ops)) m hk W T b Xs.
Proof.
  intros i h ops OK. induction ops as [|o ops IH] using rev_ind; intros CO SZ.
  - destruct (file_written i h OK) as [n H]. destruct (H n (le_n n)) as (W & b & E & _ & L & _). clear H.
    unfold init_comp. rewrite E. cbn [bind crun]. eexists _, h, W, [], b, (fun _ _ => False). split; [reflexivity|].
    constructor; cbn [c_file c_hd c_head c_places c_sts fst snd times stored_time fold_left sources flat_map map]; auto.
    + symmetry. apply app_nil_r.
    + destruct h; reflexivity.
    + destruct h; reflexivity.
    + intros k d Ek. rewrite Ek. unfold lk_of. cbn [find_st counters fold_left]. unfold dg_is. f_equal.
      assert (EM : map (counted None) (d_cgs d) = d_cgs d).
      { clear. induction (d_cgs d) as [|g gs IH]; [reflexivity|]. cbn [map]. rewrite IH. reflexivity. }
      rewrite EM. symmetry. apply dg_same.
    + intros k [].
  - rewrite map_app in CO |- *. cbn [map] in CO |- *.
    destruct (IH (calls_prefix _ _ _ CO) (sizes_prefix _ _ SZ)) as (m & hk & W & T & b & Xs & E & I). clear IH.
    assert (EB : bind (init_comp i h) (crun deflate (ops ++ [o])) = bind (bind (init_comp i h) (crun deflate ops)) (cstep deflate o)).
    { destruct (init_comp i h) as [m0| |]; [|reflexivity|reflexivity]. cbn [bind]. apply crun_snoc. }
    rewrite EB, E. cbn [bind]. rewrite times_snoc. clear EB E.
    assert (SE : forall k, stored k (ops ++ [o]) = stored k ops ++ stored k [o]) by (intros; apply stored_app).
    destruct o as [t|k full rest e|]; cbn [cstep plain_call] in *.
    + eexists _, hk, W, T, b, Xs. split; [reflexivity|]. rewrite sources_app. cbn [sources flat_map]. rewrite app_nil_r.
      apply (cinv_ext i h (sources (map plain_call ops)) _ (fun k => stored k ops) _ (fun k => counters k (map plain_call ops))).
      * reflexivity.
      * intros k. rewrite SE. cbn [stored flat_map]. symmetry. apply app_nil_r.
      * intros k. rewrite counters_snoc. reflexivity.
      * apply cstart_inv. exact I.
    + destruct CO as [CO _]. rewrite sources_app in CO |- *. cbn [sources flat_map app] in CO |- *.
      destruct (CO k ltac:(apply in_or_app; right; left; reflexivity)) as (d & Ed & Ld).
      assert (SK : stored k [CStore k full rest e] = [step_chunks full rest]).
      { cbn [stored flat_map]. rewrite Nat.eqb_refl, app_nil_r. reflexivity. }
      destruct (SZ k) as [SZ1 SZ2]. rewrite SE, SK in SZ1, SZ2. apply Forall_app in SZ2 as [_ SZ2]. apply Forall_inv in SZ2.
      rewrite !concat_app, app_length in SZ1. cbn [concat] in SZ1. rewrite app_nil_r in SZ1.
      destruct (store_inv _ _ _ _ _ _ _ _ _ _ _ _ k d full rest e I Ed) as (m' & hk' & W' & T' & Xs' & ES & I').
      { intros K. split; [exact Ld|]. apply stored_none. exact K. }
      { exact SZ2. } { exact SZ1. }
      eexists m', hk', W', T', b, Xs'. split; [exact ES|].
      refine (cinv_ext _ _ _ _ _ _ _ _ _ _ _ _ _ _ _ _ _ _ I').
      * intros j. rewrite in_app_iff. cbn [In]. tauto.
      * intros j. rewrite SE. unfold set_at. destruct (Nat.eqb_spec j k) as [->|NJ]; [rewrite SK; reflexivity|].
        cbn [stored flat_map]. replace (k =? j)%nat with false by (symmetry; apply Nat.eqb_neq; congruence). symmetry. apply app_nil_r.
      * intros j. rewrite counters_snoc. unfold set_at. rewrite (Nat.eqb_sym j k). destruct (k =? j)%nat; reflexivity.
    + destruct (cfinal_inv _ _ _ _ _ _ _ _ _ _ _ _ I) as (hk' & W' & T' & I').
      eexists _, hk', W', T', b, Xs. split; [reflexivity|]. rewrite sources_app. cbn [sources flat_map]. rewrite app_nil_r.
      apply (cinv_ext i h (sources (map plain_call ops)) _ (fun k => stored k ops) _ (fun k => counters k (map plain_call ops))).
      * reflexivity.
      * intros k. rewrite SE. cbn [stored flat_map]. symmetry. apply app_nil_r.
      * intros k. rewrite counters_snoc. reflexivity.
      * exact I'.
Qed.

(* ------------------------------------------------------------------ *)
(** ** Reading *)

Lemma cinv_hd_ok : forall i h ops src done cn m hk W T b Xs, hd_ok h -> (forall s, In (MStart s) ops -> stamp_ok s) ->
  cinv i h src done cn (times (h_time h) ops) m hk W T b Xs -> N.of_nat (length (c_file m)) < 2 ^ 63 -> hd_ok hk.
Proof.
  intros i h ops src done cn m hk W T b Xs OK ST I LF.
  destruct OK as ((O1 & O2) & O3 & O4 & O5 & O6 & O7 & O8).
  rewrite (cv_hk _ _ _ _ _ _ _ _ _ _ _ _ _ I). unfold hd_ok, set_dgs, set_time.
  cbn [h_time h_class h_flags h_angle h_distance h_md h_fhs h_ats h_chs h_evs h_dgs].
  split; [split; [apply times_ok; auto|exact O2]|]. repeat (split; [assumption|]).
  apply Forall_forall. intros d HD. apply In_nth_error in HD as [k HD].
  assert (LK : (k < length (h_dgs h))%nat).
  { rewrite <- (cv_len _ _ _ _ _ _ _ _ _ _ _ _ _ I). apply nth_error_Some. rewrite HD. discriminate. }
  apply nth_error_Some in LK. destruct (nth_error (h_dgs h) k) as [d0|] eqn:E0; [|congruence].
  rewrite (cv_dgs _ _ _ _ _ _ _ _ _ _ _ _ _ I k d0 E0) in HD. apply some_eq in HD. subst d.
  apply nth_error_In in E0. rewrite Forall_forall in O8. destruct (O8 d0 E0) as (D1 & D2 & D3 & D4).
  unfold dg_ok, dg_is. cbn [d_idsize d_md d_link d_cgs]. split; [exact D1|]. split.
  - unfold lk_of. destruct (find_st k (c_sts m)) as [sk|] eqn:F; [|exact D2].
    destruct (in_dec Nat.eq_dec k src) as [K|K].
    + destruct (cv_st _ _ _ _ _ _ _ _ _ _ _ _ _ I k K) as (s' & l & gs & hi & F' & TI & _). rewrite F in F'. apply some_eq in F'. subst s'.
      pose proof (hl_at_range _ _ _ (ti_hl _ _ _ _ _ _ _ TI)). unfold u64. lia.
    + rewrite (cv_none _ _ _ _ _ _ _ _ _ _ _ _ _ I k K) in F. discriminate.
  - split; [exact D3|]. apply Forall_map. eapply Forall_impl; [|exact D4]. intros g. apply counted_ok.
Qed.

Lemma cinv_read : forall i h ops src done cn m hk W T b Xs, hd_ok h -> id_texts i -> id_numbers i ->
  (forall s, In (MStart s) ops -> stamp_ok s) ->
  cinv i h src done cn (times (h_time h) ops) m hk W T b Xs -> N.of_nat (length (c_file m)) < 2 ^ 63 ->
  exists enough, forall fuel, (enough <= fuel)%nat -> forall x,
    read_file fuel (c_file m ++ x) = Ok (id_trimmed i, hd_form hk).
Proof.
  intros i h ops src done cn m hk W T b Xs OK IT IN ST I LF.
  pose proof (cinv_hd_ok _ _ _ _ _ _ _ _ _ _ _ _ OK ST I LF) as OK'.
  rewrite (cv_file _ _ _ _ _ _ _ _ _ _ _ _ _ I) in *. rewrite app_length in LF.
  destruct (file_read i hk W b IT IN OK' (cv_write _ _ _ _ _ _ _ _ _ _ _ _ _ I) ltac:(lia)) as [n H].
  exists n. intros fuel L x. rewrite <- app_assoc. apply H. exact L.
Qed.

Lemma cinv_data : forall inflate, zlib_ok deflate inflate -> forall i h src done cn tm m hk W T b Xs k d x fuel,
  cinv i h src done cn tm m hk W T b Xs -> N.of_nat (length (c_file m ++ x)) < 2 ^ 63 ->
  N.of_nat (length (concat (concat (done k)))) < 2 ^ 63 -> Forall (fun xs => N.of_nat (length xs) < 2 ^ 32) (done k) ->
  (length (done k) + 2 < fuel)%nat ->
  nth_error (h_dgs hk) k = Some d -> In k src -> list_data fuel inflate (c_file m ++ x) (dg_form d) = Some (Ok (concat (done k))).
Proof.
  intros inflate Z i h src done cn tm m hk W T b Xs k d x fuel I LF B C FU E K.
  destruct (cv_st _ _ _ _ _ _ _ _ _ _ _ _ _ I k K) as (s & l & gs & hi & F & TI & LK & SR & OF).
  assert (LK' : (k < length (h_dgs h))%nat).
  { rewrite <- (cv_len _ _ _ _ _ _ _ _ _ _ _ _ _ I). apply nth_error_Some. rewrite E. discriminate. }
  apply nth_error_Some in LK'. destruct (nth_error (h_dgs h) k) as [d0|] eqn:E0; [|congruence].
  rewrite (cv_dgs _ _ _ _ _ _ _ _ _ _ _ _ _ I k d0 E0) in E. apply some_eq in E. subst d.
  assert (TO : tail_ok (c_file m ++ x) (length W) (k_hl s) l gs hi).
  { eapply tail_frame; [apply (tail_in_ok _ _ _ _ _ _ _ TI)|]. apply agree_app. lia. }
  destruct (tail_read deflate inflate Z _ _ _ _ _ _ (done k) fuel TO LF SR B C FU) as (ds & R1 & R2).
  unfold list_data, dg_form, dg_is, lk_of. rewrite F. cbn [d_link]. rewrite R1. cbn [bind]. rewrite R2. reflexivity.
Qed.

End Comp.
