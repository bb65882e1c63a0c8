(** Runs of calls, and reading the file. *)
From Verif Require Import Base BlockModel BlockSpec BlockProofs BlockProofs2 MetaModel MetaSpec MetaProofs3 DataModel
  DataSpec DataProofs IdentModel IdentSpec IdentProofs QueueModel MeasModel MeasSpec MeasProofs MeasProofs2 MeasProofs3 MeasProofs4.
Local Open Scope N_scope.

Lemma inv_ext : forall i h src src' cur pay pay' cn cn' tm m hk W T b,
  (forall k, In k src <-> In k src') -> (forall k, pay k = pay' k) -> (forall k, cn k = cn' k) ->
  inv i h src cur pay cn tm m hk W T b -> inv i h src' cur pay' cn' tm m hk W T b.
Proof.
  intros i h src src' cur pay pay' cn cn' tm m hk W T b HS HP HC [Iw Ie If Ip Ipl It Im Ih Il Id In0 Idt Ic].
  constructor; auto.
  - intros k d E. rewrite <- HC. auto.
  - intros k K. apply In0. rewrite HS. exact K.
  - intros k K. rewrite <- HP. apply Idt. apply HS. exact K.
  - intros c bc E F. rewrite <- HP. destruct (Ic c bc E F) as [A B]. split; [exact A|]. intros j bj J. rewrite <- HP. apply B. apply HS. exact J.
Qed.

Lemma mrun_snoc : forall a o m, mrun (a ++ [o]) m = bind (mrun a m) (mstep o).
Proof.
  induction a as [|x a IH]; intros o m; cbn [app mrun].
  - cbn [bind]. destruct (mstep o m); reflexivity.
  - destruct (mstep x m) as [m1| |]; [|reflexivity|reflexivity]. cbn [bind]. apply IH.
Qed.

Lemma sources_app : forall a b, sources (a ++ b) = sources a ++ sources b.
Proof. intros. apply flat_map_app. Qed.
Lemma saved_app : forall k a b, saved k (a ++ b) = saved k a ++ saved k b.
Proof. intros. apply flat_map_app. Qed.
Lemma counters_snoc : forall k a o, counters k (a ++ [o]) =
  match o with MSave j _ e => if (j =? k)%nat then Some e else counters k a | _ => counters k a end.
Proof. intros. unfold counters. rewrite fold_left_app. reflexivity. Qed.
Lemma times_snoc : forall t a o, times t (a ++ [o]) =
  match o with MStart s => (s, snd (times t a)) | MFinal => (fst (times t a), fst (times t a)) | _ => times t a end.
Proof. intros. unfold times. rewrite fold_left_app. cbn [fold_left]. destruct (fold_left _ a (t, t)). destruct o; reflexivity. Qed.

Lemma saved_none : forall k a, ~ In k (sources a) -> saved k a = [].
Proof.
  intros k. induction a as [|o a IH]; intros H; [reflexivity|]. cbn [saved sources flat_map] in *. fold (saved k a).
  rewrite in_app_iff in H. rewrite (IH (fun X => H (or_intror X))), app_nil_r. destruct o as [t|j x e|]; try reflexivity.
  destruct (Nat.eqb_spec j k) as [->|NJ]; [|reflexivity]. exfalso. apply H. left. left. reflexivity.
Qed.

Lemma last_head : forall (l : list nat) k, In k l -> last l k = k -> hd_error (rev l) = Some k.
Proof.
  intros l k. destruct l as [|x l _] using rev_ind; intros HI HL; [destruct HI|].
  rewrite rev_app_distr. cbn [rev app hd_error]. rewrite last_last in HL. congruence.
Qed.

Lemma in_turn_prefix : forall a b, in_turn (a ++ b) -> in_turn a.
Proof.
  intros a b H l1 k l2 E. apply (H l1 k (l2 ++ sources b)). rewrite sources_app, E, <- app_assoc. reflexivity.
Qed.

Lemma calls_prefix : forall h a b, calls_ok h (a ++ b) -> calls_ok h a.
Proof.
  intros h a b [A B]. split; intros x X; [apply A; rewrite sources_app|apply B]; apply in_or_app; left; exact X.
Qed.

Definition cur_of (l : list nat) : option nat := hd_error (rev l).

Lemma run_inv : forall i h ops, hd_ok h -> calls_ok h ops -> in_turn ops ->
  exists m hk W T b, bind (init_meas i h) (mrun ops) = Ok m /\
    inv i h (sources ops) (cur_of (sources ops)) (fun k => saved k ops) (fun k => counters k ops)
      (times (h_time h) ops) m hk W T b.
Proof.
  intros i h ops OK. induction ops as [|o ops IH] using rev_ind; intros CO TU.
  - destruct (file_written i h OK) as [n H]. destruct (H n (le_n n)) as (W & b & E & _ & L & _). clear H.
    unfold init_meas. rewrite E. cbn [bind mrun]. eexists _, h, W, [], b. split; [reflexivity|].
    constructor; cbn [m_file m_hd m_head m_places m_dts fst snd times stored_time fold_left sources flat_map]; auto.
    + symmetry. apply app_nil_r.
    + destruct h; reflexivity.
    + destruct h; reflexivity.
    + intros k d Ek. rewrite Ek. unfold link_of. cbn [find_dt counters fold_left]. unfold dg_is. f_equal.
      assert (EM : map (counted None) (d_cgs d) = d_cgs d).
      { clear. induction (d_cgs d) as [|g gs IH]; [reflexivity|]. cbn [map]. rewrite IH. reflexivity. }
      rewrite EM. symmetry. apply dg_same.
    + intros k [].
    + discriminate.
  - destruct (IH (calls_prefix _ _ _ CO) (in_turn_prefix _ _ TU)) as (m & hk & W & T & b & E & I). clear IH.
    assert (EB : bind (init_meas i h) (mrun (ops ++ [o])) = bind (bind (init_meas i h) (mrun ops)) (mstep o)).
    { destruct (init_meas i h) as [m0| |]; [|reflexivity|reflexivity]. cbn [bind]. apply mrun_snoc. }
    rewrite EB, E. cbn [bind]. rewrite times_snoc. clear EB E.
    destruct o as [t|k bytes e|]; cbn [mstep].
    + eexists _, hk, W, T, b. split; [reflexivity|]. rewrite sources_app. cbn [sources flat_map]. rewrite app_nil_r.
      apply (inv_ext i h (sources ops) _ _ (fun k => saved k ops) _ (fun k => counters k ops)).
      * reflexivity.
      * intros k. rewrite saved_app. cbn [saved flat_map]. symmetry. apply app_nil_r.
      * intros k. rewrite counters_snoc. reflexivity.
      * apply start_inv. exact I.
    + destruct CO as [CO _]. rewrite sources_app in CO |- *. cbn [sources flat_map app] in CO |- *.
      destruct (CO k ltac:(apply in_or_app; right; left; reflexivity)) as (d & Ed & Ld).
      destruct (save_inv _ _ _ _ _ _ _ _ _ _ _ _ k d bytes e I Ed) as (m' & hk' & W' & T' & ES & I').
      { intros K. apply last_head; [exact K|]. apply (TU (sources ops) k []); [|exact K]. rewrite sources_app. reflexivity. }
      { intros K. split; [exact Ld|]. apply saved_none. exact K. }
      eexists m', hk', W', T', b. split; [exact ES|]. unfold cur_of. rewrite rev_app_distr. cbn [rev app hd_error].
      refine (inv_ext _ _ _ _ _ _ _ _ _ _ _ _ _ _ _ _ _ _ I').
      * intros j. rewrite in_app_iff. cbn [In]. tauto.
      * intros j. rewrite saved_app. cbn [saved flat_map]. rewrite app_nil_r. unfold set_at.
        rewrite (Nat.eqb_sym j k). destruct (Nat.eqb_spec k j) as [->|]; [reflexivity|]. symmetry. apply app_nil_r.
      * intros j. rewrite counters_snoc. unfold set_at. rewrite (Nat.eqb_sym j k). destruct (k =? j)%nat; reflexivity.
    + destruct (final_inv _ _ _ _ _ _ _ _ _ _ _ _ I) as (hk' & W' & T' & I').
      eexists _, hk', W', T', b. split; [reflexivity|]. rewrite sources_app. cbn [sources flat_map]. rewrite app_nil_r.
      apply (inv_ext i h (sources ops) _ _ (fun k => saved k ops) _ (fun k => counters k ops)).
      * reflexivity.
      * intros k. rewrite saved_app. cbn [saved flat_map]. symmetry. apply app_nil_r.
      * intros k. rewrite counters_snoc. reflexivity.
      * exact I'.
Qed.

(* ------------------------------------------------------------------ *)
(** ** Reading *)

Lemma counted_ok : forall c g, cg_ok g -> cg_ok (counted c g).
Proof.
  intros [e|] g H; [|exact H]. destruct H as (A1 & A2 & A3 & A4 & A5 & A6 & A7). unfold counted, cg_ok.
  cbn [g_record g_samples g_flags g_separator g_data g_inval g_name g_si g_md g_cns].
  split; [exact A1|]. split; [unfold u64, w64; apply N.mod_lt; discriminate|]. split; [exact A3|]. split; [exact A4|].
  assert (B : forall x, u32 (w32 x)) by (intros x; unfold u32, w32; apply N.mod_lt; discriminate).
  split; [destruct (N.testbit (g_flags g) 0); auto|]. split; [destruct (N.testbit (g_flags g) 0); auto|]. exact A7.
Qed.

Lemma times_ok : forall t ops, stamp_ok t -> (forall s, In (MStart s) ops -> stamp_ok s) ->
  stamp_ok (fst (times t ops)) /\ stamp_ok (snd (times t ops)).
Proof.
  intros t ops OK. induction ops as [|o ops IH] using rev_ind; intros H; [split; exact OK|].
  destruct IH as [A B]; [intros s X; apply H; apply in_or_app; left; exact X|]. rewrite times_snoc.
  destruct o as [s|k x e|]; cbn [fst snd]; auto. split; [|exact B]. apply H. apply in_or_app. right. left. reflexivity.
Qed.

Lemma inv_hd_ok : forall i h ops src cur pay cn m hk W T b, hd_ok h -> (forall s, In (MStart s) ops -> stamp_ok s) ->
  inv i h src cur pay cn (times (h_time h) ops) m hk W T b -> N.of_nat (length (m_file m)) < 2 ^ 63 -> hd_ok hk.
Proof.
  intros i h ops src cur pay cn m hk W T b OK ST I LF.
  destruct OK as ((O1 & O2) & O3 & O4 & O5 & O6 & O7 & O8).
  rewrite (iv_hk _ _ _ _ _ _ _ _ _ _ _ _ I). unfold hd_ok, set_dgs, set_time.
  cbn [h_time h_class h_flags h_angle h_distance h_md h_fhs h_ats h_chs h_evs h_dgs].
  split; [split; [apply times_ok; auto|exact O2]|]. repeat (split; [assumption|]).
  apply Forall_forall. intros d HD. apply In_nth_error in HD as [k HD].
  assert (LK : (k < length (h_dgs h))%nat).
  { rewrite <- (iv_len _ _ _ _ _ _ _ _ _ _ _ _ I). apply nth_error_Some. rewrite HD. discriminate. }
  apply nth_error_Some in LK. destruct (nth_error (h_dgs h) k) as [d0|] eqn:E0; [|congruence].
  rewrite (iv_dgs _ _ _ _ _ _ _ _ _ _ _ _ I k d0 E0) in HD. apply some_eq in HD. subst d.
  apply nth_error_In in E0. rewrite Forall_forall in O8. destruct (O8 d0 E0) as (D1 & D2 & D3 & D4).
  unfold dg_ok, dg_is. cbn [d_idsize d_md d_link d_cgs]. split; [exact D1|]. split.
  - unfold link_of. destruct (find_dt k (m_dts m)) as [bk|] eqn:F; [|exact D2].
    destruct (in_dec Nat.eq_dec k src) as [K|K].
    + destruct (iv_dt _ _ _ _ _ _ _ _ _ _ _ _ I k K) as (bk' & F' & _ & _ & _ & _ & [HB _]). rewrite F in F'. apply some_eq in F'. subst bk'.
      unfold u64. lia.
    + rewrite (iv_none _ _ _ _ _ _ _ _ _ _ _ _ I k K) in F. discriminate.
  - split; [exact D3|]. apply Forall_map. eapply Forall_impl; [|exact D4]. intros g. apply counted_ok.
Qed.

Lemma file_read : forall i hk W b, id_texts i -> id_numbers i -> hd_ok hk -> write_file i hk [] = Ok (W, b) ->
  N.of_nat (length W) < 2 ^ 63 ->
  exists enough, forall fuel, (enough <= fuel)%nat -> forall x, read_file fuel (W ++ x) = Ok (id_trimmed i, hd_form hk).
Proof.
  intros i hk W b IT IN OK' EW LF.
  destruct (file_written i hk OK') as [n H]. exists n. intros fuel L x.
  destruct (H fuel L) as (W' & b' & E & HI & LW & R). clear H.
  rewrite EW in E. apply ok_pair in E. destruct E as [<- <-].
  unfold read_file. rewrite (read_id_holds i); auto.
  - cbn [bind]. rewrite R; [reflexivity|lia|]. intros j J. apply nth_error_app1. lia.
  - apply holds_ext. exact HI.
Qed.

Lemma inv_read : forall i h ops src cur pay cn m hk W T b, hd_ok h -> id_texts i -> id_numbers i ->
  (forall s, In (MStart s) ops -> stamp_ok s) ->
  inv i h src cur pay cn (times (h_time h) ops) m hk W T b -> N.of_nat (length (m_file m)) < 2 ^ 63 ->
  exists enough, forall fuel, (enough <= fuel)%nat -> forall x,
    read_file fuel (m_file m ++ x) = Ok (id_trimmed i, hd_form hk).
Proof.
  intros i h ops src cur pay cn m hk W T b OK IT IN ST I LF.
  pose proof (inv_hd_ok _ _ _ _ _ _ _ _ _ _ _ _ OK ST I LF) as OK'.
  rewrite (iv_file _ _ _ _ _ _ _ _ _ _ _ _ I) in *. rewrite app_length in LF.
  destruct (file_read i hk W b IT IN OK' (iv_write _ _ _ _ _ _ _ _ _ _ _ _ I) ltac:(lia)) as [n H].
  exists n. intros fuel L x. rewrite <- app_assoc. apply H. exact L.
Qed.

Lemma dt_read : forall inflate f pos pay d, holds f pos (dt_bytes pay) -> (64 <= pos)%nat -> N.of_nat (length f) < 2 ^ 63 ->
  d_link d = N.of_nat pos -> group_data inflate f d = Some (Ok [pay]).
Proof.
  intros inflate f pos pay d HF NE LF EL. unfold group_data. rewrite EL. clear EL.
  assert (LB : (pos + 24 + length pay <= length f)%nat) by (destruct HF as [HF _]; rewrite dt_bytes_length in HF; lia).
  cbn [read_blocks]. unfold pos64.
  replace ((0 <? N.of_nat (pos)) && (N.of_nat (pos) <? 2 ^ 63))%bool with true.
  2: { symmetry. apply andb_true_iff. split; apply N.ltb_lt; lia. }
  rewrite Nat2N.id. unfold dt_bytes in HF. apply holds_app in HF as [H1 H2]. rewrite header_bytes_length in H2. cbn [length] in H2.
  replace (24 + 8 * 0)%nat with 24%nat in H2 by lia.
  rewrite (read_type_at f (pos) 68 84 _ [] ltac:(repeat split; discriminate) H1).
  cbv iota beta. replace (eqb_type [68; 84] 68 90) with false by reflexivity. replace (raw_type [68; 84]) with true by reflexivity.
  unfold read_raw. rewrite (read_header4_at _ _ _ _ _ H1).
  2: apply four_plain; repeat split; discriminate. 2: cbn; lia. 2: lia. 2: cbn; lia. 2: constructor.
  cbn [bind b_len length all_bytes block_bytes]. replace (24 + 8 * 0)%nat with 24%nat by lia.
  replace (if 24 <? N.of_nat (24 + length pay) then N.of_nat (24 + length pay) - 24 else 0) with (N.of_nat (length pay)).
  2: { destruct (N.ltb_spec 24 (N.of_nat (24 + length pay))); lia. }
  rewrite Nat2N.id, holds_slice_eq by exact H2. reflexivity.
Qed.

Lemma inv_data : forall inflate i h src cur pay cn tm m hk W T b k d x,
  inv i h src cur pay cn tm m hk W T b -> N.of_nat (length (m_file m ++ x)) < 2 ^ 63 ->
  nth_error (h_dgs hk) k = Some d -> In k src -> group_data inflate (m_file m ++ x) (dg_form d) = Some (Ok [pay k]).
Proof.
  intros inflate i h src cur pay cn tm m hk W T b k d x I LF E K.
  destruct (iv_dt _ _ _ _ _ _ _ _ _ _ _ _ I k K) as (bk & F & _ & _ & _ & WB & HB).
  assert (LK : (k < length (h_dgs h))%nat).
  { rewrite <- (iv_len _ _ _ _ _ _ _ _ _ _ _ _ I). apply nth_error_Some. rewrite E. discriminate. }
  apply nth_error_Some in LK. destruct (nth_error (h_dgs h) k) as [d0|] eqn:E0; [|congruence].
  rewrite (iv_dgs _ _ _ _ _ _ _ _ _ _ _ _ I k d0 E0) in E. apply some_eq in E. subst d.
  pose proof (iv_ne _ _ _ _ _ _ _ _ _ _ _ _ I) as NE.
  apply (dt_read inflate _ (b_pos bk)); [apply holds_ext; exact HB|lia|exact LF|].
  unfold dg_form, dg_is, link_of. rewrite F. reflexivity.
Qed.
