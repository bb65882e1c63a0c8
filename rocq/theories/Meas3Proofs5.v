(** The invariant of an MDF3 measurement over all calls. *)
From Verif Require Import Base BlockModel BlockSpec BlockProofs BlockProofs3 BlockProofs4 StreamModel StreamSpec StreamProofs StreamProofs2 RangeProofs Stream3Model Stream3Proofs
  ConvModel CcModel Cc3Proofs MetaModel MetaProofs
  IdentModel IdentSpec IdentProofs Meta3Model Meta3Spec Meta3Proofs Meta3Proofs2 MeasModel MeasProofs MeasProofs2 MeasProofs4
  Meas3Model Meas3Proofs Meas3Proofs2 Meas3Spec Meas3Proofs3 Meas3Proofs4.
Local Open Scope N_scope.

Lemma inv3_link : forall base h ops m data lk k d, (0 < length base)%nat -> inv3 base h ops m data lk -> nth_error (h3_dgs h) k = Some d ->
  (lk k =? 0) = negb (existsb (Nat.eqb k) (sources3 ops)).
Proof.
  intros base h ops m data lk k d NE V Hk. destruct (existsb (Nat.eqb k) (sources3 ops)) eqn:X; cbn [negb].
  - apply existsb_exists in X. destruct X as (j & I & EJ). apply Nat.eqb_eq in EJ. subst j.
    destruct (v_data _ _ _ _ _ _ V k d I Hk) as (a & b & _ & -> & _). apply N.eqb_neq. lia.
  - rewrite (v_none _ _ _ _ _ _ V); [reflexivity|]. intros I.
    assert (existsb (Nat.eqb k) (sources3 ops) = true); [|congruence]. apply existsb_exists. exists k. split; [exact I|apply Nat.eqb_refl].
Qed.

Lemma existsb_in : forall k l, existsb (Nat.eqb k) l = true <-> In k l.
Proof.
  intros k l. split; intros H.
  - apply existsb_exists in H. destruct H as (j & I & E). apply Nat.eqb_eq in E. subst. exact I.
  - apply existsb_exists. exists k. split; [exact H|apply Nat.eqb_refl].
Qed.

Lemma inv3_save : forall base h ops m data lk k recs m' ws, (0 < length base)%nat -> inv3 base h ops m data lk ->
  in_turn3 (ops ++ [Save3 k recs]) -> (k < length (h3_dgs h))%nat ->
  call3 (Save3 k recs) m = Some (ws, m') ->
  exists d lk', nth_error (h3_dgs h) k = Some d /\
    inv3 base h (ops ++ [Save3 k recs]) m' (data ++ bytes3 (ids_for d) recs) lk' /\
    lk' k = (if lk k =? 0 then N.of_nat (length (m3_file m)) else lk k) /\ (forall j, j <> k -> lk' j = lk j).
Proof.
  intros base h ops m data lk k recs m' ws NE V T LK E.
  destruct (nth_error (h3_dgs h) k) as [d|] eqn:Hk; [|apply nth_error_None in Hk; lia].
  exists d. destruct (save3_stopped _ _ _ _ _ _ _ _ _ _ _ V E Hk) as (l1 & l2 & EL & L1 & EH & E2 & E3 & E4 & E5 & _).
  set (v := if lk k =? 0 then _ else _) in *.
  exists (fun j => if (j =? k)%nat then v else lk j). split; [reflexivity|]. split; [|split; [rewrite Nat.eqb_refl; reflexivity|]].
  2:{ intros j Hj. apply Nat.eqb_neq in Hj. rewrite Hj. reflexivity. }
  assert (JC : firstn (length (d3_cgs d)) (map (cg3_after (saved3 k ops ++ recs)) (d3_cgs d)) ++
     skipn (length (d3_cgs d)) (map (cg3_after (saved3 k ops)) (d3_cgs d)) = map (cg3_after (saved3 k ops ++ recs)) (d3_cgs d)).
  { rewrite firstn_all2, skipn_all2 by (rewrite map_length; lia). apply app_nil_r. }
  unfold stopped_hd in EH. rewrite JC in EH.
  assert (EDG : h3_dgs (m3_hd m') = l1 ++ dg_now (saved3 k ops ++ recs) v d :: l2) by (rewrite EH; reflexivity).
  assert (V6 : forall j x, nth_error (h3_dgs h) j = Some x ->
    nth_error (h3_dgs (m3_hd m')) j = Some (dg_now (saved3 j (ops ++ [Save3 k recs])) (if (j =? k)%nat then v else lk j) x)).
  { intros j x Hj. rewrite saved3_snoc, EDG. rewrite (Nat.eqb_sym j k).
    destruct (Nat.eqb_spec k j) as [<-|Q].
    - rewrite <- L1, nth_error_app2, Nat.sub_diag by lia. cbn [nth_error]. rewrite L1. replace x with d by congruence. reflexivity.
    - rewrite app_nil_r. pose proof (v_dgs _ _ _ _ _ _ V j x Hj) as P. rewrite EL in P.
      destruct (le_lt_dec (length l1) j) as [G|G].
      + rewrite nth_error_app2 in * by lia. destruct (j - length l1)%nat eqn:Z; [lia|]. exact P.
      + rewrite nth_error_app1 in * by lia. exact P. }
  assert (LN : length (h3_dgs (m3_hd m')) = length (h3_dgs h)).
  { rewrite EDG. rewrite <- (v_len _ _ _ _ _ _ V), EL, !app_length. reflexivity. }
  assert (AL : hd_alike h (m3_hd m')).
  { split; [rewrite EH, (v_hd _ _ _ _ _ _ V); reflexivity|]. apply pointwise_alike; [exact LN|]. intros j x Hj. eauto. }
  pose proof (inv3_alike _ _ _ _ _ _ (stored_time3 h ops) V) as AT.
  assert (LFM : length (m3_file m) = (length base + length (hd_b h (length base)) + length data)%nat).
  { rewrite (v_file _ _ _ _ _ _ V), !app_length, (proj1 (hd_alike_same _ _ (length base) AT)). lia. }
  constructor.
  - rewrite stored_snoc. exact E5.
  - rewrite E2. apply (v_head _ _ _ _ _ _ V).
  - rewrite E3, (v_places _ _ _ _ _ _ V).
    rewrite (proj2 (hd_alike_same _ _ (length base) AL)), (proj2 (hd_alike_same _ _ (length base) (inv3_alike0 _ _ _ _ _ _ V))). reflexivity.
  - rewrite known_snoc. rewrite EDG. rewrite EH. rewrite (v_hd _ _ _ _ _ _ V). reflexivity.
  - exact LN.
  - exact V6.
  - intros j id. rewrite E4, saved3_snoc, (Nat.eqb_sym k j). destruct (Nat.eqb_spec j k) as [->|Q].
    + unfold count_recs. rewrite (v_cnt _ _ _ _ _ _ V), occ_app. reflexivity.
    + rewrite app_nil_r. apply (v_cnt _ _ _ _ _ _ V).
  - intros j NI. rewrite sources3_snoc in NI. destruct (Nat.eqb_spec j k) as [->|Q].
    + exfalso. apply NI. apply in_or_app. right. left. reflexivity.
    + apply (v_none _ _ _ _ _ _ V). intros I. apply NI. apply in_or_app. left. exact I.
  - intros j x I Hj. rewrite saved3_snoc, sources3_snoc, (Nat.eqb_sym k j).
    pose proof (inv3_link _ _ _ _ _ _ k d NE V Hk) as LZ.
    destruct (Nat.eqb_spec j k) as [->|Q].
    + replace x with d by congruence. unfold v. rewrite LZ. destruct (existsb (Nat.eqb k) (sources3 ops)) eqn:X; cbn [negb].
      * apply existsb_in in X. destruct (v_data _ _ _ _ _ _ V k d X Hk) as (a & b & E1 & EK & EB).
        assert (LS : last (sources3 ops) k = k).
        { apply (T (sources3 ops) k []); [|exact X]. rewrite sources3_snoc. reflexivity. }
        rewrite (EB LS) in E1. rewrite app_nil_r in E1. exists a, []. split.
        { rewrite E1, bytes3_app, !app_nil_r, <- app_assoc. reflexivity. } split; [exact EK|auto].
      * assert (NI : ~ In k (sources3 ops)) by (intros C; apply existsb_in in C; congruence).
        rewrite (saved3_none _ _ NI). cbn [app]. exists data, []. rewrite app_nil_r. split; [reflexivity|]. split; [|auto].
        f_equal. exact LFM.
    + rewrite app_nil_r.
      assert (IO : In j (sources3 ops)).
      { rewrite sources3_snoc in I. apply in_app_or in I. destruct I as [I|[I|[]]]; [exact I|congruence]. }
      destruct (v_data _ _ _ _ _ _ V j x IO Hj) as (a & b & E1 & EK & EB).
      exists a, (b ++ bytes3 (ids_for d) recs). split; [rewrite E1, <- !app_assoc; reflexivity|]. split; [exact EK|].
      rewrite last_last. intros C. congruence.
Qed.

(* ------------------------------------------------------------------ *)
(** ** Finalizing *)

Lemma only_nof_refl : forall l, Forall2 only_nof l l.
Proof. induction l as [|g r IH]; constructor; auto. unfold only_nof. destruct g; reflexivity. Qed.

Lemma firstn_app_eq : forall {A} j (a b : list A), firstn j (a ++ b) = firstn j a ++ firstn (j - length a) b.
Proof. intros. apply firstn_app. Qed.

Lemma final3_stopped : forall base h ops m data lk m' ws j, inv3 base h ops m data lk -> call3 Final3 m = Some (ws, m') ->
  puts (m3_file m) (firstn j ws) =
    base ++ hd_b (set_time3 (mix_time j (stored_time3 h ops) (known_time3 h ops)) (m3_hd m)) (length base) ++ data.
Proof.
  intros base h ops m data lk m' ws j V E. cbn [call3] in E.
  assert (EW : ws = hd3_writes (m3_head m) (m3_places m) (m3_hd m)) by congruence. rewrite EW. clear E EW.
  rewrite (v_head _ _ _ _ _ _ V), (v_places _ _ _ _ _ _ V). unfold hd3_writes.
  rewrite firstn_app_eq, puts_app, seq_writes_length. change (length (hd3_parts (m3_hd m))) with 11%nat.
  rewrite (v_file _ _ _ _ _ _ V).
  assert (EK : set_time3 (known_time3 h ops) (m3_hd m) = m3_hd m) by (rewrite (v_hd _ _ _ _ _ _ V); reflexivity).
  pose proof (hd_time_edit (m3_hd m) (stored_time3 h ops) (known_time3 h ops) base data j) as K. rewrite EK in K. rewrite K. clear K.
  set (t := mix_time j _ _). clearbody t. set (hm := m3_hd m). generalize (j - 11)%nat. clear j. intros j.
  destruct (rev (combine (hd_places_b hm (length base)) (h3_dgs hm))) as [|[[p cgs] d] r] eqn:ER.
  { rewrite firstn_nil. reflexivity. }
  assert (EC : combine (hd_places_b hm (length base)) (h3_dgs hm) = rev r ++ [((p, cgs), d)]).
  { rewrite <- (rev_involutive (combine _ _)), ER. reflexivity. }
  assert (HL : length (hd_places_b hm (length base)) = length (h3_dgs hm)).
  { unfold hd_places_b. rewrite map_length, combine_length, places_b_length, map_length. apply Nat.min_id. }
  assert (ED : nth_error (h3_dgs hm) (length r) = Some d /\ nth_error (hd_places_b hm (length base)) (length r) = Some (p, cgs)).
  { assert (N1 : nth_error (combine (hd_places_b hm (length base)) (h3_dgs hm)) (length r) = Some ((p, cgs), d)).
    { rewrite EC, nth_error_app2 by (rewrite rev_length; lia). rewrite rev_length, Nat.sub_diag. reflexivity. }
    clear -N1 HL. revert N1 HL. generalize (hd_places_b hm (length base)) (h3_dgs hm). generalize (length r). clear.
    induction n as [|n IH]; intros [|a la] [|b lb] N1 HL; try discriminate; cbn [combine nth_error] in *.
    - split; congruence.
    - apply IH; [exact N1|cbn in HL; lia]. }
  destruct ED as [ED EP]. rewrite (hd_place_at _ _ _ _ ED) in EP.
  set (P := place_at hm (length base) (length r)) in *.
  assert (p = P) as -> by congruence. assert (cgs = dg_places_b d P) as -> by congruence. clear EP.
  destruct (nth_error_split _ _ ED) as (l1 & l2 & EL & LK).
  unfold dg3_writes. rewrite firstn_app_eq, puts_app.
  assert (EPT : P = place_at (set_time3 t hm) (length base) (length l1)) by (rewrite LK; reflexivity).
  assert (EL' : h3_dgs (set_time3 t hm) = l1 ++ d :: l2) by exact EL.
  pose proof (hd_same_edit (set_time3 t hm) l1 d l2 base data j EL') as K1.
  change (nth (length l1) (places_b (map dg_b (h3_dgs (set_time3 t hm))) (dgs_at (set_time3 t hm) (length base))) 0%nat)
    with (place_at (set_time3 t hm) (length base) (length l1)) in K1. rewrite <- EPT in K1. rewrite K1. clear K1.
  match goal with |- puts _ (firstn ?n _) = _ => pose proof (cgs_edit (set_time3 t hm) l1 d l2 (d3_cgs d) base data n EL' (only_nof_refl _)) as K2 end.
  rewrite <- EPT in K2. replace (set_cgs (d3_cgs d) d) with d in K2 by (destruct d; reflexivity). rewrite K2.
  rewrite firstn_skipn. replace (set_cgs (d3_cgs d) d) with d by (destruct d; reflexivity). rewrite <- EL'.
  replace (set_dgs3 (set_time3 t hm) (h3_dgs (set_time3 t hm))) with (set_time3 t hm) by reflexivity. reflexivity.
Qed.

Lemma inv3_final : forall base h ops m data lk m' ws, inv3 base h ops m data lk -> call3 Final3 m = Some (ws, m') ->
  inv3 base h (ops ++ [Final3]) m' data lk.
Proof.
  intros base h ops m data lk m' ws V E.
  pose proof (final3_stopped _ _ _ _ _ _ _ _ (11 + length ws) V E) as F.
  rewrite mix_time_all in F by lia. rewrite firstn_all2 in F by lia.
  cbn [call3] in E.
  assert (EW : ws = hd3_writes (m3_head m) (m3_places m) (m3_hd m)) by congruence.
  assert (EM : m' = mkM3 (puts (m3_file m) ws) (m3_hd m) (m3_head m) (m3_places m) (m3_cnt m)) by congruence. clear E EW.
  destruct V as [V1 V2 V3 V4 V5 V6 V7 V8 V9].
  subst m'; constructor; cbn [m3_file m3_head m3_places m3_hd m3_cnt];
    rewrite ?sources3_snoc, ?stored_snoc, ?known_snoc, ?app_nil_r; auto.
  - intros k d Hk. rewrite saved3_snoc, app_nil_r. auto.
  - intros k id. rewrite saved3_snoc, app_nil_r. auto.
  - intros k d I Hk. rewrite saved3_snoc, app_nil_r. auto.
Qed.

Lemma inv3_call : forall base h ops m data lk o m' ws, (0 < length base)%nat -> inv3 base h ops m data lk -> in_turn3 (ops ++ [o]) ->
  (forall k, In k (sources3 (ops ++ [o])) -> (k < length (h3_dgs h))%nat) ->
  call3 o m = Some (ws, m') -> exists data' lk', inv3 base h (ops ++ [o]) m' data' lk'.
Proof.
  intros base h ops m data lk o m' ws NE V T C E. destruct o as [t|k recs|].
  - destruct (inv3_start _ _ _ _ _ _ _ _ _ V E) as [_ I]. eauto.
  - assert (LK : (k < length (h3_dgs h))%nat).
    { apply C. rewrite sources3_snoc. apply in_or_app. right. left. reflexivity. }
    destruct (inv3_save _ _ _ _ _ _ _ _ _ _ NE V T LK E) as (d & lk' & _ & I & _). eauto.
  - eauto using inv3_final.
Qed.

Lemma inv3_run : forall base h ops0 m0 data lk ops m, (0 < length base)%nat -> inv3 base h ops0 m0 data lk -> in_turn3 (ops0 ++ ops) ->
  (forall k, In k (sources3 (ops0 ++ ops)) -> (k < length (h3_dgs h))%nat) ->
  run3 ops m0 = Some m -> exists data' lk', inv3 base h (ops0 ++ ops) m data' lk'.
Proof.
  intros base h ops0 m0 data lk ops. revert ops0 m0 data lk. induction ops as [|o r IH]; intros ops0 m0 data lk m NE V T C E.
  - cbn [run3] in E. rewrite app_nil_r. assert (m = m0) as -> by congruence. eauto.
  - cbn [run3] in E. destruct (call3 o m0) as [[ws m1]|] eqn:EC; [|discriminate].
    replace (ops0 ++ o :: r) with ((ops0 ++ [o]) ++ r) in * by (rewrite <- app_assoc; reflexivity).
    destruct (inv3_call _ _ _ _ _ _ _ _ _ NE V (in_turn3_app _ _ T)
      (fun k I => C k (eq_ind_r (fun l => In k l) (in_or_app _ _ _ (or_introl I)) (flat_map_app _ _ _))) EC) as (data1 & lk1 & V1).
    exact (IH _ _ _ _ _ NE V1 T C E).
Qed.
