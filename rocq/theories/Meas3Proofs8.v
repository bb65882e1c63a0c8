(** The file of an MDF3 measurement after any writes of any call. *)
From Verif Require Import Base BlockModel BlockSpec BlockProofs BlockProofs3 BlockProofs4 StreamModel StreamSpec StreamProofs StreamProofs2 RangeProofs Stream3Model Stream3Proofs
  ConvModel CcModel Cc3Proofs MetaModel MetaProofs
  IdentModel IdentSpec IdentProofs Meta3Model Meta3Spec Meta3Proofs Meta3Proofs2 MeasModel MeasProofs MeasProofs2 MeasProofs4
  Meas3Model Meas3Proofs Meas3Proofs2 Meas3Spec Meas3Proofs3 Meas3Proofs4 Meas3Proofs5 Meas3Proofs6 Meas3Proofs7.
Local Open Scope N_scope.

(** What the file [f] holds for a data group [d] with the numbers [x]: [old] are the records of the
    calls before, [new] those of the call. *)
Definition group_state (f : file) (d x : dgb3) (old new : list srec) : Prop :=
  Forall2 only_nof (d3_cgs d) (d3_cgs x) /\ d3_link x <= N.of_nat (length f) /\
  exists new', (new' = [] \/ new' = new) /\
    Forall (fun c => g3_nof c = w32 (occ (g3_id c) old) \/ g3_nof c = w32 (occ (g3_id c) (old ++ new'))) (d3_cgs x) /\
    (old ++ new' = [] \/ exists a b, f = a ++ bytes3 (ids_for d) (old ++ new') ++ b /\ d3_link x = N.of_nat (length a)).

Lemma now_only_nof : forall d recs l, Forall (fun g => g3_nof g = 0) (d3_cgs d) \/ True -> Forall2 only_nof (d3_cgs d) (d3_cgs (dg_now recs l d)).
Proof. intros d recs l _. unfold dg_now. cbn [d3_cgs]. induction (d3_cgs d) as [|g r IH]; constructor; auto. reflexivity. Qed.

Lemma after_between : forall old l, Forall (fun c => g3_nof c = w32 (occ (g3_id c) old) \/ g3_nof c = w32 (occ (g3_id c) (old ++ []))) (map (cg3_after old) l).
Proof. intros old l. induction l; constructor; auto. Qed.

(** A data group that the call leaves alone. *)
Lemma group_kept : forall base h ops m data lk k d new t xs part, inv3 base h ops m data lk -> nth_error (h3_dgs h) k = Some d ->
  hd_alike h (set_time3 t (set_dgs3 h xs)) ->
  group_state (base ++ hd_b (set_time3 t (set_dgs3 h xs)) (length base) ++ data ++ part) d (dg_now (saved3 k ops) (lk k) d) (saved3 k ops) new.
Proof.
  intros base h ops m data lk k d new t xs part V Hk AL.
  pose proof (proj1 (hd_alike_same _ _ (length base) AL)) as LB. set (B := hd_b _ (length base)) in *. clearbody B.
  unfold group_state. split; [apply now_only_nof; auto|].
  destruct (existsb (Nat.eqb k) (sources3 ops)) eqn:X.
  - apply existsb_in in X. destruct (v_data _ _ _ _ _ _ V k d X Hk) as (a & b & E & EK & _).
    split.
    { cbn [dg_now d3_link]. rewrite EK, E. rewrite !app_length, LB. lia. }
    exists []. split; [left; reflexivity|]. split; [apply after_between|]. right.
    exists (base ++ B ++ a), (b ++ part). rewrite app_nil_r. split; [rewrite E, <- !app_assoc; reflexivity|].
    cbn [dg_now d3_link]. rewrite EK, !app_length, LB. f_equal. lia.
  - assert (NI : ~ In k (sources3 ops)) by (intros C; apply existsb_in in C; congruence).
    split; [cbn [dg_now d3_link]; rewrite (v_none _ _ _ _ _ _ V k NI); lia|].
    exists []. split; [left; reflexivity|]. split; [apply after_between|]. left. rewrite (saved3_none _ _ NI). reflexivity.
Qed.

Lemma mixed_only_nof : forall S S' l jc, Forall2 only_nof l (firstn jc (map (cg3_after S') l) ++ skipn jc (map (cg3_after S) l)).
Proof.
  intros S S' l. induction l as [|g r IH]; intros [|jc]; cbn [map firstn skipn app]; constructor; try reflexivity.
  - exact (IH 0%nat).
  - apply IH.
Qed.

Lemma mixed_between : forall S new l jc, Forall (fun c => g3_nof c = w32 (occ (g3_id c) S) \/ g3_nof c = w32 (occ (g3_id c) (S ++ new)))
  (firstn jc (map (cg3_after (S ++ new)) l) ++ skipn jc (map (cg3_after S) l)).
Proof.
  intros S new l. induction l as [|g r IH]; intros [|jc]; cbn [map firstn skipn app]; constructor.
  - left. reflexivity.
  - exact (IH 0%nat).
  - right. reflexivity.
  - apply IH.
Qed.

Lemma mix_time_of : forall j a b, time3_of a b (mix_time j a b).
Proof.
  intros j a b. unfold time3_of, mix_time. cbn [t3_date t3_time t3_ns t3_offset t3_quality t3_timer].
  repeat match goal with |- _ /\ _ => split end;
    match goal with |- context [if ?c then _ else _] => destruct c; [right|left]; reflexivity end.
Qed.
Lemma time3_of_left : forall a b, time3_of a b a.
Proof. intros. unfold time3_of. tauto. Qed.

Lemma saved3_one : forall k o, saved3 k [o] = match o with Save3 j recs => if (j =? k)%nat then recs else [] | _ => [] end.
Proof. intros k o. unfold saved3. cbn [flat_map]. apply app_nil_r. Qed.

Lemma stopped_view : forall base h ops m data lk o j f, (0 < length base)%nat -> inv3 base h ops m data lk -> in_turn3 (ops ++ [o]) ->
  (forall k, In k (sources3 (ops ++ [o])) -> (k < length (h3_dgs h))%nat) ->
  stopped3 o j m = Some f ->
  exists t xs data', f = base ++ hd_b (set_time3 t (set_dgs3 h xs)) (length base) ++ data' /\
    time3_of (stored_time3 h ops) (stored_time3 h (ops ++ [o])) t /\ length xs = length (h3_dgs h) /\
    forall k d, nth_error (h3_dgs h) k = Some d -> exists x, nth_error xs k = Some x /\
      group_state f d x (saved3 k ops) (saved3 k [o]).
Proof.
  intros base h ops m data lk o j f NE V T SO E. unfold stopped3 in E.
  destruct (call3 o m) as [[ws m']|] eqn:EC; [|discriminate].
  assert (Ef : f = puts (m3_file m) (firstn j ws)) by congruence. clear E.
  assert (HM : forall t, set_time3 t (m3_hd m) = set_time3 t (set_dgs3 h (h3_dgs (m3_hd m)))).
  { intros t. rewrite (v_hd _ _ _ _ _ _ V) at 1. reflexivity. }
  (* the file as it was *)
  assert (KEEP : forall t, f = base ++ hd_b (set_time3 t (m3_hd m)) (length base) ++ data ->
    time3_of (stored_time3 h ops) (stored_time3 h (ops ++ [o])) t ->
    exists t xs data', f = base ++ hd_b (set_time3 t (set_dgs3 h xs)) (length base) ++ data' /\
    time3_of (stored_time3 h ops) (stored_time3 h (ops ++ [o])) t /\ length xs = length (h3_dgs h) /\
    forall k d, nth_error (h3_dgs h) k = Some d -> exists x, nth_error xs k = Some x /\
      group_state f d x (saved3 k ops) (saved3 k [o])).
  { intros t EF TO. exists t, (h3_dgs (m3_hd m)), data. rewrite HM in EF. split; [exact EF|]. split; [exact TO|].
    split; [apply (v_len _ _ _ _ _ _ V)|]. intros k d Hk. exists (dg_now (saved3 k ops) (lk k) d).
    split; [apply (v_dgs _ _ _ _ _ _ V); exact Hk|]. rewrite EF, <- (app_nil_r data).
    eapply group_kept; [exact V|exact Hk|]. rewrite <- HM. eapply inv3_alike. exact V. }
  destruct o as [t|k0 recs|].
  - destruct (inv3_start _ _ _ _ _ _ _ _ _ V EC) as [-> _]. rewrite firstn_nil in Ef. cbn in Ef.
    apply (KEEP (stored_time3 h ops)); [rewrite Ef; apply (v_file _ _ _ _ _ _ V)|apply time3_of_left].
  - assert (LK : (k0 < length (h3_dgs h))%nat).
    { apply SO. rewrite sources3_snoc. apply in_or_app. right. left. reflexivity. }
    destruct (nth_error (h3_dgs h) k0) as [d0|] eqn:Hk0; [|apply nth_error_None in Hk0; lia].
    destruct (save3_stopped _ _ _ _ _ _ _ _ _ _ _ V EC Hk0) as (l1 & l2 & EL & L1 & _ & _ & _ & _ & _ & ST).
    destruct (ST j) as [Z|(jc & part & rest & EPR & CR & ES)]; clear ST.
    { apply (KEEP (stored_time3 h ops)); [rewrite Ef, Z; apply (v_file _ _ _ _ _ _ V)|apply time3_of_left]. }
    rewrite ES in Ef. clear ES. set (v := if lk k0 =? 0 then _ else _) in *.
    set (cgsx := firstn jc (map (cg3_after (saved3 k0 ops ++ recs)) (d3_cgs d0)) ++ skipn jc (map (cg3_after (saved3 k0 ops)) (d3_cgs d0))) in *.
    set (xs := l1 ++ mkDgb3 (ids_for d0) v cgsx :: l2) in *.
    assert (EHX : stopped_hd (set_time3 (stored_time3 h ops) (m3_hd m)) l1 d0 l2 v (saved3 k0 ops) recs jc =
      set_time3 (stored_time3 h ops) (set_dgs3 h xs)).
    { unfold stopped_hd. fold cgsx. fold xs. rewrite (v_hd _ _ _ _ _ _ V). reflexivity. }
    rewrite EHX in Ef. clear EHX.
    assert (OX : Forall2 only_nof (d3_cgs d0) cgsx).
    { unfold cgsx. apply mixed_only_nof. }
    assert (XN : forall k d, nth_error (h3_dgs h) k = Some d -> k <> k0 -> nth_error xs k = Some (dg_now (saved3 k ops) (lk k) d)).
    { intros k d Hk Q. pose proof (v_dgs _ _ _ _ _ _ V k d Hk) as P. rewrite EL in P. unfold xs.
      destruct (le_lt_dec (length l1) k) as [G|G].
      + rewrite nth_error_app2 in * by lia. destruct (k - length l1)%nat eqn:Z; [lia|]. exact P.
      + rewrite nth_error_app1 in * by lia. exact P. }
    assert (X0 : nth_error xs k0 = Some (mkDgb3 (ids_for d0) v cgsx)).
    { unfold xs. rewrite <- L1, nth_error_app2, Nat.sub_diag by lia. reflexivity. }
    assert (LX : length xs = length (h3_dgs h)).
    { rewrite <- (v_len _ _ _ _ _ _ V), EL. unfold xs. rewrite !app_length. reflexivity. }
    assert (AL : hd_alike h (set_time3 (stored_time3 h ops) (set_dgs3 h xs))).
    { split; [reflexivity|]. cbn [set_time3 set_dgs3 h3_dgs].
      pose proof (proj2 (inv3_alike0 _ _ _ _ _ _ V)) as FA. rewrite EL in FA. unfold xs.
      apply Forall2_app_inv_r in FA. destruct FA as (a1 & a2 & FA1 & FA2 & EA). rewrite EA.
      apply Forall2_app; [exact FA1|]. inversion FA2 as [|x0 ? a2' ? _ FA3]; subst a2. constructor; [|exact FA3].
      assert (x0 = d0) as ->.
      { pose proof (forall2_length _ _ _ FA1) as LA. rewrite EA, nth_error_app2 in Hk0 by lia.
        replace (k0 - length a1)%nat with 0%nat in Hk0 by lia. cbn [nth_error] in Hk0. congruence. }
      apply only_nof_alike. exact OX. }
    pose proof (proj1 (hd_alike_same _ _ (length base) AL)) as LB.
    exists (stored_time3 h ops), xs, (data ++ part). split; [exact Ef|]. split; [apply time3_of_left|]. split; [exact LX|].
    intros k d Hk. destruct (Nat.eq_dec k k0) as [->|Q].
    + assert (d = d0) as -> by congruence. exists (mkDgb3 (ids_for d0) v cgsx). split; [exact X0|].
      rewrite saved3_one, Nat.eqb_refl.
      assert (LFM : length (m3_file m) = (length base + length (hd_b h (length base)) + length data)%nat).
      { rewrite (v_file _ _ _ _ _ _ V), !app_length, (proj1 (hd_alike_same _ _ (length base) (inv3_alike _ _ _ _ _ _ (stored_time3 h ops) V))). lia. }
      pose proof (inv3_link _ _ _ _ _ _ k0 d0 NE V Hk0) as LZ. unfold v in *. clear v. rewrite LZ in *.
      rewrite Ef. clear Ef. set (B := hd_b (set_time3 (stored_time3 h ops) (set_dgs3 h xs)) (length base)) in *. clearbody B.
      unfold group_state. cbn [d3_cgs d3_link]. split; [exact OX|].
      assert (BT : exists new', (new' = [] /\ jc = 0%nat \/ new' = recs /\ rest = []) /\
         Forall (fun c => g3_nof c = w32 (occ (g3_id c) (saved3 k0 ops)) \/ g3_nof c = w32 (occ (g3_id c) (saved3 k0 ops ++ new'))) cgsx).
      { destruct (Nat.eq_dec jc 0) as [JZ|JZ].
        - exists []. split; [left; split; [reflexivity|exact JZ]|]. unfold cgsx. rewrite JZ. cbn [firstn skipn app]. apply after_between.
        - exists recs. destruct CR as [CR|CR]; [contradiction|]. split; [right; split; [reflexivity|exact CR]|].
          unfold cgsx. apply mixed_between. }
      destruct BT as (new' & HN & BT).
      destruct (existsb (Nat.eqb k0) (sources3 ops)) eqn:X; cbn [negb].
      * apply existsb_in in X. destruct (v_data _ _ _ _ _ _ V k0 d0 X Hk0) as (a & b & E1 & EK & EB).
        assert (LS : last (sources3 ops) k0 = k0).
        { apply (T (sources3 ops) k0 []); [|exact X]. rewrite sources3_snoc. reflexivity. }
        rewrite (EB LS), app_nil_r in E1.
        split; [rewrite EK, E1, !app_length, LB; lia|].
        exists new'. split; [tauto|]. split; [exact BT|]. right.
        destruct HN as [[-> ->]|[-> ->]].
        -- exists (base ++ B ++ a), part. rewrite app_nil_r. split; [rewrite E1, <- !app_assoc; reflexivity|].
           rewrite EK, !app_length, LB. f_equal. lia.
        -- rewrite app_nil_r in EPR. exists (base ++ B ++ a), []. rewrite app_nil_r. split.
           { rewrite E1, bytes3_app, EPR, <- !app_assoc. reflexivity. }
           rewrite EK, !app_length, LB. f_equal. lia.
      * assert (NI : ~ In k0 (sources3 ops)) by (intros C; apply existsb_in in C; congruence).
        rewrite (saved3_none _ _ NI) in *. cbn [app] in *.
        split; [rewrite LFM, !app_length, LB; lia|].
        exists new'. split; [tauto|]. split; [exact BT|].
        destruct HN as [[-> ->]|[-> ->]]; [left; reflexivity|]. right.
        rewrite app_nil_r in EPR. exists (base ++ B ++ data), []. rewrite app_nil_r, EPR. split; [rewrite <- !app_assoc; reflexivity|].
        rewrite LFM, !app_length, LB. f_equal. lia.
    + exists (dg_now (saved3 k ops) (lk k) d). split; [apply XN; assumption|]. rewrite Ef.
      eapply group_kept; [exact V|exact Hk|exact AL].
  - apply (KEEP (mix_time j (stored_time3 h ops) (known_time3 h ops))).
    + rewrite Ef. eapply final3_stopped; eauto.
    + rewrite stored_snoc. apply mix_time_of.
Qed.
