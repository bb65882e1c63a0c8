(** Proofs about the observers that put samples together and the sorting task. *)
From Verif Require Import Base StreamModel StreamSpec StreamProofs IdProofs QueueModel QueueSpec EncProofs QueueProofs ObsModel ObsSpec ObsProofs SortModel SortSpec.
Local Open Scope N_scope.

Lemma s64_small : forall n, n < 2 ^ 63 -> s64 n = Z.of_N n.
Proof.
  intros n H. unfold s64, twos, w64. change (2 ^ (64 - 1)) with (2 ^ 63). rewrite N.mod_small by lia.
  replace (n <? 2 ^ 63) with true by lia. reflexivity.
Qed.

(* ------------------------------------------------------------------ *)
(** ** CAN observer *)

Definition relevant (ids : list N) (e : event) : bool := existsb (N.eqb (e_id e)) ids.

Lemma can_run_filter : forall cb g evs s,
  can_run cb g evs s = can_run cb g (filter (relevant (cg_ids g)) evs) s.
Proof.
  intros cb g. induction evs as [|e evs IH]; intros s; [reflexivity|]. cbn [can_run filter].
  destruct (relevant (cg_ids g) e) eqn:R; cbn [can_run].
  - destruct (can_on cb g e s) as [go s1]. destruct go; [apply IH|reflexivity].
  - unfold can_on. unfold relevant in R. rewrite R. cbn [negb]. rewrite orb_true_r. apply IH.
Qed.

Lemma can_run_app : forall cb g a b s, 
  can_run cb g (a ++ b) s = (let (go, s1) := can_run cb g a s in if go then can_run cb g b s1 else (false, s1)).
Proof.
  intros cb g. induction a as [|e a IH]; intros b s; [reflexivity|]. cbn [can_run app].
  destruct (can_on cb g e s) as [go s1]. destruct go; [apply IH|reflexivity].
Qed.

(** The part of OnSample before the record is used. *)
Definition can_enter (n : N) (s : canst) : canst :=
  if (cn_cur s <? s64 n)%Z
  then mkCan (s64 n) true n [] [] (cn_buf s) (cn_calls s)
  else mkCan (cn_cur s) false (cn_sample s) (cn_rec s) (cn_vlsd s) (cn_buf s) (cn_calls s).

Lemma can_on_eq : forall cb g e s, relevant (cg_ids g) e = true -> e_sample e < cg_nof g ->
  can_on cb g e s =
  (true, match cb with
         | Some answer => handle_callback answer g (e_id e) (e_rec e) (with_buf (can_enter (e_sample e) s) [])
         | None => handle_sample g (e_id e) (e_rec e)
                     (with_buf (can_enter (e_sample e) s) (check_size (cg_nof g) (cn_buf s)))
         end).
Proof.
  intros cb g e s R H. unfold can_on. unfold relevant in R. rewrite R. cbn [negb orb].
  replace (cg_nof g =? 0) with false by lia. replace (cg_nof g <=? e_sample e) with false by lia.
  cbn [orb]. unfold can_enter. destruct cb; destruct (_ <? _)%Z; reflexivity.
Qed.

Lemma rel_main : forall g main v k r, (forall id, In id (cg_ids g) <-> id = main \/ id = v) ->
  relevant (cg_ids g) (Ev k main r) = true /\ relevant (cg_ids g) (Ev k v r) = true.
Proof.
  intros g main v k r H. unfold relevant. cbn [e_id]. split; apply existsb_exists.
  - exists main. split; [apply H; auto|apply N.eqb_refl].
  - exists v. split; [apply H; auto|apply N.eqb_refl].
Qed.

Lemma can_enter_new : forall k s, k < 2 ^ 63 -> cn_cur s = (Z.of_N k - 1)%Z ->
  can_enter k s = mkCan (Z.of_N k) true k [] [] (cn_buf s) (cn_calls s).
Proof. intros k s H C. unfold can_enter. rewrite s64_small, C by exact H. replace (_ <? _)%Z with true by lia. reflexivity. Qed.

Lemma can_enter_old : forall k s, k < 2 ^ 63 -> cn_cur s = Z.of_N k ->
  can_enter k s = mkCan (Z.of_N k) false (cn_sample s) (cn_rec s) (cn_vlsd s) (cn_buf s) (cn_calls s).
Proof. intros k s H C. unfold can_enter. rewrite s64_small, C by exact H. replace (_ <? _)%Z with false by lia. reflexivity. Qed.

Section Can.
Variables (g : cangrp) (v : N).
Hypothesis ids_ok : forall id, In id (cg_ids g) <-> id = cg_main g \/ id = v.
Hypothesis v_other : v <> cg_main g.
Hypothesis st_vlsd : cg_store g = SVlsd.

Ltac can_step R Hk Hc :=
  rewrite (can_on_eq _ _ _ _ R) by exact Hk; cbn [e_id e_rec e_sample];
  first [rewrite can_enter_new by (lia || exact Hc)|rewrite can_enter_old by (lia || exact Hc)];
  unfold handle_callback, handle_sample, with_buf, with_vlsd, with_rec, fire;
  rewrite ?st_vlsd, ?N.eqb_refl, ?(proj2 (N.eqb_neq _ _) v_other);
  cbn [negb cn_cur cn_new cn_sample cn_rec cn_vlsd cn_buf cn_calls snd].

Lemma cb_new : forall answer k x s, k < cg_nof g -> cg_nof g < 2 ^ 63 -> cn_cur s = (Z.of_N k - 1)%Z ->
  can_on (Some answer) g (Ev k v x) s = (true, mkCan (Z.of_N k) true k [] x [] (cn_calls s)) /\
  can_on (Some answer) g (Ev k (cg_main g) x) s = (true, mkCan (Z.of_N k) true k x [] [] (cn_calls s)).
Proof.
  intros answer k x s Hk Hn Hc. destruct (rel_main g (cg_main g) v k x ids_ok) as (R1 & R2). split.
  - can_step R2 Hk Hc. reflexivity.
  - can_step R1 Hk Hc. reflexivity.
Qed.

Lemma cb_old : forall answer k x s, k < cg_nof g -> cg_nof g < 2 ^ 63 -> cn_cur s = Z.of_N k ->
  can_on (Some answer) g (Ev k v x) s = (true, mkCan (Z.of_N k) false (cn_sample s) (cn_rec s) x []
     (cn_calls s ++ [(cn_sample s, (cn_rec s, x))])) /\
  can_on (Some answer) g (Ev k (cg_main g) x) s = (true, mkCan (Z.of_N k) false (cn_sample s) x (cn_vlsd s) []
     (cn_calls s ++ [(cn_sample s, (x, cn_vlsd s))])).
Proof.
  intros answer k x s Hk Hn Hc. destruct (rel_main g (cg_main g) v k x ids_ok) as (R1 & R2). split.
  - can_step R2 Hk Hc. reflexivity.
  - can_step R1 Hk Hc. reflexivity.
Qed.

Lemma buf_new : forall k x s, k < cg_nof g -> cg_nof g < 2 ^ 63 -> cn_cur s = (Z.of_N k - 1)%Z ->
  can_on None g (Ev k v x) s
    = (true, mkCan (Z.of_N k) true k [] x (check_size (cg_nof g) (cn_buf s)) (cn_calls s)) /\
  can_on None g (Ev k (cg_main g) x) s
    = (true, mkCan (Z.of_N k) true k x [] (check_size (cg_nof g) (cn_buf s)) (cn_calls s)).
Proof.
  intros k x s Hk Hn Hc. destruct (rel_main g (cg_main g) v k x ids_ok) as (R1 & R2). split.
  - can_step R2 Hk Hc. reflexivity.
  - can_step R1 Hk Hc. reflexivity.
Qed.

Lemma buf_old : forall k x s, k < cg_nof g -> cg_nof g < 2 ^ 63 -> cn_cur s = Z.of_N k -> cn_sample s = k ->
  let b := check_size (cg_nof g) (cn_buf s) in
  can_on None g (Ev k v x) s
    = (true, mkCan (Z.of_N k) false k (cn_rec s) x (store b k (Some (cn_rec s, x))) (cn_calls s)) /\
  can_on None g (Ev k (cg_main g) x) s
    = (true, mkCan (Z.of_N k) false k x (cn_vlsd s) (store b k (Some (x, cn_vlsd s))) (cn_calls s)).
Proof.
  intros k x s Hk Hn Hc Hs b. destruct (rel_main g (cg_main g) v k x ids_ok) as (R1 & R2).
  assert (Len: length b = N.to_nat (cg_nof g)).
  { unfold b, check_size. rewrite app_length, firstn_length, repeat_length. lia. }
  split.
  - can_step R2 Hk Hc. fold b. unfold keep, with_buf.
    cbn [cn_cur cn_new cn_sample cn_rec cn_vlsd cn_buf cn_calls]. rewrite Hs, Len.
    replace (k <? N.of_nat (N.to_nat (cg_nof g))) with true by lia. reflexivity.
  - can_step R1 Hk Hc. fold b. unfold keep, with_buf.
    cbn [cn_cur cn_new cn_sample cn_rec cn_vlsd cn_buf cn_calls]. rewrite Hs, Len.
    replace (k <? N.of_nat (N.to_nat (cg_nof g))) with true by lia. reflexivity.
Qed.

Lemma can_run_two : forall cb e1 e2 s s1 s2, can_on cb g e1 s = (true, s1) -> can_on cb g e2 s1 = (true, s2) ->
  can_run cb g [e1; e2] s = (true, s2).
Proof. intros cb e1 e2 s s1 s2 H1 H2. cbn [can_run]. rewrite H1, H2. reflexivity. Qed.

Lemma can_pair_cb : forall answer k p s, k < cg_nof g -> cg_nof g < 2 ^ 63 -> cn_cur s = (Z.of_N k - 1)%Z ->
  exists s', can_run (Some answer) g (pair_events (cg_main g) v (k, p)) s = (true, s') /\
    cn_cur s' = Z.of_N k /\ cn_calls s' = cn_calls s ++ [(k, (v_rec p, v_val p))].
Proof.
  intros answer k p s Hk Hn Hc. unfold pair_events. cbn [fst snd]. destruct (v_first p).
  - eexists. split; [|split].
    + eapply can_run_two; [apply (proj1 (cb_new answer k (v_val p) s Hk Hn Hc))|].
      refine (proj2 (cb_old answer k _ _ Hk Hn _)); reflexivity.
    + reflexivity.
    + reflexivity.
  - eexists. split; [|split].
    + eapply can_run_two; [apply (proj2 (cb_new answer k (v_rec p) s Hk Hn Hc))|].
      refine (proj1 (cb_old answer k _ _ Hk Hn _)); reflexivity.
    + reflexivity.
    + reflexivity.
Qed.

Lemma can_pairs_cb : forall answer ps k s, k + N.of_nat (length ps) <= cg_nof g -> cg_nof g < 2 ^ 63 ->
  cn_cur s = (Z.of_N k - 1)%Z ->
  exists s', can_run (Some answer) g (flat_map (pair_events (cg_main g) v) (numbered_from k ps)) s = (true, s') /\
    cn_calls s' = cn_calls s ++ map (fun q => (fst q, (v_rec (snd q), v_val (snd q)))) (numbered_from k ps).
Proof.
  intros answer. induction ps as [|p ps IH]; intros k s Hk Hn Hc; cbn [numbered_from flat_map map].
  { exists s. rewrite app_nil_r. auto. }
  cbn [length] in Hk. rewrite can_run_app.
  destruct (can_pair_cb answer k p s) as (s1 & E1 & E2 & E3); [lia|exact Hn|exact Hc|]. rewrite E1.
  destruct (IH (k + 1) s1) as (s2 & F1 & F2); [lia|exact Hn|lia|].
  exists s2. split; [exact F1|]. rewrite F2, E3, <- app_assoc. reflexivity.
Qed.

Lemma check_idem : forall b, check_size (cg_nof g) (check_size (cg_nof g) b) = check_size (cg_nof g) b.
Proof.
  intros b. set (c := check_size (cg_nof g) b).
  assert (Len: length c = N.to_nat (cg_nof g)).
  { unfold c, check_size. rewrite app_length, firstn_length, repeat_length. lia. }
  unfold check_size. rewrite <- Len, firstn_all, Nat.sub_diag. apply app_nil_r.
Qed.

Lemma can_pair_buf : forall k p s, k < cg_nof g -> cg_nof g < 2 ^ 63 -> cn_cur s = (Z.of_N k - 1)%Z ->
  exists s', can_run None g (pair_events (cg_main g) v (k, p)) s = (true, s') /\
    cn_cur s' = Z.of_N k /\
    cn_buf s' = store (check_size (cg_nof g) (cn_buf s)) k (Some (v_rec p, v_val p)).
Proof.
  intros k p s Hk Hn Hc. unfold pair_events. cbn [fst snd]. destruct (v_first p).
  - eexists. split; [|split].
    + eapply can_run_two; [apply (proj1 (buf_new k (v_val p) s Hk Hn Hc))|].
      refine (proj2 (buf_old k _ _ Hk Hn _ _)); reflexivity.
    + reflexivity.
    + cbn [cn_buf cn_rec cn_vlsd]. rewrite check_idem. reflexivity.
  - eexists. split; [|split].
    + eapply can_run_two; [apply (proj2 (buf_new k (v_rec p) s Hk Hn Hc))|].
      refine (proj1 (buf_old k _ _ Hk Hn _ _)); reflexivity.
    + reflexivity.
    + cbn [cn_buf cn_rec cn_vlsd]. rewrite check_idem. reflexivity.
Qed.
End Can.

(** The buffer after the first samples. *)
Definition msgs (n : nat) (done : list (list N * list N)) : list (option (list N * list N)) :=
  map Some done ++ repeat None (n - length done).

Lemma msgs_store : forall n done m, (length done < n)%nat ->
  store (msgs n done) (N.of_nat (length done)) (Some m) = msgs n (done ++ [m]).
Proof.
  intros n done m H. unfold store, msgs. rewrite app_length, map_length, repeat_length.
  replace (_ <? _) with true by lia. rewrite Nnat.Nat2N.id, map_app, app_length. cbn [length map].
  replace (length done) with (length (map (@Some (list N * list N)) done)) at 1 by apply map_length.
  rewrite firstn_app, Nat.sub_diag, firstn_all, firstn_O, app_nil_r, <- app_assoc. f_equal.
  replace (n - length done)%nat with (S (n - (length done + 1)))%nat by lia. cbn [repeat].
  rewrite skipn_app, map_length. rewrite skipn_all2 by (rewrite map_length; lia).
  replace (S (length done) - length done)%nat with 1%nat by lia. reflexivity.
Qed.

Lemma check_msgs : forall n done, (length done <= N.to_nat n)%nat -> check_size n (msgs (N.to_nat n) done) = msgs (N.to_nat n) done.
Proof.
  intros n done H. unfold check_size.
  assert (L: length (msgs (N.to_nat n) done) = N.to_nat n).
  { unfold msgs. rewrite app_length, map_length, repeat_length. lia. }
  rewrite L, Nat.sub_diag, app_nil_r. rewrite <- L at 1. apply firstn_all.
Qed.

Lemma can_pairs_buf : forall g v, (forall id, In id (cg_ids g) <-> id = cg_main g \/ id = v) -> v <> cg_main g ->
  cg_store g = SVlsd -> cg_nof g < 2 ^ 63 ->
  forall ps k done s, k = N.of_nat (length done) -> k + N.of_nat (length ps) <= cg_nof g ->
  cn_cur s = (Z.of_N k - 1)%Z -> check_size (cg_nof g) (cn_buf s) = msgs (N.to_nat (cg_nof g)) done ->
  exists s', can_run None g (flat_map (pair_events (cg_main g) v) (numbered_from k ps)) s = (true, s') /\
    check_size (cg_nof g) (cn_buf s') = msgs (N.to_nat (cg_nof g)) (done ++ map (fun p => (v_rec p, v_val p)) ps) /\
    (ps <> [] -> cn_buf s' = msgs (N.to_nat (cg_nof g)) (done ++ map (fun p => (v_rec p, v_val p)) ps)).
Proof.
  intros g v I1 I2 I3 Hn. induction ps as [|p ps IH]; intros k done s Hd Hk Hc Hb; cbn [numbered_from flat_map map].
  { exists s. rewrite app_nil_r. split; [reflexivity|]. split; [exact Hb|congruence]. }
  cbn [length] in Hk. rewrite can_run_app.
  destruct (can_pair_buf g v I1 I2 I3 k p s) as (s1 & E1 & E2 & E3); [lia|exact Hn|exact Hc|]. rewrite E1.
  rewrite Hb, Hd, msgs_store in E3 by lia.
  assert (C1: check_size (cg_nof g) (cn_buf s1) = msgs (N.to_nat (cg_nof g)) (done ++ [(v_rec p, v_val p)])).
  { rewrite E3. apply check_msgs. rewrite app_length. cbn [length]. lia. }
  destruct (IH (k + 1) (done ++ [(v_rec p, v_val p)]) s1) as (s2 & F1 & F2 & F3);
    [rewrite app_length; cbn [length]; lia|lia|lia|exact C1|].
  exists s2. split; [exact F1|]. rewrite <- app_assoc in F2, F3. split; [exact F2|]. intros _.
  destruct ps as [|q ps]; [|apply F3; discriminate].
  cbn [numbered_from flat_map can_run] in F1. injection F1 as <-. cbn [map app]. exact E3.
Qed.

Lemma msgs_nth : forall n done i, nth_error (msgs n done) i
  = match nth_error done i with Some m => Some (Some m) | None => if (i <? n)%nat then Some None else None end.
Proof.
  intros n done i. unfold msgs. destruct (Nat.ltb_spec i (length done)) as [L|L].
  - rewrite nth_error_app1 by (rewrite map_length; exact L). rewrite nth_error_map.
    destruct (nth_error done i) eqn:E; [reflexivity|]. apply nth_error_None in E. lia.
  - rewrite nth_error_app2 by (rewrite map_length; exact L). rewrite map_length.
    rewrite (proj2 (nth_error_None done i)) by exact L.
    destruct (Nat.ltb_spec i n) as [Q|Q].
    + apply nth_error_repeat. lia.
    + apply nth_error_None. rewrite repeat_length. lia.
Qed.

Lemma can_callback : forall answer g v ps evs,
  (forall id, In id (cg_ids g) <-> id = cg_main g \/ id = v) -> v <> cg_main g -> cg_store g = SVlsd ->
  N.of_nat (length ps) <= cg_nof g -> cg_nof g < 2 ^ 63 ->
  filter (fun e => (e_id e =? cg_main g) || (e_id e =? v)) evs
    = flat_map (pair_events (cg_main g) v) (numbered_from 0 ps) ->
  exists s, can_run (Some answer) g evs can0 = (true, s) /\
    cn_calls s = map (fun q => (fst q, (v_rec (snd q), v_val (snd q)))) (numbered_from 0 ps).
Proof.
  intros answer g v ps evs I1 I2 I3 Hl Hn F. rewrite can_run_filter.
  rewrite (filter_ext (relevant (cg_ids g)) (fun e => (e_id e =? cg_main g) || (e_id e =? v))).
  - rewrite F. destruct (can_pairs_cb g v I1 I2 I3 answer ps 0 can0) as (s & E1 & E2); [lia|exact Hn|reflexivity|].
    exists s. split; [exact E1|]. exact E2.
  - intros e. unfold relevant. apply eq_true_iff_eq. rewrite existsb_exists, orb_true_iff, !N.eqb_eq. split.
    + intros (id & H1 & H2). apply N.eqb_eq in H2. rewrite H2. apply I1. exact H1.
    + intros H. exists (e_id e). split; [apply I1; exact H|apply N.eqb_refl].
Qed.

Lemma can_buffer : forall g v ps evs,
  (forall id, In id (cg_ids g) <-> id = cg_main g \/ id = v) -> v <> cg_main g -> cg_store g = SVlsd ->
  N.of_nat (length ps) <= cg_nof g -> cg_nof g < 2 ^ 63 ->
  filter (fun e => (e_id e =? cg_main g) || (e_id e =? v)) evs
    = flat_map (pair_events (cg_main g) v) (numbered_from 0 ps) ->
  exists s, can_run None g evs can0 = (true, s) /\
    forall i, get_can_message s i = option_map (fun p => (v_rec p, v_val p)) (nth_error ps (N.to_nat i)).
Proof.
  intros g v ps evs I1 I2 I3 Hl Hn F. rewrite can_run_filter.
  rewrite (filter_ext (relevant (cg_ids g)) (fun e => (e_id e =? cg_main g) || (e_id e =? v))).
  - rewrite F. destruct ps as [|p0 ps].
    + exists can0. split; [reflexivity|]. intros i. unfold get_can_message. cbn [can0 cn_buf].
      rewrite !(proj2 (nth_error_None _ _)) by (cbn [length]; lia). reflexivity.
    + destruct (can_pairs_buf g v I1 I2 I3 Hn (p0 :: ps) 0 [] can0) as (s & E1 & _ & E2);
        [reflexivity|exact Hl|reflexivity|unfold check_size; cbn [can0 cn_buf]; rewrite firstn_nil; reflexivity|].
      exists s. split; [exact E1|]. intros i. unfold get_can_message. rewrite E2 by discriminate. cbn [app].
      rewrite msgs_nth, nth_error_map. destruct (nth_error (p0 :: ps) (N.to_nat i)); cbn [option_map]; [reflexivity|].
      destruct (_ <? _)%nat; reflexivity.
  - intros e. unfold relevant. apply eq_true_iff_eq. rewrite existsb_exists, orb_true_iff, !N.eqb_eq. split.
    + intros (id & H1 & H2). apply N.eqb_eq in H2. rewrite H2. apply I1. exact H1.
    + intros H. exists (e_id e). split; [apply I1; exact H|apply N.eqb_refl].
Qed.

(** Fixed length and MLSD storage: every record is a message. *)
Lemma can_fixed_cb : forall answer g, (forall id, In id (cg_ids g) <-> id = cg_main g) -> cg_store g <> SVlsd ->
  cg_nof g < 2 ^ 63 ->
  forall rs k s, k + N.of_nat (length rs) <= cg_nof g -> cn_cur s = (Z.of_N k - 1)%Z ->
  exists s', can_run (Some answer) g (map (fun q => Ev (fst q) (cg_main g) (snd q)) (numbered_from k rs)) s = (true, s') /\
    cn_calls s' = cn_calls s ++ map (fun q => (fst q, (snd q, []))) (numbered_from k rs).
Proof.
  intros answer g I1 I3 Hn. induction rs as [|r rs IH]; intros k s Hk Hc; cbn [numbered_from map].
  { exists s. rewrite app_nil_r. auto. }
  cbn [length] in Hk. cbn [fst snd can_run].
  assert (R: relevant (cg_ids g) (Ev k (cg_main g) r) = true).
  { apply existsb_exists. exists (cg_main g). split; [apply I1; reflexivity|apply N.eqb_refl]. }
  assert (Hk': k < cg_nof g) by lia.
  assert (E: can_on (Some answer) g (Ev k (cg_main g) r) s
    = (true, mkCan (Z.of_N k) true k r [] [] (cn_calls s ++ [(k, (r, []))]))).
  { rewrite (can_on_eq _ _ _ _ R) by exact Hk'. cbn [e_id e_rec e_sample].
    rewrite can_enter_new by (lia || exact Hc). unfold handle_callback. rewrite N.eqb_refl. cbn [negb].
    destruct (cg_store g); [reflexivity|reflexivity|congruence]. }
  rewrite E. destruct (IH (k + 1) (mkCan (Z.of_N k) true k r [] [] (cn_calls s ++ [(k, (r, []))]))) as (s2 & F1 & F2);
    [lia|cbn [cn_cur]; lia|].
  exists s2. split; [exact F1|]. rewrite F2. cbn [cn_calls]. rewrite <- app_assoc. reflexivity.
Qed.

Lemma can_fixed_buf : forall g, (forall id, In id (cg_ids g) <-> id = cg_main g) -> cg_store g <> SVlsd ->
  cg_nof g < 2 ^ 63 ->
  forall rs k done s, k = N.of_nat (length done) -> k + N.of_nat (length rs) <= cg_nof g ->
  cn_cur s = (Z.of_N k - 1)%Z -> check_size (cg_nof g) (cn_buf s) = msgs (N.to_nat (cg_nof g)) done ->
  exists s', can_run None g (map (fun q => Ev (fst q) (cg_main g) (snd q)) (numbered_from k rs)) s = (true, s') /\
    check_size (cg_nof g) (cn_buf s') = msgs (N.to_nat (cg_nof g)) (done ++ map (fun r => (r, [])) rs) /\
    (rs <> [] -> cn_buf s' = msgs (N.to_nat (cg_nof g)) (done ++ map (fun r => (r, [])) rs)).
Proof.
  intros g I1 I3 Hn. induction rs as [|r rs IH]; intros k done s Hd Hk Hc Hb; cbn [numbered_from map].
  { exists s. rewrite app_nil_r. split; [reflexivity|]. split; [exact Hb|congruence]. }
  cbn [length] in Hk. cbn [fst snd can_run].
  assert (R: relevant (cg_ids g) (Ev k (cg_main g) r) = true).
  { apply existsb_exists. exists (cg_main g). split; [apply I1; reflexivity|apply N.eqb_refl]. }
  assert (Hk': k < cg_nof g) by lia.
  assert (Len: length (msgs (N.to_nat (cg_nof g)) done) = N.to_nat (cg_nof g)).
  { unfold msgs. rewrite app_length, map_length, repeat_length. lia. }
  assert (E: can_on None g (Ev k (cg_main g) r) s
    = (true, mkCan (Z.of_N k) true k r [] (msgs (N.to_nat (cg_nof g)) (done ++ [(r, [])])) (cn_calls s))).
  { rewrite (can_on_eq _ _ _ _ R) by exact Hk'. cbn [e_id e_rec e_sample].
    rewrite can_enter_new by (lia || exact Hc). rewrite Hb. unfold handle_sample. rewrite N.eqb_refl. cbn [negb].
    assert (K: keep (mkCan (Z.of_N k) true k r [] (msgs (N.to_nat (cg_nof g)) done) (cn_calls s))
       = mkCan (Z.of_N k) true k r [] (msgs (N.to_nat (cg_nof g)) (done ++ [(r, [])])) (cn_calls s)).
    { unfold keep, with_buf. cbn [cn_cur cn_new cn_sample cn_rec cn_vlsd cn_buf cn_calls]. rewrite Len.
      replace (k <? N.of_nat (N.to_nat (cg_nof g))) with true by lia.
      rewrite Hd at 3. rewrite msgs_store by lia. reflexivity. }
    f_equal. unfold with_rec, with_buf. cbn [cn_cur cn_new cn_sample cn_rec cn_vlsd cn_buf cn_calls].
    destruct (cg_store g); [exact K|exact K|congruence]. }
  rewrite E.
  destruct (IH (k + 1) (done ++ [(r, [])])
    (mkCan (Z.of_N k) true k r [] (msgs (N.to_nat (cg_nof g)) (done ++ [(r, [])])) (cn_calls s)))
    as (s2 & F1 & F2 & F3); [rewrite app_length; cbn [length]; lia|lia|cbn [cn_cur]; lia| |].
  { cbn [cn_buf]. apply check_msgs. rewrite app_length. cbn [length]. lia. }
  exists s2. split; [exact F1|]. rewrite <- app_assoc in F2, F3. split; [exact F2|]. intros _.
  destruct rs as [|q rs]; [|apply F3; discriminate].
  cbn [numbered_from map can_run] in F1. injection F1 as <-. reflexivity.
Qed.

Lemma one_filter : forall ids main evs, (forall id, In id ids <-> id = main) ->
  filter (relevant ids) evs = filter (fun e => e_id e =? main) evs.
Proof.
  intros ids main evs H. apply filter_ext. intros e. unfold relevant. apply eq_true_iff_eq.
  rewrite existsb_exists, N.eqb_eq. split.
  - intros (id & H1 & H2). apply N.eqb_eq in H2. rewrite H2. apply H. exact H1.
  - intros E. exists (e_id e). split; [apply H; exact E|apply N.eqb_refl].
Qed.

Lemma two_filter : forall ids main v evs, (forall id, In id ids <-> id = main \/ id = v) ->
  filter (relevant ids) evs = filter (fun e => (e_id e =? main) || (e_id e =? v)) evs.
Proof.
  intros ids main v evs H. apply filter_ext. intros e. unfold relevant. apply eq_true_iff_eq.
  rewrite existsb_exists, orb_true_iff, !N.eqb_eq. split.
  - intros (id & H1 & H2). apply N.eqb_eq in H2. rewrite H2. apply H. exact H1.
  - intros E. exists (e_id e). split; [apply H; exact E|apply N.eqb_refl].
Qed.

Lemma can_fixed : forall answer g rs evs,
  (forall id, In id (cg_ids g) <-> id = cg_main g) -> cg_store g <> SVlsd ->
  N.of_nat (length rs) <= cg_nof g -> cg_nof g < 2 ^ 63 ->
  filter (fun e => e_id e =? cg_main g) evs = map (fun q => Ev (fst q) (cg_main g) (snd q)) (numbered_from 0 rs) ->
  (exists s, can_run (Some answer) g evs can0 = (true, s) /\
     cn_calls s = map (fun q => (fst q, (snd q, []))) (numbered_from 0 rs)) /\
  (exists s, can_run None g evs can0 = (true, s) /\
     forall i, get_can_message s i = option_map (fun r => (r, [])) (nth_error rs (N.to_nat i))).
Proof.
  intros answer g rs evs I1 I3 Hl Hn F.
  rewrite !(can_run_filter _ g evs), (one_filter _ _ evs I1), F. split.
  - destruct (can_fixed_cb answer g I1 I3 Hn rs 0 can0) as (s & E1 & E2); [lia|reflexivity|]. exists s. auto.
  - destruct rs as [|r0 rs].
    + exists can0. split; [reflexivity|]. intros i. unfold get_can_message. cbn [can0 cn_buf].
      rewrite !(proj2 (nth_error_None _ _)) by (cbn [length]; lia). reflexivity.
    + destruct (can_fixed_buf g I1 I3 Hn (r0 :: rs) 0 [] can0) as (s & E1 & _ & E2);
        [reflexivity|exact Hl|reflexivity|unfold check_size; cbn [can0 cn_buf]; rewrite firstn_nil; reflexivity|].
      exists s. split; [exact E1|]. intros i. unfold get_can_message. rewrite E2 by discriminate. cbn [app].
      rewrite msgs_nth, nth_error_map. destruct (nth_error (r0 :: rs) (N.to_nat i)); cbn [option_map]; [reflexivity|].
      destruct (_ <? _)%nat; reflexivity.
Qed.

(* ------------------------------------------------------------------ *)
(** ** Sample record observer *)

Definition rec_fold (g : recgrp) (evs : list event) (s : recst) : recst := fold_left (fun s e => rec_on g e s) evs s.

Lemma rec_filter : forall g evs s, rec_fold g evs s = rec_fold g (filter (relevant (rg_ids g)) evs) s.
Proof.
  intros g. induction evs as [|e evs IH]; intros s; [reflexivity|]. unfold rec_fold in *. cbn [fold_left filter].
  destruct (relevant (rg_ids g) e) eqn:R; cbn [fold_left]; [apply IH|].
  rewrite <- IH. f_equal. unfold rec_on. unfold relevant in R. rewrite R. reflexivity.
Qed.

Lemma rec_rel : forall g e s, relevant (rg_ids g) e = true ->
  rec_on g e s =
    (let cur := s64 (e_sample e) in
    let s := if (ro_cur s <? cur)%Z then mkRo cur clear_sample (ro_out s) else s in
    let l := ro_last s in
    let s :=
      if e_id e =? rg_main g
      then mkRo (ro_cur s)
             (mkS (add_time (rg_base g) (rg_rel g (sample_no (ro_cur s)) (e_rec e))) (e_id e) (e_rec e)
                (s_has l) (s_vbuf l)) (ro_out s)
      else mkRo (ro_cur s) (mkS (s_ts l) (s_id l) (s_rec l) true (e_rec e)) (ro_out s) in
    match s_rec (ro_last s) with [] => s | _ => handle_record (rg_store g) s end).
Proof. intros g e s H. unfold rec_on. unfold relevant in H. rewrite H. reflexivity. Qed.

Lemma rec_fixed_step : forall g k r s, relevant (rg_ids g) (Ev k (rg_main g) r) = true -> rg_store g <> SVlsd ->
  k < 2 ^ 63 -> ro_cur s = (Z.of_N k - 1)%Z -> r <> [] ->
  rec_on g (Ev k (rg_main g) r) s
  = mkRo (Z.of_N k) clear_sample
      (ro_out s ++ [mkS (add_time (rg_base g) (rg_rel g k r)) (rg_main g) r false []]).
Proof.
  intros g k r s R St Hk Hc Hr. rewrite rec_rel by exact R. cbn [e_id e_rec e_sample]. cbv zeta.
  rewrite s64_small, Hc, N.eqb_refl by exact Hk. replace (_ <? _)%Z with true by lia.
  cbn [ro_cur ro_last ro_out s_rec clear_sample s_has s_vbuf].
  unfold sample_no. replace (Z.of_N k <? 0)%Z with false by lia. rewrite N2Z.id.
  destruct r as [|b r]; [congruence|]. destruct (rg_store g); [reflexivity|reflexivity|congruence].
Qed.

Lemma rec_fixed : forall g, (forall id, In id (rg_ids g) <-> id = rg_main g) -> rg_store g <> SVlsd ->
  forall rs k s, k + N.of_nat (length rs) < 2 ^ 63 -> ro_cur s = (Z.of_N k - 1)%Z -> Forall (fun r => r <> []) rs ->
  ro_out (rec_fold g (map (fun q => Ev (fst q) (rg_main g) (snd q)) (numbered_from k rs)) s)
  = ro_out s ++ map (fun q => mkS (add_time (rg_base g) (rg_rel g (fst q) (snd q))) (rg_main g) (snd q) false []) (numbered_from k rs).
Proof.
  intros g I1 St. induction rs as [|r rs IH]; intros k s Hk Hc Hr; cbn [numbered_from map].
  { rewrite app_nil_r. reflexivity. }
  cbn [length] in Hk. apply Forall_cons_iff in Hr. destruct Hr as (Hr & Hrs).
  change (rec_fold g (?e :: ?l) s) with (rec_fold g l (rec_on g e s)). cbn [fst snd].
  change (rec_fold g ?l s) with (rec_fold g l s).
  assert (R: relevant (rg_ids g) (Ev k (rg_main g) r) = true).
  { apply existsb_exists. exists (rg_main g). split; [apply I1; reflexivity|apply N.eqb_refl]. }
  unfold rec_fold in *. cbn [fold_left]. rewrite rec_fixed_step by (auto || lia).
  rewrite IH by (auto || cbn [ro_cur]; lia). cbn [ro_out]. rewrite <- app_assoc. reflexivity.
Qed.

Lemma rec_pair : forall g v k p s, (forall id, In id (rg_ids g) <-> id = rg_main g \/ id = v) -> v <> rg_main g ->
  rg_store g = SVlsd -> k < 2 ^ 63 -> ro_cur s = (Z.of_N k - 1)%Z -> v_rec p <> [] ->
  rec_fold g (pair_events (rg_main g) v (k, p)) s
  = mkRo (Z.of_N k) clear_sample
      (ro_out s ++ [mkS (add_time (rg_base g) (rg_rel g k (v_rec p))) (rg_main g) (v_rec p) true (v_val p)]).
Proof.
  intros g v k p s I1 I2 St Hk Hc Hr.
  assert (R1: forall x, relevant (rg_ids g) (Ev k (rg_main g) x) = true).
  { intros x. apply existsb_exists. exists (rg_main g). split; [apply I1; auto|apply N.eqb_refl]. }
  assert (R2: forall x, relevant (rg_ids g) (Ev k v x) = true).
  { intros x. apply existsb_exists. exists v. split; [apply I1; auto|apply N.eqb_refl]. }
  assert (Ev': v =? rg_main g = false) by (apply N.eqb_neq; exact I2).
  unfold pair_events, rec_fold. cbn [fst snd].
  assert (A: forall x, rec_on g (Ev k v x) s = mkRo (Z.of_N k) (mkS 0 0 [] true x) (ro_out s)).
  { intros x. rewrite rec_rel by apply R2. cbn [e_id e_rec e_sample]. cbv zeta.
    rewrite s64_small, Hc, Ev' by exact Hk. replace (_ <? _)%Z with true by lia. reflexivity. }
  assert (B: forall out, rec_on g (Ev k (rg_main g) (v_rec p)) (mkRo (Z.of_N k) (mkS 0 0 [] true (v_val p)) out)
     = mkRo (Z.of_N k) clear_sample (out ++ [mkS (add_time (rg_base g) (rg_rel g k (v_rec p))) (rg_main g) (v_rec p) true (v_val p)])).
  { intros out. rewrite rec_rel by apply R1. cbn [e_id e_rec e_sample]. cbv zeta. cbn [ro_cur].
    rewrite s64_small, N.eqb_refl by exact Hk. rewrite Z.ltb_irrefl.
    cbn [ro_cur ro_last ro_out s_rec s_has s_vbuf].
    unfold sample_no. replace (Z.of_N k <? 0)%Z with false by lia. rewrite N2Z.id, St.
    destruct (v_rec p) as [|b r]; [congruence|]. reflexivity. }
  assert (C: rec_on g (Ev k (rg_main g) (v_rec p)) s
     = mkRo (Z.of_N k) (mkS (add_time (rg_base g) (rg_rel g k (v_rec p))) (rg_main g) (v_rec p) false []) (ro_out s)).
  { rewrite rec_rel by apply R1. cbn [e_id e_rec e_sample]. cbv zeta.
    rewrite s64_small, Hc, N.eqb_refl by exact Hk. replace (_ <? _)%Z with true by lia.
    cbn [ro_cur ro_last ro_out s_rec clear_sample s_has s_vbuf].
    unfold sample_no. replace (Z.of_N k <? 0)%Z with false by lia. rewrite N2Z.id, St.
    destruct (v_rec p) as [|b r]; [congruence|]. reflexivity. }
  assert (D: forall out t, rec_on g (Ev k v (v_val p)) (mkRo (Z.of_N k) (mkS t (rg_main g) (v_rec p) false []) out)
     = mkRo (Z.of_N k) clear_sample (out ++ [mkS t (rg_main g) (v_rec p) true (v_val p)])).
  { intros out t. rewrite rec_rel by apply R2. cbn [e_id e_rec e_sample]. cbv zeta. cbn [ro_cur].
    rewrite s64_small, Ev' by exact Hk. rewrite Z.ltb_irrefl.
    cbn [ro_cur ro_last ro_out s_rec s_has s_vbuf s_ts s_id]. rewrite St.
    destruct (v_rec p) as [|b r]; [congruence|]. reflexivity. }
  destruct (v_first p); cbn [fold_left].
  - rewrite A, B. reflexivity.
  - rewrite C, D. reflexivity.
Qed.

Lemma rec_pairs : forall g v, (forall id, In id (rg_ids g) <-> id = rg_main g \/ id = v) -> v <> rg_main g ->
  rg_store g = SVlsd ->
  forall ps k s, k + N.of_nat (length ps) < 2 ^ 63 -> ro_cur s = (Z.of_N k - 1)%Z ->
  Forall (fun p => v_rec p <> []) ps ->
  ro_out (rec_fold g (flat_map (pair_events (rg_main g) v) (numbered_from k ps)) s)
  = ro_out s ++ map (fun q => mkS (add_time (rg_base g) (rg_rel g (fst q) (v_rec (snd q)))) (rg_main g)
                              (v_rec (snd q)) true (v_val (snd q))) (numbered_from k ps).
Proof.
  intros g v I1 I2 St. induction ps as [|p ps IH]; intros k s Hk Hc Hr; cbn [numbered_from flat_map map].
  { rewrite app_nil_r. reflexivity. }
  cbn [length] in Hk. apply Forall_cons_iff in Hr. destruct Hr as (Hr & Hrs).
  pose proof (rec_pair g v k p s I1 I2 St) as P.
  unfold rec_fold in *. rewrite fold_left_app. rewrite P by (auto || lia).
  rewrite IH by (auto || cbn [ro_cur]; lia). cbn [ro_out fst snd]. rewrite <- app_assoc. reflexivity.
Qed.
