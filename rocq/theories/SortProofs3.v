(** Proofs about the sorting task, continued: the samples of one group, and the new file. *)
From Verif Require Import Base ChannelModel StreamModel StreamSpec StreamProofs IdProofs QueueModel QueueSpec QueueProofs EncProofs QueueProofs2 VlsdProofs QueueExtra ObsModel ObsSpec ObsProofs SortModel SortSpec SortProofs SortProofs2.
Local Open Scope N_scope.

(* ------------------------------------------------------------------ *)
(** ** The samples of one group *)

Lemma find_group : forall (l : list group) x, NoDup (map g_id l) -> In x l -> find (fun g => g_id g =? g_id x) l = Some x.
Proof.
  induction l as [|y l IH]; intros x ND H; [destruct H|]. cbn [map] in ND. apply NoDup_cons_iff in ND. destruct ND as (N1 & N2).
  cbn [find]. destruct (N.eqb_spec (g_id y) (g_id x)) as [E|E].
  - destruct H as [->|H]; [reflexivity|]. exfalso. apply N1. rewrite E. apply in_map. exact H.
  - destruct H as [->|H]; [congruence|]. apply IH; assumption.
Qed.

Lemma nof_in : forall d x, dg_ok d -> In x (d_groups d) -> nof_of d (g_id x) = g_nof x.
Proof. intros d x H Hx. unfold nof_of. rewrite (find_group _ _ (dg_ids _ H) Hx). reflexivity. Qed.

Section Samples.
Variables (base : N) (idsize : N) (sgs : list sgroup).
Let d := mkDg idsize (map sg sgs).
Let needs := needs_of (ids_of (observed sgs)).
Let g0 := fold_left (fun g p => obs_new p g) (map fst (observed sgs)) (mkDgo [] [] (fun _ => false)).

Lemma watched_sub : forall x id, In x sgs -> is_watched x = true -> In id (g_id (sg x) :: sg_vlsds x) ->
  subscribing needs g0 id = true.
Proof.
  intros x id Hx Hw Hid. assert (I: In x (map snd (observed sgs))).
  { unfold observed. rewrite number_snd. apply filter_In. auto. }
  apply in_map_iff in I. destruct I as (y & <- & Hy). unfold subscribing. apply existsb_exists. exists (fst y).
  assert (P: In (fst y) (map fst (observed sgs))) by (apply in_map; exact Hy).
  split.
  - unfold g0. rewrite do_list0. exact P.
  - apply observed_pos in P. replace (fst y =? 0) with false by lia. cbn [negb andb].
    unfold needs. rewrite needs_in by exact Hy. apply existsb_exists. exists id. split; [exact Hid|apply N.eqb_refl].
Qed.

Lemma rec_length : forall recs x r, dg_ok d -> Forall (rec_ok d) recs -> In x sgs -> g_vlsd (sg x) = false ->
  In r recs -> r_id r = g_id (sg x) -> length (r_data r) = rec_size (sg x).
Proof.
  intros recs x r Hd Hr Hx V Hin E. rewrite Forall_forall in Hr. destruct (Hr _ Hin) as (k & Hk & Ek & L).
  assert (k = sg x).
  { pose proof (find_group _ k (dg_ids _ Hd) Hk) as A.
    pose proof (find_group _ (sg x) (dg_ids _ Hd) (in_map sg _ _ Hx)) as B.
    replace (g_id k) with (g_id (sg x)) in A by congruence. rewrite A in B. congruence. }
  subst k. rewrite V in L. exact L.
Qed.

Lemma sample_list_fixed : forall recs x, dg_ok d -> Forall (rec_ok d) recs -> In x sgs -> is_watched x = true ->
  sg_vlsds x = [] -> sg_store x <> SVlsd -> (0 < rec_size (sg x))%nat ->
  occ (g_id (sg x)) recs <= g_nof (sg x) -> occ (g_id (sg x)) recs < 2 ^ 63 ->
  ro_out (rec_fold (sort_grp base x) (expected d (subscribing needs g0) [] recs) rec0)
  = map (fun q => mkS (time_of base x (fst q) (snd q)) (g_id (sg x)) (snd q) false [])
      (numbered_from 0 (payloads (g_id (sg x)) recs)).
Proof.
  intros recs x Hd Hr Hx Hw Hv Hs Hz Hn Hb.
  assert (V: g_vlsd (sg x) = false).
  { unfold is_watched in Hw. destruct (g_vlsd (sg x)); [discriminate|reflexivity]. }
  rewrite rec_filter. cbn [sort_grp rg_ids]. rewrite Hv.
  rewrite (one_filter _ (g_id (sg x))); [|intros id; cbn [In]; intuition].
  rewrite (expected_filter d _ (fun id => id =? g_id (sg x))).
  - cbn [filter]. rewrite (events_one (g_id (sg x))).
    + change (occ (g_id (sg x)) []) with 0. fold (payloads (g_id (sg x)) recs).
      change (map (fun q => Ev (fst q) (g_id (sg x)) (snd q))) with (map (fun q => Ev (fst q) (rg_main (sort_grp base x)) (snd q))).
      rewrite (rec_fixed (sort_grp base x)).
      * reflexivity.
      * intros id. cbn [sort_grp rg_ids rg_main]. rewrite Hv. cbn [In]. intuition.
      * exact Hs.
      * unfold payloads. rewrite map_length. unfold occ in Hb. lia.
      * reflexivity.
      * unfold payloads. apply Forall_forall. intros r Hin. apply in_map_iff in Hin. destruct Hin as (q & <- & Hq).
        apply filter_In in Hq. destruct Hq as (Q1 & Q2). apply N.eqb_eq in Q2.
        pose proof (rec_length recs x q Hd Hr Hx V Q1 Q2) as L. intros E. rewrite E in L. cbn [length] in L. lia.
    + apply Forall_forall. intros r Hin. apply filter_In in Hin. lia.
  - intros id E. apply N.eqb_eq in E. subst id. apply (watched_sub x); auto. left. reflexivity.
  - intros r Hin E. apply N.eqb_eq in E. rewrite E. cbn [app]. change (g_id (sg x)) with (g_id (sg x)).
    rewrite (nof_in d (sg x) Hd (in_map sg _ _ Hx)). exact Hn.
Qed.

Lemma sample_list_vlsd : forall recs x v ps, dg_ok d -> Forall (rec_ok d) recs -> In x sgs -> is_watched x = true ->
  (forall id, In id (sg_vlsds x) <-> id = v) -> v <> g_id (sg x) -> sg_store x = SVlsd -> (0 < rec_size (sg x))%nat ->
  occ (g_id (sg x)) recs <= g_nof (sg x) -> occ v recs <= nof_of d v -> N.of_nat (length ps) < 2 ^ 63 ->
  filter (fun r => (r_id r =? g_id (sg x)) || (r_id r =? v)) recs = flat_map (pair_recs (g_id (sg x)) v) ps ->
  ro_out (rec_fold (sort_grp base x) (expected d (subscribing needs g0) [] recs) rec0)
  = map (fun q => mkS (time_of base x (fst q) (v_rec (snd q))) (g_id (sg x)) (v_rec (snd q)) true (v_val (snd q)))
      (numbered_from 0 ps).
Proof.
  intros recs x v ps Hd Hr Hx Hw Hv Nv Hs Hz Hn Hnv Hb HF.
  assert (V: g_vlsd (sg x) = false).
  { unfold is_watched in Hw. destruct (g_vlsd (sg x)); [discriminate|reflexivity]. }
  rewrite rec_filter. cbn [sort_grp rg_ids].
  rewrite (two_filter _ (g_id (sg x)) v).
  2:{ intros id. cbn [In]. rewrite Hv. intuition. }
  rewrite (expected_filter d _ (fun id => (id =? g_id (sg x)) || (id =? v))).
  - cbn [filter]. rewrite HF. rewrite events_pairs by (auto || reflexivity).
    change (occ (g_id (sg x)) []) with 0.
    change (pair_events (g_id (sg x)) v) with (pair_events (rg_main (sort_grp base x)) v).
    rewrite (rec_pairs (sort_grp base x) v).
    + reflexivity.
    + intros id. cbn [sort_grp rg_ids rg_main In]. rewrite Hv. intuition.
    + exact Nv.
    + exact Hs.
    + lia.
    + reflexivity.
    + apply Forall_forall. intros p Hp.
      assert (Q: In (Rec (g_id (sg x)) (v_rec p)) recs).
      { assert (Q: In (Rec (g_id (sg x)) (v_rec p)) (flat_map (pair_recs (g_id (sg x)) v) ps)).
        { apply in_flat_map. exists p. split; [exact Hp|]. unfold pair_recs. destruct (v_first p); cbn [In]; auto. }
        rewrite <- HF in Q. apply filter_In in Q. tauto. }
      pose proof (rec_length recs x _ Hd Hr Hx V Q eq_refl) as L. cbn [r_data] in L.
      intros E. rewrite E in L. cbn [length] in L. lia.
  - intros id E. apply (watched_sub x); auto. apply orb_true_iff in E. destruct E as [E|E]; apply N.eqb_eq in E; subst id.
    + left. reflexivity.
    + right. apply Hv. reflexivity.
  - intros r Hin E. cbn [app]. apply orb_true_iff in E. destruct E as [E|E]; apply N.eqb_eq in E; rewrite E.
    + rewrite (nof_in d (sg x) Hd (in_map sg _ _ Hx)). exact Hn.
    + exact Hnv.
Qed.
End Samples.

(* ------------------------------------------------------------------ *)
(** ** The new file *)

Lemma dest_groups : forall x, dest_dg x = mkDg 0 [mkGroup 0 (g_vlsd (sg x)) (g_data (sg x)) (g_inval (sg x)) 0].
Proof. reflexivity. Qed.

Lemma dest_ok : forall x, g_vlsd (sg x) = false -> (0 < rec_size (sg x))%nat -> dg_ok (dest_dg x).
Proof.
  intros x V L. rewrite dest_groups. constructor; cbn [d_groups d_idsize map g_id].
  - discriminate.
  - constructor; [intros []|constructor].
  - left. reflexivity.
  - intros g _ C. congruence.
  - reflexivity.
  - intros g [<-|[]] _ _. exact L.
Qed.

Lemma dest_sample : forall x t r h vb, g_vlsd (sg x) = false -> length r = rec_size (sg x) -> N.of_nat (length vb) < 2 ^ 32 ->
  sample_ok (dest_dg x) (mkS t 0 r h vb).
Proof.
  intros x t r h vb V L B. split; [|exact B]. rewrite dest_groups.
  exists (mkGroup 0 (g_vlsd (sg x)) (g_data (sg x)) (g_inval (sg x)) 0). cbn [d_groups In g_id s_id g_vlsd s_rec]. auto.
Qed.

Lemma events_unique : forall evs recs prev, map ev_rec evs = recs ->
  (forall i ev, nth_error evs i = Some ev -> e_sample ev = occ (e_id ev) (prev ++ firstn i recs)) ->
  evs = events_from prev recs.
Proof.
  induction evs as [|e evs IH]; intros recs prev <- H; [reflexivity|]. cbn [map events_from]. f_equal.
  - pose proof (H 0%nat e eq_refl) as E. cbn [firstn] in E. rewrite app_nil_r in E. destruct e as [i id r]. cbn in *. congruence.
  - apply IH; [reflexivity|]. intros i ev E. rewrite (H (S i) ev E). cbn [map firstn]. rewrite <- app_assoc. reflexivity.
Qed.

Lemma emitted_events : forall d h l out e blocks fuel, dg_ok d -> emitted d h l out e ->
  Forall (fun b => b <> []) blocks -> concat blocks = out -> (length out < fuel)%nat ->
  read_data (with_counts d e) (fun _ => true) (fun _ => true) fuel blocks = Some (Ok (events_from [] (records_of d h l))).
Proof.
  intros d h l out e blocks fuel H E B C F.
  destruct (emitted_read d h l out e blocks fuel H E B C F) as (evs & R & M & N). rewrite R. f_equal. f_equal.
  apply events_unique; [exact M|exact N].
Qed.

(** Records without a variable length value. *)
Lemma records_plain : forall x h l prev, Forall (fun s => s_has s = false) l ->
  records_from (dest_dg x) h prev l = map (fun s => Rec 0 (s_rec s)) l.
Proof.
  intros x h l. induction l as [|s l IH]; intros prev F; [reflexivity|]. apply Forall_cons_iff in F. destruct F as (F1 & F2).
  cbn [records_from map]. rewrite IH by exact F2. f_equal.
  unfold sample_records, group_of, vlsd_group. rewrite F1. reflexivity.
Qed.

(** Records with one. *)
Fixpoint patched (off : N) (l : list sample) : list srec :=
  match l with
  | [] => []
  | s :: t => Rec 0 (patch_index (s_rec s) off) :: patched (off + 4 + N.of_nat (length (s_vbuf s))) t
  end.

Lemma dest_no_vlsd : forall x s, g_vlsd (sg x) = false -> vlsd_group (dest_dg x) s = None.
Proof. intros x s V. unfold vlsd_group. rewrite dest_groups. cbn [find_cg_record_id d_groups g_vlsd]. rewrite V. destruct (s_has s); reflexivity. Qed.

Lemma dest_in_sd : forall x s, g_vlsd (sg x) = false -> sg_var x = true -> s_has s = true ->
  in_sd (dest_dg x) (fun _ => sg_var x) 0 s = true.
Proof.
  intros x s V S H. unfold in_sd. rewrite dest_no_vlsd, H, S by exact V. reflexivity.
Qed.

Lemma dest_sd_values : forall x l, g_vlsd (sg x) = false -> sg_var x = true -> Forall (fun s => s_has s = true) l ->
  sd_values (dest_dg x) (fun _ => sg_var x) 0 l = map s_vbuf l.
Proof.
  intros x l V Sv H. unfold sd_values. f_equal. induction H as [|s l H1 H2 IH]; [reflexivity|].
  cbn [filter]. rewrite dest_in_sd, IH by assumption. reflexivity.
Qed.

Lemma records_sd : forall x l prev, g_vlsd (sg x) = false -> sg_var x = true ->
  Forall (fun s => s_has s = true) prev -> Forall (fun s => s_has s = true) l ->
  records_from (dest_dg x) (fun _ => sg_var x) prev l = patched (chunks_len (map s_vbuf prev)) l.
Proof.
  intros x l. induction l as [|s l IH]; intros prev V Sv Hp Hl; [reflexivity|].
  apply Forall_cons_iff in Hl. destruct Hl as (L1 & L2). cbn [records_from patched].
  rewrite IH; [|exact V|exact Sv|apply Forall_app; auto|exact L2].
  unfold sample_records. rewrite dest_no_vlsd by exact V.
  change (group_of (dest_dg x) s) with (Some 0). cbn beta iota. replace (s_has s && sg_var x) with true by (rewrite L1, Sv; reflexivity).
  cbn [app]. rewrite dest_sd_values by assumption.
  f_equal. rewrite map_app, chunks_len_app. cbn [map chunks_len fold_right]. f_equal. lia.
Qed.

(* ------------------------------------------------------------------ *)
(** ** Together *)

Lemma numbered_map : forall {A B} (f : A -> B) l n, numbered_from n (map f l) = map (fun q => (fst q, f (snd q))) (numbered_from n l).
Proof. intros A B f. induction l as [|x l IH]; intros n; [reflexivity|]. cbn [map numbered_from fst snd]. rewrite IH. reflexivity. Qed.

Lemma numbered_again : forall {A} (l : list A) n,
  numbered_from n (numbered_from n l) = map (fun q => (fst q, q)) (numbered_from n l).
Proof. intros A. induction l as [|x l IH]; intros n; [reflexivity|]. cbn [numbered_from map fst]. f_equal. apply IH. Qed.

Lemma numbered_in : forall {A} (l : list A) n q, In q (numbered_from n l) -> In (snd q) l.
Proof. intros A. induction l as [|x l IH]; intros n q H; [destruct H|]. destruct H as [<-|H]; [left; reflexivity|right; apply (IH _ _ H)]. Qed.

Lemma fixed_events : forall base x rs h,
  events_from [] (records_of (dest_dg x) h (map (copy_sample x)
    (map (fun q => mkS (time_of base x (fst q) (snd q)) (g_id (sg x)) (snd q) false []) (numbered_from 0 rs))))
  = sorted_fixed base x rs.
Proof.
  intros base x rs h. rewrite map_map. unfold records_of. rewrite records_plain.
  - rewrite map_map. cbn [copy_sample s_rec s_ts]. rewrite (events_one 0).
    + change (occ 0 []) with 0. rewrite map_map. cbn [r_data]. unfold sorted_fixed.
      rewrite numbered_map, numbered_again, map_map, map_map. reflexivity.
    + apply Forall_forall. intros r Hr. apply in_map_iff in Hr. destruct Hr as (q & <- & _). reflexivity.
  - apply Forall_forall. intros s Hs. apply in_map_iff in Hs. destruct Hs as (q & <- & _). reflexivity.
Qed.

Lemma patched_ids : forall l off, Forall (fun r => r_id r = 0) (patched off l).
Proof. induction l as [|s l IH]; intros off; cbn [patched]; constructor; auto. Qed.

Lemma vlsd_events : forall base x ps i off, 
  (forall p, In p ps -> forall t, (8 <= length (sg_stamp x t (v_rec p)))%nat) ->
  off + chunks_len (map v_val ps) < 2 ^ 64 ->
  map (fun q => Ev (fst q) 0 (snd q)) (numbered_from i (map r_data (patched off (map (copy_sample x)
    (map (fun q => mkS (time_of base x (fst q) (v_rec (snd q))) (g_id (sg x)) (v_rec (snd q)) true (v_val (snd q)))
      (numbered_from i ps))))))
  = sorted_vlsd base x i off ps.
Proof.
  intros base x. induction ps as [|p ps IH]; intros i off L B; [reflexivity|].
  cbn [numbered_from map patched r_data sorted_vlsd fst snd].
  cbn [map chunks_len fold_right] in B. fold (chunks_len (map v_val ps)) in B.
  f_equal.
  - f_equal. unfold patch_index, put_last8. cbn [copy_sample s_rec s_ts].
    rewrite (proj2 (Nat.leb_le _ _)) by (apply L; left; reflexivity).
    unfold w64. rewrite N.mod_small by lia. reflexivity.
  - cbn [copy_sample s_vbuf]. apply IH; [intros q Hq; apply L; right; exact Hq|lia].
Qed.

Lemma new_emitted : forall x ss d out sd, dg_ok (dest_dg x) -> Forall (sample_ok (dest_dg x)) ss ->
  new_file x ss d out sd ->
  exists e, d = with_counts (dest_dg x) e /\ sd = e_sd e 0 /\ emitted (dest_dg x) (fun _ => sg_var x) ss out e.
Proof.
  intros x ss d out sd Hd Hs F. destruct F as [stale start sch n E c h L st|stale start sch n E c h L st].
  - exists (u_enc st). split; [reflexivity|]. split; [reflexivity|]. rewrite <- E in *.
    destruct (run_all (dest_dg x) h stale c sch n Hd Hs eq_refl (or_introl eq_refl) L) as (_ & _ & _ & R). exact R.
  - exists (z_enc st). split; [reflexivity|]. split; [reflexivity|]. rewrite <- E in *.
    destruct (zrun_all (dest_dg x) h stale c sch n Hd Hs eq_refl (or_introl eq_refl) L) as (_ & _ & _ & _ & R & _). exact R.
Qed.

Lemma new_reads : forall x ss d out sd, dg_ok (dest_dg x) -> Forall (sample_ok (dest_dg x)) ss ->
  new_file x ss d out sd ->
  reads_as d out (events_from [] (records_of (dest_dg x) (fun _ => sg_var x) ss)) /\
  sd = chunks (sd_values (dest_dg x) (fun _ => sg_var x) 0 ss).
Proof.
  intros x ss d out sd Hd Hs F. destruct (new_emitted x ss d out sd Hd Hs F) as (e & -> & -> & E). split.
  - intros blocks fuel B C L. apply (emitted_events _ _ _ out); assumption.
  - destruct E as (_ & _ & E). apply (eo_sd _ _ _ _ E).
Qed.

Lemma payload_lengths : forall idsize sgs recs x, let d := mkDg idsize (map sg sgs) in
  dg_ok d -> Forall (rec_ok d) recs -> In x sgs -> g_vlsd (sg x) = false ->
  Forall (fun r => length r = rec_size (sg x)) (payloads (g_id (sg x)) recs).
Proof.
  intros idsize sgs recs x d Hd Hr Hx V. unfold payloads. apply Forall_forall. intros r Hin.
  apply in_map_iff in Hin. destruct Hin as (q & <- & Hq). apply filter_In in Hq. destruct Hq as (Q1 & Q2).
  apply N.eqb_eq in Q2. apply (rec_length idsize sgs recs x q Hd Hr Hx V Q1 Q2).
Qed.

Lemma copied_in : forall skip sgs x (f : sgroup -> list sample), In x sgs -> is_copied skip x = true ->
  In (x, f x) (map (fun x => (x, f x)) (filter (is_copied skip) sgs)).
Proof. intros skip sgs x f Hx Hc. apply (in_map (fun x => (x, f x))). apply filter_In. auto. Qed.

Lemma sorted_fixed_group : forall base idsize sgs skip recs blocks fuel x,
  let d := mkDg idsize (map sg sgs) in
  dg_ok d -> Forall (rec_ok d) recs -> Forall (fun b => b <> []) blocks ->
  concat blocks = stream d recs -> (length (stream d recs) < fuel)%nat ->
  In x sgs -> g_vlsd (sg x) = false -> (skip = true -> 0 < g_nof (sg x)) ->
  sg_vlsds x = [] -> sg_store x <> SVlsd -> (0 < rec_size (sg x))%nat -> stamps x ->
  occ (g_id (sg x)) recs = g_nof (sg x) -> g_nof (sg x) < 2 ^ 63 ->
  exists out ss, sort_dg fuel base skip idsize sgs blocks = Some (Ok out) /\ In (x, ss) out /\
    forall d' data sd, new_file x ss d' data sd ->
      reads_as d' data (sorted_fixed base x (payloads (g_id (sg x)) recs)).
Proof.
  intros base idsize sgs skip recs blocks fuel x d Hd Hr Hb Hc Hf Hx V Hk Hv Hs Hz St Hn Hn2.
  assert (Ic: is_copied skip x = true).
  { unfold is_copied. rewrite V. destruct skip; [|reflexivity]. specialize (Hk eq_refl). replace (_ =? 0) with false by lia. reflexivity. }
  eexists. eexists. split; [apply (sort_out base idsize sgs fuel skip recs blocks Hd Hr Hb Hc Hf)|].
  split; [apply (copied_in skip sgs x (fun x => if is_watched x then _ else _) Hx Ic)|].
  destruct (is_watched x) eqn:W.
  - rewrite (sample_list_fixed base idsize sgs recs x) by (auto; fold d in Hd; try assumption; lia).
    intros d' data sd F. rewrite <- (fixed_events base x _ (fun _ => sg_var x)).
    apply (new_reads x _ d' data sd); [apply dest_ok; assumption| |exact F].
    rewrite map_map. apply Forall_forall. intros s Hin. apply in_map_iff in Hin. destruct Hin as (q & <- & Hq).
    apply numbered_in in Hq. unfold copy_sample. cbn [s_ts s_rec s_has s_vbuf]. apply dest_sample; [exact V| |reflexivity].
    apply St. pose proof (payload_lengths idsize sgs recs x Hd Hr Hx V) as PL. rewrite Forall_forall in PL. apply PL. exact Hq.
  - assert (Z: g_nof (sg x) = 0). { unfold is_watched in W. rewrite V in W. cbn [negb andb] in W. lia. }
    assert (P: payloads (g_id (sg x)) recs = []).
    { rewrite Z in Hn. unfold occ in Hn. unfold payloads. destruct (filter (fun r => r_id r =? g_id (sg x)) recs); [reflexivity|cbn [length] in Hn; lia]. }
    intros d' data sd F. rewrite P.
    apply (new_reads x [] d' data sd); [apply dest_ok; assumption|constructor|exact F].
Qed.

Lemma sorted_vlsd_nth : forall base x ps i off k p, nth_error ps k = Some p ->
  nth_error (sorted_vlsd base x i off ps) k
  = Some (Ev (i + N.of_nat k) 0 (put_last8 (sg_stamp x (time_of base x (i + N.of_nat k) (v_rec p)) (v_rec p))
      (off + chunks_len (map v_val (firstn k ps))))).
Proof.
  intros base x. induction ps as [|q ps IH]; intros i off k p H; destruct k as [|k]; try discriminate; cbn [nth_error] in *.
  - injection H as ->. cbn [sorted_vlsd firstn map]. change (chunks_len []) with 0. rewrite !N.add_0_r. reflexivity.
  - cbn [sorted_vlsd]. rewrite (IH _ _ _ _ H). cbn [firstn map chunks_len fold_right].
    fold (chunks_len (map v_val (firstn k ps))). replace (i + 1 + N.of_nat k) with (i + N.of_nat (S k)) by lia.
    replace (off + 4 + N.of_nat (length (v_val q)) + chunks_len (map v_val (firstn k ps)))
      with (off + (4 + N.of_nat (length (v_val q)) + chunks_len (map v_val (firstn k ps)))) by lia. reflexivity.
Qed.

Lemma put_last8_last : forall r off, off < 2 ^ 64 -> last8 (put_last8 r off) = off.
Proof.
  intros r off H. unfold last8, put_last8. rewrite app_length, le_bytes_length.
  replace (_ + 8 - 8)%nat with (length (firstn (length r - 8) r)) by lia.
  rewrite skipn_app, skipn_all, Nat.sub_diag. cbn [app skipn]. rewrite le_num_bytes. apply N.mod_small. exact H.
Qed.

Lemma put_last8_len : forall r off, (8 <= length r)%nat -> length (put_last8 r off) = length r.
Proof. intros r off H. unfold put_last8. rewrite app_length, le_bytes_length, firstn_length. lia. Qed.

Lemma lookup_nth : forall vs k v, Forall (fun v => N.of_nat (length v) < 2 ^ 32) vs -> chunks_len vs < 2 ^ 64 ->
  nth_error vs k = Some v -> sd_lookup (chunks vs) (chunks_len (firstn k vs)) = Ok v.
Proof.
  intros vs k v F B H. destruct (nth_error_split vs k H) as (a & b & -> & L).
  rewrite firstn_app, <- L, Nat.sub_diag, firstn_all, firstn_O, app_nil_r.
  apply Forall_app in F. destruct F as (_ & F). apply Forall_cons_iff in F. destruct F as (F & _).
  rewrite <- chunks_length. rewrite chunks_app. change (chunks (v :: b)) with (chunk v ++ chunks b). unfold chunk.
  apply sd_lookup_at; [exact F|].
  rewrite <- chunks_length, chunks_app in B. exact B.
Qed.

Lemma sorted_vlsd_group : forall base idsize sgs skip recs blocks fuel x v ps,
  let d := mkDg idsize (map sg sgs) in
  dg_ok d -> Forall (rec_ok d) recs -> Forall (fun b => b <> []) blocks ->
  concat blocks = stream d recs -> (length (stream d recs) < fuel)%nat ->
  In x sgs -> g_vlsd (sg x) = false -> 0 < g_nof (sg x) ->
  (forall id, In id (sg_vlsds x) <-> id = v) -> v <> g_id (sg x) -> vlsd_id d v = true ->
  sg_store x = SVlsd -> sg_var x = true ->
  (8 <= rec_size (sg x))%nat -> stamps x ->
  occ (g_id (sg x)) recs = g_nof (sg x) -> occ v recs <= nof_of d v -> g_nof (sg x) < 2 ^ 63 ->
  filter (fun r => (r_id r =? g_id (sg x)) || (r_id r =? v)) recs = flat_map (pair_recs (g_id (sg x)) v) ps ->
  chunks_len (map v_val ps) < 2 ^ 64 ->
  exists out ss, sort_dg fuel base skip idsize sgs blocks = Some (Ok out) /\ In (x, ss) out /\
    forall d' data sd, new_file x ss d' data sd ->
      reads_as d' data (sorted_vlsd base x 0 0 ps) /\
      forall i p, nth_error ps i = Some p ->
        exists r, nth_error (sorted_vlsd base x 0 0 ps) i = Some (Ev (N.of_nat i) 0 r) /\
          firstn (length r - 8) r = firstn (length r - 8) (sg_stamp x (time_of base x (N.of_nat i) (v_rec p)) (v_rec p)) /\
          sd_lookup sd (last8 r) = Ok (v_val p).
Proof.
  intros base idsize sgs skip recs blocks fuel x v ps d Hd Hr Hb Hc Hf Hx V H0 Hv Nv Vv Hs Sv Hz St Hn Hnv Hn2 HF HB.
  assert (W: is_watched x = true). { unfold is_watched. rewrite V. cbn [negb andb]. lia. }
  assert (Ic: is_copied skip x = true).
  { unfold is_copied. rewrite V. replace (_ =? 0) with false by lia. destruct skip; reflexivity. }
  assert (Lp: forall p, In p ps -> length (v_rec p) = rec_size (sg x) /\ N.of_nat (length (v_val p)) < 2 ^ 32).
  { intros p Hp.
    assert (Q: In (Rec (g_id (sg x)) (v_rec p)) recs /\ In (Rec v (v_val p)) recs).
    { assert (Q: forall r, In r (pair_recs (g_id (sg x)) v p) -> In r recs).
      { intros r Hin. assert (Q: In r (flat_map (pair_recs (g_id (sg x)) v) ps)) by (apply in_flat_map; eauto).
        rewrite <- HF in Q. apply filter_In in Q. tauto. }
      unfold pair_recs in Q. destruct (v_first p); split; apply Q; cbn [In]; auto. }
    destruct Q as (Q1 & Q2). split.
    - apply (rec_length idsize sgs recs x _ Hd Hr Hx V Q1 eq_refl).
    - rewrite Forall_forall in Hr. destruct (Hr _ Q2) as (k & K1 & K2 & K3). cbn [r_id r_data] in K2, K3.
      unfold vlsd_id in Vv. apply existsb_exists in Vv. destruct Vv as (k2 & J1 & J2). apply andb_true_iff in J2. destruct J2 as (J2 & J3). apply N.eqb_eq in J2.
      assert (k = k2) by (apply (same_group d); [exact Hd|exact K1|exact J1|congruence]). subst k2. rewrite J3 in K3. exact K3. }
  assert (LN: N.of_nat (length ps) < 2 ^ 63).
  { assert (E: occ (g_id (sg x)) recs = N.of_nat (length ps)); [|lia].
    rewrite <- (occ_filter (fun id => (id =? g_id (sg x)) || (id =? v)) (g_id (sg x)) recs) by (rewrite N.eqb_refl; reflexivity).
    rewrite HF. clear - Nv. assert (A: v =? g_id (sg x) = false) by lia.
    induction ps as [|p ps IH]; [reflexivity|]. cbn [flat_map length]. rewrite occ_app', IH. unfold pair_recs.
    destruct (v_first p); rewrite !occ_cons'; cbn [r_id]; rewrite A, N.eqb_refl; change (occ (g_id (sg x)) []) with 0; lia. }
  eexists. eexists. split; [apply (sort_out base idsize sgs fuel skip recs blocks Hd Hr Hb Hc Hf)|].
  split; [apply (copied_in skip sgs x (fun x => if is_watched x then _ else _) Hx Ic)|].
  rewrite W. rewrite (sample_list_vlsd base idsize sgs recs x v ps) by (assumption || fold d; lia).
  set (ss := map (copy_sample x) _).
  assert (SO: Forall (sample_ok (dest_dg x)) ss).
  { unfold ss. rewrite map_map. apply Forall_forall. intros s Hin. apply in_map_iff in Hin. destruct Hin as (q & <- & Hq).
    apply numbered_in in Hq. destruct (Lp _ Hq) as (L1 & L2). unfold copy_sample. cbn [s_ts s_rec s_has s_vbuf].
    apply dest_sample; [exact V| |exact L2]. apply St. exact L1. }
  assert (SH: Forall (fun s => s_has s = true) ss).
  { unfold ss. rewrite map_map. apply Forall_forall. intros s Hin. apply in_map_iff in Hin. destruct Hin as (q & <- & Hq). reflexivity. }
  assert (SV: map s_vbuf ss = map v_val ps).
  { unfold ss. rewrite !map_map. cbn [copy_sample s_vbuf]. clear. generalize 0 at 1. induction ps as [|p ps IH]; intros n; [reflexivity|].
    cbn [numbered_from map snd]. rewrite IH. reflexivity. }
  assert (EE: events_from [] (records_of (dest_dg x) (fun _ => sg_var x) ss) = sorted_vlsd base x 0 0 ps).
  { unfold records_of. rewrite records_sd by (assumption || constructor). rewrite (events_one 0) by apply patched_ids.
    change (occ 0 []) with 0. change (chunks_len (map s_vbuf [])) with 0. unfold ss. apply vlsd_events; [|exact HB].
    intros p Hp t. destruct (Lp p Hp) as (L1 & _). rewrite St by exact L1. exact Hz. }
  intros d' data sd F.
  destruct (new_reads x ss d' data sd) as (R1 & R2); [apply dest_ok; [exact V|lia]|exact SO|exact F|].
  rewrite EE in R1. split; [exact R1|]. rewrite dest_sd_values, SV in R2 by assumption.
  intros i p Hp. pose proof (sorted_vlsd_nth base x ps 0 0 i p Hp) as Q. cbn [N.add] in Q.
  eexists. split; [exact Q|].
  assert (L8: (8 <= length (sg_stamp x (time_of base x (N.of_nat i) (v_rec p)) (v_rec p)))%nat).
  { rewrite St; [exact Hz|]. apply Lp. apply nth_error_In in Hp. exact Hp. }
  split.
  - rewrite put_last8_len by exact L8. unfold put_last8. rewrite firstn_app, firstn_firstn, Nat.min_id.
    rewrite firstn_length. replace (_ - Nat.min _ _)%nat with 0%nat by lia. rewrite firstn_O, app_nil_r. reflexivity.
  - rewrite R2, put_last8_last.
    + rewrite <- firstn_map. apply lookup_nth; [|exact HB|].
      * apply Forall_forall. intros w Hw. apply in_map_iff in Hw. destruct Hw as (q & <- & Hq). apply Lp. exact Hq.
      * rewrite nth_error_map, Hp. reflexivity.
    + rewrite <- (firstn_skipn i ps), map_app, chunks_len_app in HB. lia.
Qed.

(* ------------------------------------------------------------------ *)
(** ** Files of the library's own writer are made of adjacent pairs *)

Lemma own_pairs : forall d h m l prev, dg_ok d -> Forall (sample_ok d) l -> m + 1 < 2 ^ 64 ->
  (forall g, In g (d_groups d) -> g_id g < 2 ^ 64) ->
  (exists g, In g (d_groups d) /\ g_id g = m /\ g_vlsd g = false) ->
  (exists g, In g (d_groups d) /\ g_id g = m + 1 /\ g_vlsd g = true) ->
  (forall s, In s l -> s_id s = m -> s_has s = true) ->
  exists ps, filter (fun r => (r_id r =? m) || (r_id r =? m + 1)) (records_from d h prev l)
             = flat_map (pair_recs m (m + 1)) ps /\
    map v_val ps = map s_vbuf (filter (fun s => s_id s =? m) l).
Proof.
  intros d h m l. induction l as [|s l IH]; intros prev Hd F Hm Hi HM HV Hh; [exists []; split; reflexivity|].
  apply Forall_cons_iff in F. destruct F as (F1 & F2).
  destruct (IH (prev ++ [s]) Hd F2 Hm Hi HM HV) as (ps & E1 & E2). { intros t Ht. apply Hh. right. exact Ht. }
  cbn [records_from filter]. rewrite filter_app, E1.
  destruct F1 as ((g & Hg & Eg & Vg & Lg) & Lv).
  pose proof (find_cg_sample d s g Hd Hg Eg) as FC.
  assert (GO: group_of d s = Some (s_id s)) by (unfold group_of; rewrite FC; cbn [option_map]; f_equal; exact Eg).
  assert (Is: s_id s < 2 ^ 64) by (rewrite <- Eg; apply Hi; exact Hg).
  destruct HV as (gv & V1 & V2 & V3). destruct HM as (gm & M1 & M2 & M3).
  assert (Two: find_cg_record_id d (w64 (m + 1)) = Some gv).
  { unfold w64. rewrite N.mod_small by exact Hm. rewrite <- V2. unfold find_cg_record_id.
    destruct (d_groups d) as [|a [|b t]] eqn:Q; [destruct V1| |].
    - destruct V1 as [<-|[]]. destruct M1 as [<-|[]]. congruence.
    - rewrite <- Q in *. apply find_group; [apply (dg_ids _ Hd)|exact V1]. }
  destruct (N.eqb_spec (s_id s) m) as [Em|Em].
  - assert (VG: vlsd_group d s = Some gv).
    { unfold vlsd_group. rewrite (Hh s (or_introl eq_refl) Em), Em, Two, V3. reflexivity. }
    unfold sample_records. rewrite GO, VG, V2, Em.
    exists (mkV true (patch_index (s_rec s) (chunks_len (group_values d (m + 1) prev))) (s_vbuf s) :: ps).
    split; [|cbn [map v_val]; rewrite E2; reflexivity].
    cbn [filter r_id]. rewrite N.eqb_refl, orb_true_r, N.eqb_refl. cbn [orb].
    cbn [flat_map]. unfold pair_recs at 2. cbn [v_first v_val v_rec app]. reflexivity.
  - exists ps. split; [|exact E2].
    assert (A1: s_id s =? m = false) by lia.
    assert (A2: s_id s =? m + 1 = false).
    { apply N.eqb_neq. intros C. assert (g = gv) by (apply (same_group d); auto; congruence). subst gv. congruence. }
    unfold sample_records. rewrite GO. destruct (vlsd_group d s) as [k|] eqn:VG.
    + destruct (vlsd_group_in d s k VG) as (K1 & K2).
      assert (K3: g_id k = w64 (s_id s + 1)).
      { unfold vlsd_group in VG. destruct (s_has s); [|discriminate].
        destruct (find_cg_record_id d (w64 (s_id s + 1))) as [k'|] eqn:Q; [|discriminate].
        destruct (g_vlsd k'); [|discriminate]. injection VG as ->. unfold find_cg_record_id in Q.
        destruct (d_groups d) as [|a [|b t]] eqn:Q2; [destruct V1| |].
        - destruct V1 as [<-|[]]. destruct M1 as [<-|[]]. congruence.
        - apply find_some in Q. lia. }
      cbn [filter r_id]. rewrite A1, A2. cbn [orb].
      replace (g_id k =? m) with false. 2:{ symmetry. apply N.eqb_neq. intros C. assert (k = gm) by (apply (same_group d); auto; congruence). congruence. }
      replace (g_id k =? m + 1) with false. 2:{ symmetry. apply N.eqb_neq. rewrite K3. intros C. unfold w64 in C.
        destruct (N.eq_dec (s_id s + 1) (2 ^ 64)) as [Z|Z].
        - rewrite Z, N.mod_same in C by lia. lia.
        - rewrite N.mod_small in C by lia. lia. }
      reflexivity.
    + destruct (_ && _); cbn [filter r_id]; rewrite A1, A2; reflexivity.
Qed.
