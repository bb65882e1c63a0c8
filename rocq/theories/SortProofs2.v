(** Proofs about the sorting task: from the file to the samples, and from the samples to the new
    file. *)
From Verif Require Import Base ChannelModel StreamModel StreamSpec StreamProofs IdProofs QueueModel QueueSpec EncProofs QueueProofs VlsdProofs ObsModel ObsSpec ObsProofs SortModel SortSpec SortProofs.
Local Open Scope N_scope.

(* ------------------------------------------------------------------ *)
(** ** Notifications of some of the groups *)

(** Every record with its number within its group, counted from [prev]. *)
Fixpoint events_from (prev recs : list srec) : list event :=
  match recs with
  | [] => []
  | r :: t => Ev (occ (r_id r) prev) (r_id r) (r_data r) :: events_from (prev ++ [r]) t
  end.

Lemma occ_filter : forall F id l, F id = true -> occ id (filter (fun r => F (r_id r)) l) = occ id l.
Proof.
  intros F id l H. unfold occ. apply (f_equal (fun l : list srec => N.of_nat (length l))).
  induction l as [|r l IH]; [reflexivity|]. cbn [filter].
  destruct (F (r_id r)) eqn:E; cbn [filter].
  - destruct (r_id r =? id); rewrite IH; reflexivity.
  - destruct (N.eqb_spec (r_id r) id) as [Q|]; [rewrite Q in E; congruence|exact IH].
Qed.

Lemma occ_cons' : forall id r l, occ id (r :: l) = (if r_id r =? id then 1 else 0) + occ id l.
Proof. intros. unfold occ. cbn [filter]. destruct (_ =? _); cbn [length]; lia. Qed.

Lemma occ_app' : forall id a b, occ id (a ++ b) = occ id a + occ id b.
Proof. intros. unfold occ. rewrite filter_app, app_length. lia. Qed.

Lemma expected_filter : forall d sub F recs prev,
  (forall id, F id = true -> sub id = true) ->
  (forall r, In r recs -> F (r_id r) = true -> occ (r_id r) (prev ++ recs) <= nof_of d (r_id r)) ->
  filter (fun e => F (e_id e)) (expected d sub prev recs)
  = events_from (filter (fun r => F (r_id r)) prev) (filter (fun r => F (r_id r)) recs).
Proof.
  intros d sub F. induction recs as [|r recs IH]; intros prev Hs Hn; [reflexivity|].
  cbn [expected filter]. rewrite filter_app, IH; [|exact Hs|].
  - rewrite filter_app. cbn [filter]. destruct (F (r_id r)) eqn:E.
    + rewrite (Hs _ E). cbn [andb].
      assert (L: occ (r_id r) (prev ++ r :: recs) <= nof_of d (r_id r)) by (apply Hn; [left; reflexivity|exact E]).
      rewrite occ_app', occ_cons', N.eqb_refl in L. replace (_ <? _) with true by lia.
      cbn [filter e_id]. rewrite E. cbn [events_from app]. rewrite occ_filter by exact E. reflexivity.
    + rewrite app_nil_r. destruct (_ && _); [|reflexivity]. cbn [filter e_id]. rewrite E. reflexivity.
  - intros q Hq Fq. rewrite <- app_assoc. cbn [app]. apply Hn; [right; exact Hq|exact Fq].
Qed.

Lemma events_one : forall id recs prev, Forall (fun r => r_id r = id) recs ->
  events_from prev recs = map (fun q => Ev (fst q) id (snd q)) (numbered_from (occ id prev) (map r_data recs)).
Proof.
  intros id. induction recs as [|r recs IH]; intros prev H; [reflexivity|].
  apply Forall_cons_iff in H. destruct H as (H1 & H2). cbn [events_from map numbered_from fst snd].
  rewrite IH by exact H2. rewrite occ_app', occ_cons', H1, N.eqb_refl. cbn [occ filter length].
  replace (occ id prev + (1 + N.of_nat 0)) with (occ id prev + 1) by lia. reflexivity.
Qed.

Lemma events_pairs : forall main v ps prev, main <> v -> occ main prev = occ v prev ->
  events_from prev (flat_map (pair_recs main v) ps)
  = flat_map (pair_events main v) (numbered_from (occ main prev) ps).
Proof.
  intros main v. induction ps as [|p ps IH]; intros prev H E; [reflexivity|].
  cbn [flat_map numbered_from]. unfold pair_recs at 1, pair_events at 1. cbn [fst snd].
  assert (A: main =? v = false) by lia. assert (B: v =? main = false) by lia.
  destruct (v_first p); cbn [app events_from r_id r_data].
  - rewrite IH; [|exact H|].
    + rewrite !occ_app', !occ_cons'. cbn [r_id]. rewrite ?A, ?B, ?N.eqb_refl. change (occ main []) with 0.
      rewrite E. f_equal. f_equal; [f_equal; lia|]. f_equal. f_equal. lia.
    + rewrite !occ_app', !occ_cons'. cbn [r_id]. rewrite ?A, ?B, ?N.eqb_refl.
      change (occ main []) with 0. change (occ v []) with 0. lia.
  - rewrite IH; [|exact H|].
    + rewrite !occ_app', !occ_cons'. cbn [r_id]. rewrite ?A, ?B, ?N.eqb_refl. change (occ main []) with 0.
      change (occ v []) with 0. rewrite E. f_equal. f_equal; [f_equal; lia|]. f_equal. f_equal. lia.
    + rewrite !occ_app', !occ_cons'. cbn [r_id]. rewrite ?A, ?B, ?N.eqb_refl.
      change (occ main []) with 0. change (occ v []) with 0. lia.
Qed.

(* ------------------------------------------------------------------ *)
(** ** The observers of the task *)

Lemma ask_sort : forall base l subs e w,
  fst (ask (sort_call base l) subs e w) = true /\
  (NoDup subs -> forall p,
   snd (ask (sort_call base l) subs e w) p
   = if existsb (N.eqb p) subs
     then match find (fun y => fst y =? p) l with
          | Some y => rec_on (sort_grp base (snd y)) e (w p)
          | None => w p
          end
     else w p).
Proof.
  intros base l. induction subs as [|q subs IH]; intros e w; cbn [ask].
  { split; [reflexivity|]. intros _ p. reflexivity. }
  assert (E: fst (sort_call base l q e w) = true) by (unfold sort_call; destruct (find (fun y => fst y =? q) l); reflexivity).
  rewrite E. destruct (IH e (snd (sort_call base l q e w))) as (I1 & I2). split; [exact I1|].
  intros ND p. apply NoDup_cons_iff in ND. destruct ND as (N1 & N2). rewrite I2 by exact N2. cbn [existsb].
  destruct (N.eqb_spec p q) as [->|Hq]; cbn [orb].
  - destruct (existsb (N.eqb q) subs) eqn:X.
    { exfalso. apply existsb_exists in X. destruct X as (z & Z1 & Z2). apply N.eqb_eq in Z2. subst z. contradiction. }
    unfold sort_call. destruct (find (fun y => fst y =? q) l); cbn [snd]; [rewrite N.eqb_refl; reflexivity|reflexivity].
  - assert (W: snd (sort_call base l q e w) p = w p).
    { unfold sort_call. destruct (find (fun y => fst y =? q) l); cbn [snd]; [|reflexivity]. replace (p =? q) with false by lia. reflexivity. }
    rewrite W. reflexivity.
Qed.

Lemma number_fst : forall {A} (l : list A) n p, In p (map fst (number n l)) -> n <= p.
Proof.
  intros A. induction l as [|x l IH]; intros n p H; [destruct H|]. cbn [number map fst] in H.
  destruct H as [<-|H]; [lia|]. apply IH in H. lia.
Qed.

Lemma number_nodup : forall {A} (l : list A) n, NoDup (map fst (number n l)).
Proof.
  intros A. induction l as [|x l IH]; intros n; cbn [number map fst]; constructor; [|apply IH].
  intros H. apply number_fst in H. lia.
Qed.

Lemma number_snd : forall {A} (l : list A) n, map snd (number n l) = l.
Proof. intros A. induction l as [|x l IH]; intros n; [reflexivity|]. cbn [number map snd]. rewrite IH. reflexivity. Qed.

Lemma find_ptr : forall {A} (l : list (N * A)) y, NoDup (map fst l) -> In y l -> find (fun z => fst z =? fst y) l = Some y.
Proof.
  intros A. induction l as [|x l IH]; intros y ND H; [destruct H|]. cbn [map] in ND. apply NoDup_cons_iff in ND.
  destruct ND as (N1 & N2). cbn [find]. destruct H as [->|H]; [rewrite N.eqb_refl; reflexivity|].
  destruct (N.eqb_spec (fst x) (fst y)) as [E|E]; [|apply IH; auto].
  exfalso. apply N1. rewrite E. apply in_map. exact H.
Qed.

Lemma attached : forall l g, do_list (fold_left (fun g p => obs_new p g) l g) = do_list g ++ l.
Proof.
  induction l as [|p l IH]; intros g; cbn [fold_left]; [rewrite app_nil_r; reflexivity|].
  rewrite IH. unfold obs_new, attach. cbn [do_list]. rewrite <- app_assoc. reflexivity.
Qed.

Section Task.
Variables (base : N) (idsize : N) (sgs : list sgroup).
Let d := mkDg idsize (map sg sgs).
Let l := observed sgs.
Let needs := needs_of (ids_of l).
Let g0 := fold_left (fun g p => obs_new p g) (map fst l) (mkDgo [] [] (fun _ => false)).
Let g := init_fast needs (map g_id (d_groups d)) g0.

Lemma do_list0 : do_list g0 = map fst l.
Proof. unfold g0. rewrite attached. reflexivity. Qed.

Lemma observed_in : forall y, In y l -> In (snd y) sgs /\ is_watched (snd y) = true.
Proof.
  intros y H. apply filter_In. unfold l, observed in H. apply (in_map snd) in H. rewrite number_snd in H. exact H.
Qed.

Lemma observed_nodup : NoDup (map fst l).
Proof. apply number_nodup. Qed.

Lemma observed_pos : forall p, In p (map fst l) -> p <> 0.
Proof. intros p H. apply number_fst in H. lia. Qed.

Lemma needs_in : forall y id, In y l -> needs (fst y) id = existsb (N.eqb id) (g_id (sg (snd y)) :: sg_vlsds (snd y)).
Proof. intros y id H. unfold needs, needs_of, ids_of. rewrite (find_ptr l y observed_nodup H). reflexivity. Qed.

Lemma all_some : forall q, In q (do_list g0) -> q <> 0 -> exists a, In a (map g_id (d_groups d)) /\ needs q a = true.
Proof.
  intros q H _. rewrite do_list0 in H. apply in_map_iff in H. destruct H as (y & <- & Hy).
  exists (g_id (sg (snd y))). split.
  - cbn [d d_groups]. rewrite map_map. apply (in_map (fun x => g_id (sg x))). apply observed_in. exact Hy.
  - rewrite needs_in by exact Hy. cbn [existsb]. rewrite N.eqb_refl. reflexivity.
Qed.

Lemma step_world : forall recs prev e w, Forall (rec_ok d) recs ->
  In e (expected d (subscribing needs g0) prev recs) ->
  fst (notify_obs (sort_call base l) g e w) = true /\
  forall y, In y l -> snd (notify_obs (sort_call base l) g e w) (fst y) = rec_on (sort_grp base (snd y)) e (w (fst y)).
Proof.
  intros recs prev e w Hr He. destruct (expected_ids _ _ _ _ _ Hr He) as (S1 & S2). unfold g.
  rewrite notify_wants.
  - destruct (ask_sort base l (wants needs (do_list g0) (e_id e)) e w) as (A1 & A2). split; [exact A1|].
    intros y Hy. rewrite A2.
    + destruct (existsb (N.eqb (fst y)) (wants needs (do_list g0) (e_id e))) eqn:X.
      * rewrite (find_ptr l y observed_nodup Hy). reflexivity.
      * unfold rec_on. cbn [sort_grp rg_ids]. rewrite <- needs_in by exact Hy.
        destruct (needs (fst y) (e_id e)) eqn:Q; [|reflexivity]. exfalso.
        assert (X': existsb (N.eqb (fst y)) (wants needs (do_list g0) (e_id e)) = true); [|congruence].
        apply existsb_exists. exists (fst y). split; [|apply N.eqb_refl]. apply filter_In.
        assert (I: In (fst y) (map fst l)) by (apply in_map; exact Hy).
        rewrite do_list0. split; [exact I|]. apply observed_pos in I. rewrite Q. replace (fst y =? 0) with false by lia. reflexivity.
    + unfold wants. rewrite do_list0. apply NoDup_filter. apply observed_nodup.
  - exact S2.
  - apply some_group; [exact all_some|exact S2|]. intros E. unfold subscribing in S1.
    apply existsb_exists in S1. destruct S1 as (p & P1 & P2).
    assert (I: In p (wants needs (do_list g0) (e_id e))) by (apply filter_In; auto). rewrite E in I. destruct I.
Qed.

Lemma world : forall evs w, (forall e w, In e evs ->
    forall y, In y l -> snd (notify_obs (sort_call base l) g e w) (fst y) = rec_on (sort_grp base (snd y)) e (w (fst y))) ->
  forall y, In y l ->
  fold_left (fun w e => snd (notify_obs (sort_call base l) g e w)) evs w (fst y)
  = rec_fold (sort_grp base (snd y)) evs (w (fst y)).
Proof.
  induction evs as [|e evs IH]; intros w H y Hy; [reflexivity|]. unfold rec_fold. cbn [fold_left].
  rewrite IH; [|intros e' w' He'; apply H; right; exact He'|exact Hy].
  rewrite (H e w (or_introl eq_refl) y Hy). reflexivity.
Qed.

Lemma upto_forall : forall v (evs : list event), (forall e, In e evs -> v e = true) -> upto v evs = evs.
Proof.
  intros v. induction evs as [|e evs IH]; intros H; [reflexivity|]. cbn [upto].
  rewrite (H e (or_introl eq_refl)), IH; [reflexivity|]. intros e' He. apply H. right. exact He.
Qed.

Lemma sort_out : forall fuel skip recs blocks,
  dg_ok d -> Forall (rec_ok d) recs -> Forall (fun b => b <> []) blocks ->
  concat blocks = stream d recs -> (length (stream d recs) < fuel)%nat ->
  let evs := expected d (subscribing needs g0) [] recs in
  sort_dg fuel base skip idsize sgs blocks
  = Some (Ok (map (fun x => (x, if is_watched x then map (copy_sample x) (ro_out (rec_fold (sort_grp base x) evs rec0)) else []))
       (filter (is_copied skip) sgs))).
Proof.
  intros fuel skip recs blocks Hd Hr Hb Hc Hf evs. unfold sort_dg. fold l d. fold needs. fold g0. fold g.
  rewrite (read_complete d _ _ recs blocks fuel Hd Hr Hb Hc Hf). fold evs.
  rewrite upto_forall.
  2:{ intros e He. apply (proj1 (step_world recs [] e _ Hr He)). }
  f_equal. f_equal. apply map_ext_in. intros x Hx. apply filter_In in Hx. destruct Hx as (Hx & Hcp). f_equal.
  assert (Dist: forall y, In y sgs -> g_id (sg y) = g_id (sg x) -> y = x).
  { intros y Hy E. pose proof (dg_ids _ Hd) as ND. cbn [d d_groups] in ND. rewrite map_map in ND.
    clear - Hx Hy E ND. induction sgs as [|z zs IH]; [destruct Hx|]. cbn [map] in ND. apply NoDup_cons_iff in ND.
    destruct ND as (N1 & N2). destruct Hx as [->|Hx], Hy as [->|Hy]; auto.
    - exfalso. apply N1. rewrite <- E. apply (in_map (fun x => g_id (sg x))). exact Hy.
    - exfalso. apply N1. rewrite E. apply (in_map (fun x => g_id (sg x))). exact Hx. }
  destruct (find (fun y => g_id (sg (snd y)) =? g_id (sg x)) l) as [y|] eqn:Fd.
  - apply find_some in Fd. destruct Fd as (F1 & F2). apply N.eqb_eq in F2.
    destruct (observed_in y F1) as (O1 & O2). rewrite (Dist _ O1 F2) in O2. rewrite O2.
    rewrite (world evs (fun _ => rec0)); [| |exact F1].
    + rewrite (Dist _ O1 F2). reflexivity.
    + intros e w He. apply (proj2 (step_world recs [] e w Hr He)).
  - destruct (is_watched x) eqn:W; [|reflexivity]. exfalso.
    assert (I: In x (map snd l)).
    { unfold l, observed. rewrite number_snd. apply filter_In. auto. }
    apply in_map_iff in I. destruct I as (y & <- & Hy).
    pose proof (find_none _ _ Fd y Hy) as X. cbn beta in X. rewrite N.eqb_refl in X. discriminate.
Qed.
End Task.
