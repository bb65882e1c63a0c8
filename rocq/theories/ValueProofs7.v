(** Programs, measurements and times together. *)
From Verif Require Import Base BlockModel ConvModel CcModel StreamModel StreamSpec QueueModel QueueSpec EncProofs ObsModel ObsSpec ObsProofs
  ChannelModel ChannelSpec HistProofs MetaModel MetaSpec IdentModel IdentSpec MeasModel MeasSpec MeasStream MeasProps WriterModel WriterProofs
  ValueModel ValueSpec ValueProofs ValueProofs2 ValueProofs3 ValueProofs4 ValueProofs5 ValueProofs6.
Local Open Scope N_scope.
Local Open Scope list_scope.

Lemma calls_fit : forall d2f gs p k g, Forall (call_ok d2f gs) p -> nth_error gs k = Some g -> forall n ops, calls_before p k n = Some ops ->
  Forall (op_ok d2f (chans_of g) (chans_of (prepare_cg g))) ops.
Proof.
  intros d2f gs. induction p as [|[k' o|k' ts] p IH]; intros k g F K n ops C; cbn [calls_before] in C; [discriminate C| |].
  - inversion F as [|? ? F1 F2]; subst. destruct (calls_before p k n) as [o'|] eqn:C1; [|discriminate C]. cbn [option_map] in C.
    pose proof (IH k g F2 K n o' C1) as R. destruct (Nat.eqb_spec k' k) as [->|NE].
    + assert (ops = o :: o') as -> by congruence. constructor; [|exact R]. destruct F1 as (g' & K' & _ & O). rewrite K in K'. assert (g' = g) as -> by congruence. exact O.
    + assert (ops = o') as -> by congruence. exact R.
  - inversion F as [|? ? F1 F2]; subst. destruct (Nat.eqb_spec k' k) as [->|NE]; [destruct n as [|n]|].
    + assert (ops = []) as -> by congruence. constructor.
    + eapply IH; eauto.
    + eapply IH; eauto.
Qed.
Lemma times_fit : forall d2f gs p k n ops, Forall (call_ok d2f gs) p -> calls_before p k n = Some ops -> time_of p k n < 2 ^ 63.
Proof.
  intros d2f gs. induction p as [|[k' o|k' ts] p IH]; intros k n ops F C; cbn [calls_before time_of] in *; [discriminate C| |].
  - inversion F; subst. destruct (calls_before p k n) as [o'|] eqn:C1; [|discriminate C]. eapply IH; eauto.
  - inversion F as [|? ? F1 F2]; subst. destruct (Nat.eqb_spec k' k) as [->|NE]; [destruct n as [|n]|]; try (eapply IH; eauto; fail).
    destruct F1 as (g & _ & _ & L). exact L.
Qed.

(** The facts about a program of a prepared data group. *)
Section Prog.
Context (d2f : N -> N) (gs : list cg) (d : dg) (p : list pop) (l : list sample).
Context (EG : d_cgs d = prepared_groups gs) (DO : StreamSpec.dg_ok (dgroup_of d)) (SM : sizes_small gs).
Context (CO : Forall (call_ok d2f gs) p) (RP : program_samples d2f (d_cgs d) p = Ok l).

Lemma ids_nodup : NoDup (map g_record (prepared_groups gs)).
Proof.
  pose proof (dg_ids _ DO) as ND. cbn [dgroup_of StreamModel.d_groups] in ND. rewrite map_map, EG in ND. exact ND.
Qed.
Lemma group_small : forall k g, nth_error gs k = Some g -> is_vlsd g = false -> record_bytes (chans_of g) < 2 ^ 28.
Proof. intros k g K V. unfold sizes_small in SM. rewrite Forall_forall in SM. apply SM; [eapply nth_error_In; eauto|exact V]. Qed.

Lemma buf_sample : forall k g s, nth_error gs k = Some g -> is_vlsd g = false -> s_id s = g_record g -> buf_ok g (s_rec s) -> s_vbuf s = [] ->
  sample_ok (dgroup_of d) s.
Proof.
  intros k g s K V E [B1 B2] VB. destruct (prepared g V) as (P & ER & V' & _). split; [|rewrite VB; reflexivity].
  exists (MeasModel.group_of (prepare_cg g)). cbn [dgroup_of StreamModel.d_groups]. split.
  - apply in_map. rewrite EG. unfold prepared_groups. apply in_map. eapply nth_error_In; eauto.
  - cbn [MeasModel.group_of StreamModel.g_id StreamModel.g_vlsd]. split; [congruence|]. split; [exact V'|].
    unfold StreamModel.rec_size. cbn [MeasModel.group_of StreamModel.g_data StreamModel.g_inval]. pose proof (group_small k g K V) as SB.
    rewrite prepared_sizes by auto. apply Nat2N.inj. rewrite N2Nat.id, B2. unfold w32. symmetry. apply N.mod_small.
    change (2 ^ 28) with 268435456 in SB. change (2 ^ 32) with 4294967296. lia.
Qed.

Lemma prog_facts : Forall (fun s => exists k g, nth_error gs k = Some g /\ is_vlsd g = false /\ s_id s = g_record g /\
                       buf_ok g (s_rec s) /\ s_has s = false /\ s_vbuf s = [] /\ s_ts s < 2 ^ 63) l.
Proof.
  destruct (prog_runs d2f gs SM p CO (new_bufs (prepared_groups gs))) as (l0 & R & F).
  - intros k g K V. apply new_ok; auto.
  - unfold program_samples in RP. rewrite EG in RP. rewrite R in RP. assert (l0 = l) by congruence. subst l0. exact F.
Qed.
Lemma prog_ok : Forall (sample_ok (dgroup_of d)) l /\ Forall plain_sample l.
Proof.
  pose proof prog_facts as F. split; eapply Forall_impl; try exact F; intros s (k & g & K & V & E & B & H & VB & _).
  - eapply buf_sample; eauto.
  - exact H.
Qed.
Lemma prog_calls : samples_of d2f gs (calls_before p) l.
Proof.
  intros j g Hg V n. unfold program_samples in RP. rewrite EG in RP.
  assert (K : nth_error (prepared_groups gs) j = Some (prepare_cg g)) by (unfold prepared_groups; rewrite nth_error_map, Hg; reflexivity).
  destruct (prog_samples d2f _ p _ l ids_nodup RP j _ K n) as [A B].
  destruct (calls_before p j n) as [ops|] eqn:C; [|exact A]. destruct (B ops eq_refl) as [b R]. rewrite R in A.
  eexists. split; [exact A|]. split; [exact R|]. eapply calls_fit; eauto.
Qed.

(** The same with times. *)
Context (off : N -> bool) (T : N) (D : forall x, d2f x < 2 ^ 32) (TT : T < 2 ^ 63) (MP : Forall (master_plain off) gs).
Context (TF : forall j g n, nth_error gs j = Some g -> is_vlsd g = false -> (n < saves p j)%nat -> time_fits off T g (time_of p j n)).
Let rt := retimed d2f (d_cgs d) off.

Lemma retime_keeps : forall T s s', retime d2f (d_cgs d) off T s = Ok s' -> s_ts s' = s_ts s /\ s_id s' = s_id s /\ s_has s' = s_has s /\ s_vbuf s' = s_vbuf s.
Proof.
  intros T0 s s' R. unfold retime in R. destruct (find _ (d_cgs d)) as [g|]; [|assert (s' = s) as -> by congruence; auto].
  destruct (master_of g) as [c|]; [|assert (s' = s) as -> by congruence; auto].
  destruct (off (s_id s)); [assert (s' = s) as -> by congruence; auto|]. destruct (rel_seconds T0 (s_ts s)); [|discriminate R].
  destruct (set_timestamp _ _ _ _ _) as [r| |]; try discriminate R. cbn [bind] in R.
  assert (s' = mkS (s_ts s) (s_id s) r (s_has s) (s_vbuf s)) as -> by congruence. auto.
Qed.
Lemma rt_keeps : forall T s, s_ts (rt T s) = s_ts s /\ s_id (rt T s) = s_id s /\ s_has (rt T s) = s_has s /\ s_vbuf (rt T s) = s_vbuf s.
Proof.
  intros T0 s. unfold rt, retimed. destruct (retime d2f (d_cgs d) off T0 s) as [s'| |] eqn:R; auto. eapply retime_keeps; eauto.
Qed.

Lemma prog_timed : forall j g n ops, nth_error gs j = Some g -> is_vlsd g = false -> calls_before p j n = Some ops ->
  exists s b', nth_error (of_group (prepare_cg g) l) n = Some s /\
    retime d2f (d_cgs d) off T s = Ok (sample_of (prepare_cg g) (time_of p j n) b') /\
    run_ops d2f (chans_of (prepare_cg g)) (stamped off T (prepare_cg g) (time_of p j n) ops) (new_bufs (prepared_groups gs) j) = Ok b' /\
    Forall (op_ok d2f (chans_of g) (chans_of (prepare_cg g))) (stamped off T (prepare_cg g) (time_of p j n) ops) /\ buf_ok g b'.
Proof.
  intros j g n ops Hg V C. unfold program_samples in RP. rewrite EG in RP.
  assert (K : nth_error (prepared_groups gs) j = Some (prepare_cg g)) by (unfold prepared_groups; rewrite nth_error_map, Hg; reflexivity).
  destruct (prog_samples d2f _ p _ l ids_nodup RP j _ K n) as [A B]. rewrite C in A. destruct (B ops C) as [b R]. rewrite R in A.
  destruct (sample_timed d2f gs off T j g (time_of p j n) (new_bufs (prepared_groups gs) j) ops b) as (b' & X1 & X2 & X3 & X4); auto.
  - apply ids_nodup.
  - eapply group_small; eauto.
  - rewrite Forall_forall in MP. apply MP. eapply nth_error_In; eauto.
  - eapply times_fit; eauto.
  - apply TF; auto. apply calls_saves. congruence.
  - eapply calls_fit; eauto.
  - apply (new_ok gs j g); auto.
  - exists (sample_of (prepare_cg g) (time_of p j n) b), b'. rewrite EG. auto.
Qed.

(** Every sample has its place in a group. *)
Lemma sample_place : forall s, In s l -> exists j g n ops, nth_error gs j = Some g /\ is_vlsd g = false /\ calls_before p j n = Some ops /\
  nth_error (of_group (prepare_cg g) l) n = Some s.
Proof.
  intros s Hs. pose proof prog_facts as F. rewrite Forall_forall in F. destruct (F s Hs) as (j & g & Hg & V & E & _).
  destruct (prepared g V) as (_ & ER & _).
  assert (I : In s (of_group (prepare_cg g) l)) by (unfold of_group; apply filter_In; split; [exact Hs|apply N.eqb_eq; congruence]).
  destruct (In_nth_error _ _ I) as [n N0]. pose proof (prog_calls j g Hg V n) as X.
  destruct (calls_before p j n) as [ops|] eqn:C; [|congruence]. exists j, g, n, ops. auto.
Qed.
Lemma all_defined : Forall (fun s => exists s', retime d2f (d_cgs d) off T s = Ok s') l.
Proof.
  apply Forall_forall. intros s Hs. destruct (sample_place s Hs) as (j & g & n & ops & Hg & V & C & N0).
  destruct (prog_timed j g n ops Hg V C) as (s1 & b' & N1 & R & _). assert (s1 = s) as -> by congruence. eauto.
Qed.
Lemma timed_ok : Forall (sample_ok (dgroup_of d)) (map (rt T) l) /\ Forall plain_sample (map (rt T) l).
Proof.
  split; apply Forall_forall; intros s' I; apply in_map_iff in I; destruct I as (s & <- & Hs).
  - destruct (sample_place s Hs) as (j & g & n & ops & Hg & V & C & N0).
    destruct (prog_timed j g n ops Hg V C) as (s1 & b' & N1 & R & _ & _ & BB). assert (s1 = s) as -> by congruence.
    unfold rt, retimed. rewrite R. destruct (prepared g V) as (_ & ER & _). eapply buf_sample; eauto.
  - destruct (rt_keeps T s) as (_ & _ & H & _). unfold plain_sample. rewrite H. destruct prog_ok as [_ PO]. rewrite Forall_forall in PO. apply PO. exact Hs.
Qed.
Lemma of_group_map : forall g, of_group g (map (rt T) l) = map (rt T) (of_group g l).
Proof.
  intros g. unfold of_group. clear. induction l as [|s r IH]; [reflexivity|]. cbn [map filter]. destruct (rt_keeps T s) as (_ & E & _). rewrite E.
  destruct (s_id s =? g_record g); cbn [map]; rewrite IH; reflexivity.
Qed.
Lemma timed_samples : samples_of d2f gs (timed_calls off T gs p) (map (rt T) l).
Proof.
  intros j g Hg V n. unfold timed_calls. rewrite Hg, of_group_map. pose proof (prog_calls j g Hg V n) as X.
  destruct (calls_before p j n) as [ops|] eqn:C.
  - destruct (prog_timed j g n ops Hg V C) as (s1 & b' & N1 & R & RO & FO & BB). exists (rt T s1).
    split; [rewrite nth_error_map, N1; reflexivity|]. unfold rt, retimed. rewrite R. auto.
  - rewrite nth_error_map, X. reflexivity.
Qed.
End Prog.
