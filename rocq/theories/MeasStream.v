(** Reading the data of a data group whose counters differ from those it was written with. *)
From Verif Require Import Base StreamModel StreamSpec StreamProofs StreamProofs2 IdProofs QueueModel QueueSpec EncProofs.
Local Open Scope N_scope.

(** The same record ids and sizes; other counters. *)
Definition alike_group (g g' : group) : Prop :=
  g_id g' = g_id g /\ g_vlsd g' = g_vlsd g /\ (g_vlsd g = false -> g_data g' = g_data g /\ g_inval g' = g_inval g).
Definition alike (d d' : dgroup) : Prop :=
  d_idsize d' = d_idsize d /\ Forall2 alike_group (d_groups d) (d_groups d').

Lemma alike_in : forall l l' g', Forall2 alike_group l l' -> In g' l' -> exists g, In g l /\ alike_group g g'.
Proof.
  induction 1 as [|a b l l' A F IH]; intros I; [destruct I|]. destruct I as [<-|I]; [exists a; split; [left; auto|auto]|].
  destruct (IH I) as (g & G & X). exists g. split; [right; auto|auto].
Qed.

Lemma alike_in2 : forall l l' g, Forall2 alike_group l l' -> In g l -> exists g', In g' l' /\ alike_group g g'.
Proof.
  induction 1 as [|a b l l' A F IH]; intros I; [destruct I|]. destruct I as [<-|I]; [exists b; split; [left; auto|auto]|].
  destruct (IH I) as (g' & G & X). exists g'. split; [right; auto|auto].
Qed.

Lemma alike_ids : forall l l', Forall2 alike_group l l' -> map g_id l' = map g_id l.
Proof. induction 1 as [|a b l l' (A & _) F IH]; [reflexivity|]. cbn [map]. rewrite A, IH. reflexivity. Qed.

Lemma alike_size : forall g g', alike_group g g' -> g_vlsd g = false -> rec_size g' = rec_size g.
Proof. intros g g' (_ & _ & H) V. destruct (H V) as [A B]. unfold rec_size. rewrite A, B. reflexivity. Qed.

Lemma alike_ok : forall d d', dg_ok d -> alike d d' -> dg_ok d'.
Proof.
  intros d d' H [ES F]. constructor.
  - intros E. rewrite E in F. inversion F as [X|]. apply (dg_some _ H). auto.
  - rewrite (alike_ids _ _ F). apply dg_ids. auto.
  - rewrite ES. apply (dg_size _ H).
  - intros g' G Z. destruct (alike_in _ _ _ F G) as (g & Hg & (A & _)). rewrite A, ES. apply (dg_fit _ H); auto. congruence.
  - intros Z. rewrite <- (map_length g_id), (alike_ids _ _ F), map_length. apply (dg_single _ H). congruence.
  - intros g' G Z V. destruct (alike_in _ _ _ F G) as (g & Hg & AL). destruct AL as (A1 & A2 & A3).
    rewrite (alike_size g g') by (try (split; [|split]; assumption); congruence).
    apply (dg_bytes _ H); congruence.
Qed.

Lemma alike_stream : forall d d' recs, alike d d' -> stream d' recs = stream d recs.
Proof.
  intros d d' recs [ES F]. unfold stream. f_equal. apply map_ext. intros r. unfold enc_rec. rewrite ES. f_equal. f_equal.
  assert (E : vlsd_id d' (r_id r) = vlsd_id d (r_id r)).
  { unfold vlsd_id. induction F as [|a b l l' (A & B & _) F IH]; [reflexivity|]. cbn [existsb]. rewrite A, B, IH. reflexivity. }
  rewrite E. reflexivity.
Qed.

Lemma alike_rec : forall d d' r, alike d d' -> rec_ok d r -> rec_ok d' r.
Proof.
  intros d d' r [ES F] (g & Hg & E & R). destruct (alike_in2 _ _ _ F Hg) as (g' & G & AL).
  exists g'. split; [exact G|]. destruct AL as (A1 & A2 & A3). split; [congruence|]. rewrite A2.
  destruct (g_vlsd g) eqn:V; [exact R|]. rewrite (alike_size g g'); auto. split; [exact A1|]. split; [congruence|auto].
Qed.

(** All records are delivered if the counters are not too small. *)
Lemma read_alike : forall d d' recs fuel, dg_ok d -> alike d d' -> Forall (rec_ok d) recs ->
  (forall g', In g' (d_groups d') -> occ (g_id g') recs <= g_nof g') -> (length (stream d recs) < fuel)%nat ->
  exists evs, read_data d' (fun _ => true) (fun _ => true) fuel [stream d recs] = Some (Ok evs) /\
    map ev_rec evs = recs /\
    forall i ev, nth_error evs i = Some ev -> e_sample ev = occ (e_id ev) (firstn i recs).
Proof.
  intros d d' recs fuel H AL R C L. pose proof (alike_ok d d' H AL) as H'.
  assert (R' : Forall (rec_ok d') recs).
  { eapply Forall_impl; [|exact R]. intros r. apply alike_rec. exact AL. }
  exists (expected d' (fun _ => true) [] recs). split.
  - destruct recs as [|r t].
    + cbn [stream map concat] in *. destruct fuel as [|fuel]; [cbn in L; lia|]. unfold read_data.
      cbn [concat app length read_loop]. unfold parse_record. destruct (d_groups d') as [|g l]; reflexivity.
    + rewrite (read_complete d' _ _ (r :: t)); auto.
      * rewrite upto_all; [reflexivity|]. induction (expected _ _ _ _); cbn; auto.
      * constructor; [|constructor]. intros E. inversion R as [|? ? R1 R2]; subst. pose proof (enc_rec_pos d r H R1) as P.
        change (stream d (r :: t)) with (enc_rec d r ++ stream d t) in E. destruct (enc_rec d r); [cbn in P; lia|discriminate].
      * cbn [concat]. rewrite app_nil_r. symmetry. apply alike_stream. exact AL.
      * rewrite (alike_stream d d' _ AL). exact L.
  - apply (expected_all recs d' (fun _ => true) [] H'); auto.
Qed.

(** There are not more records than bytes. *)
Lemma occ_bytes : forall d recs id, dg_ok d -> Forall (rec_ok d) recs -> occ id recs <= N.of_nat (length (stream d recs)).
Proof.
  intros d recs id H F. unfold occ. assert (L : (length recs <= length (stream d recs))%nat).
  { induction F as [|r t R F IH]; [cbn; lia|]. change (stream d (r :: t)) with (enc_rec d r ++ stream d t).
    rewrite app_length. pose proof (enc_rec_pos d r H R). cbn [length]. lia. }
  assert (B : (length (filter (fun r => (r_id r =? id)%N) recs) <= length recs)%nat).
  { clear. induction recs as [|r t IH]; [cbn; lia|]. cbn [filter]. destruct (r_id r =? id); cbn [length]; lia. }
  lia.
Qed.

Lemma emitted_parts : forall d h l out e, dg_ok d -> emitted d h l out e ->
  out = stream d (records_of d h l) /\ Forall (rec_ok d) (records_of d h l) /\
  (forall id, e_cnt e id = occ id (records_of d h l)) /\ (forall id, e_tot e id < 2 ^ 64).
Proof.
  intros d h l out e H (E1 & E2 & E3). split; [rewrite E1; apply written_stream; auto|]. split; [exact E2|].
  split; [apply (eo_cnt _ _ _ _ E3)|]. intros id. rewrite (eo_tot _ _ _ _ E3). unfold w64. apply N.mod_lt. discriminate.
Qed.
