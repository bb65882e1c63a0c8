(** The samples of a CAN bus log and their times. *)
From Verif Require Import Base BlockModel ConvModel CcModel StreamModel StreamSpec ChannelModel ChannelSpec QueueModel QueueSpec EncProofs BusModel BusSpec CanModel CanSpec SortModel SortSpec SortProofs2 SortProps
  IdentModel IdentSpec MetaModel MetaSpec MeasModel MeasSpec MeasProofs4 MeasProofs5 MeasStream MeasProps ValueModel ValueSpec ValueProofs ValueProofs2 ValueProofs7 BusLogModel BusLogSpec BusLogProofs BusLogProofs2 BusLogProofs3 BusLogProofs4.
Local Open Scope N_scope.
Local Open Scope list_scope.

(** Every call has its sample. *)
Lemma log_runs : forall d logs p, logs_ok d logs -> Forall (bcall_ok d logs) p ->
  exists l, log_samples logs p = Ok l /\ Forall2 (made_call d logs (fun c _ => firstn 8 (lg_buf c))) p l.
Proof.
  intros d logs p LK F. induction F as [|o p O F IH]; [exists []; split; [reflexivity|constructor]|]. destruct IH as (l & E & A). cbn [log_samples].
  destruct o as [k ts m|s].
  - destruct O as (c & K & MO). destruct (proj2 LK c (nth_error_In _ _ K)) as [t LO].
    destruct (save_made d c t LO ts m MO) as (s & S1 & S2). rewrite K, S1. cbn [bind]. rewrite E. cbn [bind].
    exists (s :: l). split; [reflexivity|]. constructor; [|exact A]. exists c, t. auto.
  - rewrite E. cbn [bind]. exists (s :: l). split; [reflexivity|]. constructor; [|exact A]. destruct O as [O1 O2]. split; assumption.
Qed.

Lemma log_times : forall d logs tb p l, Forall2 (made_call d logs tb) p l -> forall s, In s l ->
  exists o, In o p /\ match o with BMsg _ ts _ => s_ts s = ts | BOther _ => True end.
Proof.
  intros d logs tb p l F. induction F as [|o s p l M F IH]; intros s' I; [destruct I|]. destruct I as [<-|I].
  - exists o. split; [left; reflexivity|]. destruct o as [k ts m|x]; [|exact Logic.I]. destruct M as (c & t & _ & _ & _ & (r & _ & ->)). reflexivity.
  - destruct (IH s' I) as (o' & O1 & O2). exists o'. split; [right; exact O1|exact O2].
Qed.

Lemma buf_first : forall d logs c (ts : N), logs_ok d logs -> In c logs -> length (firstn 8 (lg_buf c)) = 8%nat /\ bytes_ok (firstn 8 (lg_buf c)).
Proof.
  intros d logs c ts LK I. destruct (proj2 LK c I) as [t LO]. pose proof (buf_8 d c t LO) as B8. split; [rewrite firstn_length; lia|].
  destruct (lo_buf _ _ _ LO) as [B1 _]. unfold bytes_ok in *. rewrite Forall_forall in *. intros y Y. apply B1.
  rewrite <- (firstn_skipn 8 (lg_buf c)). apply in_or_app. left. exact Y.
Qed.
Lemma time_first_bytes : forall T ts, length (time_bytes T ts) = 8%nat /\ bytes_ok (time_bytes T ts).
Proof. intros. unfold time_bytes. split; [apply le_bytes_length|apply le_bytes_ok]. Qed.

(** RecalculateTime writes the times of the messages and leaves the rest. *)
Lemma log_retimed : forall d2f off T d logs p l, StreamSpec.dg_ok (dgroup_of d) -> logs_ok d logs -> T < 2 ^ 63 ->
  (forall c, In c logs -> off (lg_id c) = false) -> (forall s, In s l -> s_ts s < 2 ^ 63) ->
  (forall s, In (BOther s) p -> exists s', retime d2f (d_cgs d) off T s = Ok s' /\ length (s_rec s') = length (s_rec s)) ->
  log_samples logs p = Ok l -> Forall2 (made_call d logs (fun c _ => firstn 8 (lg_buf c))) p l ->
  (forall s, In s l -> exists s', retime d2f (d_cgs d) off T s = Ok s') /\
  Forall2 (made_call d logs (fun _ ts => time_bytes T ts)) p (map (retimed d2f (d_cgs d) off T) l).
Proof.
  intros d2f off T d logs p l DO LK HT OF TS OT E F. revert E. induction F as [|o s p l M F IH]; intros E; [split; [intros s []|constructor]|].
  assert (X : exists s', retime d2f (d_cgs d) off T s = Ok s' /\ made_call d logs (fun _ ts => time_bytes T ts) o s').
  { destruct o as [k ts m|x]; cbn [made_call] in M.
    - destruct M as (c & t & K & LO & MO & MA). pose proof (nth_error_In _ _ K) as Ic. destruct (buf_first d logs c ts LK Ic) as [B1 B2].
      destruct (made_sample d c t LO _ _ _ _ B1 B2 MO MA) as (_ & ET & EI & _ & _ & _ & DE).
      assert (L8 : (8 <= length (s_rec s))%nat).
      { destruct (DE 0) as (_ & L & _).
        - destruct MO as (_ & _ & L & _). change (2 ^ 32) with 4294967296 in L. change (2 ^ 63) with 9223372036854775808. lia.
        - pose proof (size_8 t (lg_mand c) (lg_st c) (lg_max c) (proj1 (lo_max _ _ _ LO))) as S8. rewrite <- L in S8.
          destruct (in_own c t); [|exact S8]. rewrite patch_length in S8. exact S8. }
      eexists. split; [apply (retime_made d2f off T d c t s); auto; apply TS; left; reflexivity|].
      exists c, t. split; [exact K|]. split; [exact LO|]. split; [exact MO|]. rewrite ET.
      pose proof (save_stamped c t (firstn 8 (lg_buf c)) (time_bytes T ts) ts m s B1 (proj1 (time_first_bytes T ts)) MA) as Y. rewrite ET in Y. exact Y.
    - assert (x = s). { cbn [log_samples] in E. destruct (log_samples logs p); try discriminate E. cbn [bind] in E. congruence. }
      subst x. destruct (OT s (or_introl eq_refl)) as (s' & R & L). exists s'. split; [exact R|].
      destruct (retime_keeps d2f d off T s s' R) as (K1 & K2 & K3 & K4). destruct M as [M1 M2]. split; [rewrite K2; exact M1|].
      destruct M2 as [(g & G1 & G2 & G3 & G4) M3]. split; [exists g; rewrite K2, L; auto|rewrite K4; exact M3]. }
  destruct X as (s' & R & M').
  assert (E' : log_samples logs p = Ok l).
  { cbn [log_samples] in E. destruct o as [k ts m|x].
    - destruct (nth_error logs k); [|discriminate E]. destruct (save_can c ts m); try discriminate E. cbn [bind] in E.
      destruct (log_samples logs p); try discriminate E. cbn [bind] in E. congruence.
    - destruct (log_samples logs p); try discriminate E. cbn [bind] in E. congruence. }
  destruct IH as [I1 I2]; auto.
  - intros y Y. apply TS. right. exact Y.
  - intros y Y. apply OT. right. exact Y.
  - split.
    + intros y [<-|Y]; [exists s'; exact R|apply I1; exact Y].
    + cbn [map]. constructor; [|exact I2]. unfold retimed. rewrite R. exact M'.
Qed.

(** The samples of a log in a file. *)
Lemma log_file : forall (timed : clog -> cg -> N -> list N -> Prop) i h ops k d logs tb p l e, id_texts i -> id_numbers i -> hd_ok h -> calls_ok h ops -> in_turn ops ->
  nth_error (h_dgs h) k = Some d -> StreamSpec.dg_ok (dgroup_of d) -> In k (sources ops) -> logs_ok d logs ->
  (forall c ts, In c logs -> length (tb c ts) = 8%nat /\ bytes_ok (tb c ts)) -> Forall2 (made_call d logs tb) p l ->
  (forall c t g ts rec, In c logs -> log_ok d c t -> In (prepare_cg g) (d_cgs d) -> MeasModel.is_vlsd g = false ->
     map bare_cn (g_cns g) = can_cns t (lg_mand c) (lg_st c) (lg_max c) -> bytes_ok rec -> length rec = can_size t (lg_mand c) (lg_st c) (lg_max c) ->
     firstn 8 rec = tb c ts -> timed c (in_file (Some e) g) ts rec) ->
  EncProofs.emitted (dgroup_of d) none l (MeasSpec.saved k ops) e -> counters k ops = Some e ->
  exists m, bind (init_meas i h) (mrun ops) = Ok m /\
  forall x, N.of_nat (length (m_file m ++ x)) < 2 ^ 63 ->
  exists enough, forall fuel, (enough <= fuel)%nat ->
  exists h' d' blocks, read_file fuel (m_file m ++ x) = Ok (id_trimmed i, h') /\
    nth_error (h_dgs h') k = Some d' /\
    (forall inflate, group_data inflate (m_file m ++ x) d' = Some (Ok blocks)) /\
    log_shown timed logs p fuel d' blocks.
Proof.
  intros timed i h ops k d logs tb p l e IT IN OK CO TU Ed DO K LK TB ML TI EM EC.
  pose proof (made_ok d logs tb p l TB ML) as SO.
  destruct (file_events i h ops k d l e IT IN OK CO TU Ed DO K SO EM EC) as (m & E & R). exists m. split; [exact E|]. intros x LX.
  destruct (R x LX) as [n RF]. exists n. intros fuel LF. destruct (RF fuel LF) as (h' & q & blocks & R1 & R2 & R3 & R4 & R5 & R6 & R7).
  exists h'. eexists. exists blocks. split; [exact R1|]. split; [exact R2|]. split; [exact R3|].
  eapply log_events; eauto. unfold dg_after. rewrite EC. eauto.
Qed.
