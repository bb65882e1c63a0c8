(** Specification of a CAN bus log (C86): the messages an application saves are the messages a reader of
    the file delivers. *)
From Verif Require Import Base ChannelModel StreamModel QueueModel QueueSpec BusModel BusSpec CanModel CanSpec SortModel SortSpec MetaModel MeasModel ValueModel BusLogModel.
Local Open Scope N_scope.
Local Open Scope list_scope.

(** Group [c] of the log is a group of the data group [d], created by the configuration for messages of
    type [t] and prepared for writing, with the data bytes in the record or in the group that follows. *)
Record log_ok (d : dg) (c : clog) (t : can_type) : Prop := {
  lo_kind : group_kind (lg_name c) = Some t;
  lo_group : exists g, In (prepare_cg g) (d_cgs d) /\ MeasModel.is_vlsd g = false /\ g_record g = lg_id c /\ g_name g = lg_name c /\
    map bare_cn (g_cns g) = can_cns t (lg_mand c) (lg_st c) (lg_max c);
  lo_max : (8 <= lg_max c)%nat /\ N.of_nat (lg_max c) < 2 ^ 27;
  lo_store : lg_st c <> FixedStorage;
  lo_value : read_store t (lg_st c) = SVlsd ->
    exists v, In v (d_cgs d) /\ MeasModel.is_vlsd v = true /\ g_record v = w64 (lg_id c + 1);
  lo_buf : bytes_ok (lg_buf c) /\ length (lg_buf c) = can_size t (lg_mand c) (lg_st c) (lg_max c)
}.

Definition logs_ok (d : dg) (logs : list clog) : Prop :=
  NoDup (map lg_id logs) /\ forall c, In c logs -> exists t, log_ok d c t.

(** The calls: messages as on the bus, whose data bytes fit; other samples belong to other groups. *)
Definition message_ok (c : clog) (m : can) : Prop :=
  can_ok m /\ can_id m < 2 ^ 29 /\ N.of_nat (length (can_data m)) < 2 ^ 32 /\
  (lg_st c = Mlsd -> (length (can_data m) <= lg_max c)%nat /\ (length (can_data m) < 256)%nat).
Definition bcall_ok (d : dg) (logs : list clog) (o : bcall) : Prop :=
  match o with
  | BMsg k ts m => exists c, nth_error logs k = Some c /\ message_ok c m
  | BOther s => sample_ok (dgroup_of d) s /\ ~ In (s_id s) (map lg_id logs)
  end.

(** The messages saved with group [k], with their times, in order. *)
Definition messages (k : nat) (p : list bcall) : list (N * can) :=
  flat_map (fun o => match o with BMsg j ts m => if (j =? k)%nat then [(ts, m)] else [] | BOther _ => [] end) p.

(** The message [m'] shows what was saved in [m], except for what the observer does not decode (C42). *)
Definition same_message (t : can_type) (mand : bool) (st : CanModel.storage) (max : nat) (m m' : can) : Prop :=
  (forall f c, In (f, c) (can_channels t mand st max) -> can_lost t f = false -> f <> CfDlc -> can_get m' f = can_get m f) /\
  (t <> CanOverload -> can_dlc m' = code_for (can_length m)) /\
  (forall f, (forall c, ~ In (f, c) (can_channels t mand st max)) -> f <> CfData -> can_get m' f = can_get can_new f).

(** The message the observer of group [g'] makes of a record and a value. *)
Definition decoded (c : clog) (t : can_type) (g' : cg) (m : can) (x : list N * list N) : Prop :=
  exists m', can_parse (lg_st c) (observer_channels g' t) [] (snd x) (fst x) = Ok m' /\
    same_message t (lg_mand c) (lg_st c) (lg_max c) m m'.

(** What a reader shows of the log: for each group the observer, made for the group [g'] found in the file,
    gives the callback every message once, in order and with its number, and without a callback holds every
    message; other observers may read other groups at the same time. [timed] tells what is right for the time
    of a record. *)
Definition log_shown (timed : clog -> cg -> N -> list N -> Prop) (logs : list clog) (p : list bcall)
    (fuel : nat) (d' : dg) (blocks : list (list N)) : Prop :=
  forall k c t, nth_error logs k = Some c -> group_kind (lg_name c) = Some t ->
  exists g', In g' (d_cgs d') /\ g_record g' = lg_id c /\ g_name g' = lg_name c /\
    g_samples g' = N.of_nat (length (messages k p)) /\
    let o := can_observer g' t (lg_st c) in
    forall sub, (forall id, In id (cg_ids o) -> sub id = true) ->
    exists evs, read_data (dgroup_of d') sub (fun _ => true) fuel blocks = Some (Ok evs) /\
      (forall answer, exists s, can_run (Some answer) o evs can0 = (true, s) /\
         Forall2 (fun call q => fst call = fst q /\ decoded c t g' (snd (snd q)) (snd call) /\ timed c g' (fst (snd q)) (fst (snd call)))
           (cn_calls s) (numbered_from 0 (messages k p))) /\
      (exists s, can_run None o evs can0 = (true, s) /\
         forall n, match nth_error (messages k p) n with
                   | Some q => exists x, get_can_message s (N.of_nat n) = Some x /\ decoded c t g' (snd q) x /\ timed c g' (fst q) (fst x)
                   | None => get_can_message s (N.of_nat n) = None
                   end).

(** The message groups of a configuration with their sample buffers, as PrepareForWriting leaves them. *)
Definition log_of (mand : bool) (st : CanModel.storage) (max : nat) (g : cg) : clog :=
  mkLog (g_name g) (g_record g) mand st max (fresh_buffer (g_data (prepare_cg g)) (g_inval (prepare_cg g))).
Definition config_logs (mand : bool) (st : CanModel.storage) (max : nat) (name : can_type -> list N) : list clog :=
  map (log_of mand st max) (filter (fun g => negb (MeasModel.is_vlsd g)) (can_config mand st max name)).
