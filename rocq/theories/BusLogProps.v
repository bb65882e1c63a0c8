(** C86: the CAN messages an application saves are the messages a reader of the file delivers. *)
From Coq Require Import String.
From Verif Require Import Base BlockModel BlockSpec ConvModel CcModel StreamModel StreamSpec ChannelModel ChannelSpec QueueModel QueueSpec EncProofs BusModel BusSpec CanModel CanSpec SortModel SortSpec
  WriterModel WriterProofs IdentModel IdentSpec MetaModel MetaSpec MeasModel MeasSpec MeasStream MeasProps MetaProps ValueModel ValueSpec ValueProofs ValueProofs2 ValueProofs6 ValueProofs7 ValueProofs8 ValueProps ValueProofs3
  BusLogModel BusLogSpec BusLogProofs BusLogProofs2 BusLogProofs3 BusLogProofs4 BusLogProofs5 BusLogProofs6.
Local Open Scope N_scope.
Local Open Scope list_scope.

(** The groups of the configuration, with the data bytes in the record or in groups of their own and room
    for at least 8 data bytes, are groups of a log as the theorems below want them. *)
Theorem C86_config_partial : forall mand st max name d, (8 <= max)%nat -> N.of_nat max < 2 ^ 27 -> st <> FixedStorage ->
  (forall t, group_kind (name t) = Some t) -> d_cgs d = map prepare_cg (can_config mand st max name) -> MetaModel.d_idsize d = 1 ->
  logs_ok d (config_logs mand st max name) /\ StreamSpec.dg_ok (dgroup_of d).
Proof. intros. split; [apply config_ok; auto|eapply config_group; eauto]. Qed.
Print Assumptions C86_config_partial.

(** The names MakeGroupName gives the groups of a CAN bus, for every filter, channel number and message
    number, are names whose message type SaveCanMessage and the observer recognize. *)
Theorem C86_names : forall bus f channel id t, contains (lit "CAN") bus = true -> Forall (fun b => 48 <= b < 58) id ->
  group_kind (make_group_name bus f channel id (frame_name t)) = Some t.
Proof. exact names_right. Qed.
Print Assumptions C86_names.

(** Every call of a program of SaveCanMessage calls and other saves gives its sample: nothing fails and
    nothing is undefined. *)
Theorem C86_program : forall d logs p, logs_ok d logs -> Forall (bcall_ok d logs) p ->
  exists l, log_samples logs p = Ok l /\ length l = length p /\ Forall (sample_ok (dgroup_of d)) l.
Proof.
  intros d logs p LK F. destruct (log_runs d logs p LK F) as (l & E & A). exists l. split; [exact E|]. split.
  - symmetry. eapply forall2_length; eauto.
  - eapply made_ok; [|exact A]. intros c ts I. eapply buf_first; eauto.
Qed.
Print Assumptions C86_program.

(** The messages of any program, to any groups of the log and between samples of other groups, in the
    finished file with anything after it: the observer of each group, which finds the type of its messages
    and its channels by their names, delivers every message once, in order, with its number and its
    fields, to a callback and without one. The time bytes of a record are those of the sample buffer.
    Missing: storage of the data bytes in SD blocks. *)
Theorem C86_file_partial : forall i h ops k d logs p l e, id_texts i -> id_numbers i -> hd_ok h -> calls_ok h ops -> in_turn ops ->
  nth_error (h_dgs h) k = Some d -> StreamSpec.dg_ok (dgroup_of d) -> In k (sources ops) ->
  logs_ok d logs -> Forall (bcall_ok d logs) p -> log_samples logs p = Ok l ->
  EncProofs.emitted (dgroup_of d) (fun _ => false) l (MeasSpec.saved k ops) e -> counters k ops = Some e ->
  exists m, bind (init_meas i h) (mrun ops) = Ok m /\
  forall x, N.of_nat (length (m_file m ++ x)) < 2 ^ 63 ->
  exists enough, forall fuel, (enough <= fuel)%nat ->
  exists h' d' blocks, read_file fuel (m_file m ++ x) = Ok (id_trimmed i, h') /\
    nth_error (h_dgs h') k = Some d' /\
    (forall inflate, group_data inflate (m_file m ++ x) d' = Some (Ok blocks)) /\
    log_shown (fun c _ _ rec => firstn 8 rec = firstn 8 (lg_buf c)) logs p fuel d' blocks.
Proof.
  intros i h ops k d logs p l e IT IN OK CO TU Ed DO K LK F E EM EC.
  destruct (log_runs d logs p LK F) as (l' & E' & A). assert (l' = l) as -> by congruence.
  eapply log_file; eauto. intros c ts I. eapply buf_first; eauto.
Qed.
Print Assumptions C86_file_partial.

(** A whole measurement: messages and other samples saved while the worker takes its turns in any order,
    StartMeasurement(T), more of both, StopMeasurement. The reader delivers all of them, and the time of
    each message is the time it was saved with, in seconds since the start. Missing: SD blocks, and
    messages older than the pre-trigger window or later than the stop, see C25. *)
Theorem C86_measurement_partial : forall h2d f2d d2f i h k d logs p off st per pre trim ops1 T ops2, id_texts i -> id_numbers i -> hd_ok h ->
  nth_error (h_dgs h) k = Some d -> StreamSpec.dg_ok (dgroup_of d) -> logs_ok d logs -> Forall (bcall_ok d logs) p ->
  (forall c, In c logs -> off (lg_id c) = false) ->
  Forall WriterProofs.plain ops1 -> Forall WriterProofs.plain ops2 ->
  let all := WriterProofs.wsaves ops1 ++ WriterProofs.wsaves ops2 in
  log_samples logs p = Ok all ->
  (forall s, In (BOther s) p -> exists s', retime d2f (d_cgs d) off T s = Ok s' /\ length (s_rec s') = length (s_rec s)) ->
  (forall s, In s all -> s_ts s < 2 ^ 63) ->
  sorted_ts all -> (forall s, In s all -> T <= s_ts s + pre) -> (forall s, In s (WriterProofs.wsaves ops1) -> s_ts s <= T) ->
  0 < T -> T < 2 ^ 63 -> pre <= T ->
  (forall s, In s all -> exists s', retime d2f (d_cgs d) off T s = Ok s') /\
  exists n0, forall n, (n0 <= n)%nat ->
  let w := trun (dgroup_of d) (fun _ => false) st per (retimed d2f (d_cgs d) off) (WriterProofs.measurement ops1 T ops2 n) (winit pre trim) in
  forall ops, calls_ok h ops -> in_turn ops -> In k (sources ops) ->
  MeasSpec.saved k ops = u_out (w_u w) -> counters k ops = Some (u_enc (w_u w)) ->
  exists m, bind (init_meas i h) (mrun ops) = Ok m /\
  forall x, N.of_nat (length (m_file m ++ x)) < 2 ^ 63 ->
  exists enough, forall fuel, (enough <= fuel)%nat ->
  exists h' d' blocks, read_file fuel (m_file m ++ x) = Ok (id_trimmed i, h') /\
    nth_error (h_dgs h') k = Some d' /\
    (forall inflate, group_data inflate (m_file m ++ x) d' = Some (Ok blocks)) /\
    log_shown (fun _ g' ts rec => message_time h2d f2d g' rec = bits_of_dbl (seconds T ts)) logs p fuel d' blocks.
Proof.
  intros h2d f2d d2f i h k d logs p off st per pre trim ops1 T ops2 IT IN OK Ed DO LK F OF P1 P2 all E OT TS S B BT TP HT HP.
  destruct (log_runs d logs p LK F) as (l' & E' & A). assert (l' = all) as -> by congruence. clear E'.
  destruct (log_retimed d2f off T d logs p all DO LK HT OF TS OT E A) as [RD A2]. split; [exact RD|].
  set (rt := retimed d2f (d_cgs d) off) in *.
  assert (RK : forall T s, s_ts (rt T s) = s_ts s) by (intros T0 s; apply (rt_keeps d2f d off T0 s)).
  assert (SV : WriterProofs.wsaves (map (rt_op rt T) ops1) ++ WriterProofs.wsaves (map (rt_op rt T) ops2) = map (rt T) all)
    by (rewrite !rt_saves, <- map_app; reflexivity).
  assert (TB : forall c ts, In c logs -> length (time_bytes T ts) = 8%nat /\ bytes_ok (time_bytes T ts)) by (intros; apply time_first_bytes).
  pose proof (made_ok d logs (fun _ ts => time_bytes T ts) p _ TB A2) as TO.
  assert (TSM : forall s, In s (map (rt T) all) -> s_ts s < 2 ^ 64 /\ T <= s_ts s + pre).
  { intros s I. apply in_map_iff in I. destruct I as (s0 & <- & I). rewrite RK. split; [|apply B; exact I].
    pose proof (TS s0 I) as L. change (2 ^ 63) with 9223372036854775808 in L. change (2 ^ 64) with 18446744073709551616. lia. }
  destruct (QueueProps.C25_stored_partial (dgroup_of d) (fun _ => false) st per pre trim (map (rt_op rt T) ops1) T (map (rt_op rt T) ops2) DO) as (n0 & N0);
    try (apply rt_plain; assumption); rewrite ?SV; auto.
  - apply sorted_map; auto.
  - intros s I. apply (TSM s I).
  - intros s I. rewrite rt_saves in I. apply in_map_iff in I. destruct I as (s0 & <- & I). rewrite RK. apply BT. exact I.
  - change (2 ^ 63) with 9223372036854775808 in HT. change (2 ^ 64) with 18446744073709551616. lia.
  - exists n0. intros n L w ops CO TU K ES EC.
    destruct (N0 n L) as (_ & _ & SH & G & EM). rewrite SV in SH. clear N0.
    destruct (timed_same rt T (RK T) (dgroup_of d) (fun _ => false) st per pre trim ops1 ops2 n P1 P2) as [(_ & _ & E3 & E4 & E5) _].
    fold w in E3, E4, E5.
    set (z := wrun (dgroup_of d) (fun _ => false) st per (WriterProofs.measurement (map (rt_op rt T) ops1) T (map (rt_op rt T) ops2) n) (winit pre trim)) in *.
    assert (GN : u_gone (w_u z) = []).
    { destruct (u_gone (w_u z)) as [|x r] eqn:EG; auto. exfalso.
      assert (X : s_ts x + pre < T) by (apply G; left; auto).
      assert (Hx : In x (map (rt T) all)).
      { clear - SH. remember (x :: r) as b eqn:Eb.
        assert (KK : forall a b c : list sample, QueueSpec.shuffle a b c -> forall y, In y b -> In y c).
        { intros a b0 c Hs. induction Hs; intros y Hy; [destruct Hy|right; auto|].
          destruct Hy as [->|Hy]; [left; auto|right; auto]. }
        apply (KK _ _ _ SH). rewrite Eb. left; auto. }
      destruct (TSM x Hx). lia. }
    rewrite GN in SH. assert (SH' : u_log (w_u z) = map (rt T) all).
    { clear - SH. remember [] as y eqn:Ez. revert SH. generalize (map (rt T) all). intros c SH.
      induction SH; auto; [f_equal; auto|discriminate]. }
    rewrite SH', <- E3, <- E4, <- ES in EM.
    eapply (log_file _ i h ops k d logs (fun _ ts => time_bytes T ts)); eauto.
    intros c t g ts rec _ LO _ V EC' Br Lr Fr. destruct (lo_max _ _ _ LO) as [M1 M2].
    eapply message_shown; eauto.
Qed.
Print Assumptions C86_measurement_partial.

(* ------------------------------------------------------------------ *)
(** ** What does not hold *)

(** With data bytes in the record and MaxLength below 8, CreateConfig raises the length of the groups to 8
    but makes the channels with the length of the writer (canconfigadapter.cpp:25-27, 129, 228, 293): the
    records of the messages are longer than the group tells, and a reader loses its place after the first
    one. *)
Theorem C86_short_max_refuted : exists max name m s g, (max < 8)%nat /\ can_ok m /\ (length (can_data m) <= max)%nat /\
  g = prepare_cg (can_cg CanData false Mlsd max name 1) /\ group_kind name = Some CanData /\
  save_can (mkLog name 1 false Mlsd 8 (fresh_buffer (g_data g) (g_inval g))) 5 m = Ok s /\
  N.of_nat (length (s_rec s)) <> g_data g + g_inval g /\
  let d := StreamModel.mkDg 1 [MeasModel.group_of (MetaModel.mkCg 1 2 6 46 (g_data g) (g_inval g) name None None [])] in
  let records := [Rec 1 (s_rec s); Rec 1 (s_rec s)] in
  exists r, read_data d (fun _ => true) (fun _ => true) 100 [flat_map (enc_rec d) records] = Some r /\
    r <> Ok [Ev 0 1 (s_rec s); Ev 1 1 (s_rec s)].
Proof.
  exists 4%nat, (make_group_name (lit "CAN") NoFilter 0 [] (frame_name CanData)), can_new. eexists. eexists.
  split; [lia|]. split; [vm_compute; repeat constructor|]. split; [cbn; lia|]. split; [reflexivity|]. split; [reflexivity|].
  split; [vm_compute; reflexivity|]. split; [vm_compute; discriminate|]. cbv zeta. eexists. split; [vm_compute; reflexivity|vm_compute; discriminate].
Qed.
Print Assumptions C86_short_max_refuted.

(** The number of the bus channel, a uint8_t, is put into the name of the group as a character: the groups
    of channel 1 are named CAN, the control character 1, _DataFrame and not CAN1_DataFrame
    (iconfigadapter.cpp:343, 349). *)
Theorem C86_channel_name_refuted : exists channel, channel < 10 /\
  make_group_name (lit "CAN") ByChannel channel [] (frame_name CanData) <> lit "CAN" ++ [48 + channel] ++ lit "_DataFrame".
Proof. exists 1. split; [reflexivity|vm_compute; discriminate]. Qed.
Print Assumptions C86_channel_name_refuted.

(* ------------------------------------------------------------------ *)
(** ** A case *)

(* Simple descriptions can be checked by computation. *)
Definition text_fine (s : list N) : bool :=
  forallb (fun b => negb (b =? 0)) s && match s with [] => true | _ => negb (is_space (List.hd 0 s)) && negb (is_space (last s 0)) end.
Definition cnh_fine (h : cnh) : bool :=
  (n_type h <? 256) && (n_sync h <? 256) && (n_dtype h <? 256) && (n_bitoff h <? 256) && (n_byteoff h <? 2 ^ 32) && (n_bits h <? 2 ^ 32) && (n_flags h <? 2 ^ 32) && (n_invalid h <? 2 ^ 32) && text_fine (n_name h).
Definition bare (h : cnh) : Prop :=
  h = mkCnh (n_type h) (n_sync h) (n_dtype h) (n_bitoff h) (n_byteoff h) (n_bits h) (n_flags h) (n_invalid h) 0 0 0 0 0 0 0 (n_name h) None None None [] (0, 0, 0) None.
Lemma text_right : forall s, text_fine s = true -> plain_text s.
Proof.
  intros s T. unfold text_fine in T. apply andb_prop in T. destruct T as [T1 T2]. split.
  - intros I. rewrite forallb_forall in T1. specialize (T1 0 I). discriminate T1.
  - intros NE. destruct s as [|a s]; [congruence|]. apply andb_prop in T2. destruct T2 as [A B].
    split; [destruct (is_space _); [discriminate A|reflexivity]|destruct (is_space (last _ _)); [discriminate B|reflexivity]].
Qed.
Lemma cnh_right : forall h, cnh_fine h = true -> bare h -> cnh_ok h.
Proof.
  intros h T B. unfold cnh_fine in T. repeat (apply andb_prop in T; destruct T as [T ?]).
  assert (X : text_ok (n_name h)) by (apply text_right; assumption). unfold bare in B. rewrite B in *. clear B.
  unfold cnh_ok, u8, u16, u32, u64, u64_3, comment_ok, source_ok in *.
  cbn [n_type n_sync n_dtype n_bitoff n_byteoff n_bits n_flags n_invalid n_precision n_rmin n_rmax n_lmin n_lmax n_emin n_emax n_name n_unit n_md n_si n_attach n_defx n_conv] in *.
  change (2 ^ 8) with 256. repeat match goal with H : (_ <? _) = true |- _ => apply N.ltb_lt in H end.
  repeat match goal with |- _ /\ _ => split end; try assumption; try reflexivity; try exact Logic.I; try constructor.
Qed.
Fixpoint cn_fine (c : cn) : bool :=
  match c with mkCn h cx => cnh_fine h && forallb (fun x => match x with CArr _ => false | CSub c => cn_fine c end) cx end.
Fixpoint cn_bare (c : cn) : Prop :=
  match c with mkCn h cx => bare h /\ fold_right (fun x P => match x with CArr _ => False | CSub c => cn_bare c end /\ P) True cx end.
Definition members (cx : list comp) : list cn := flat_map (fun x => match x with CArr _ => [] | CSub c => [c] end) cx.
Lemma cn_right : forall c, cn_fine c = true -> cn_bare c -> cn_ok c.
Proof.
  fix IH 1. intros [h cx] T B. cbn [cn_fine cn_bare] in T, B. apply andb_prop in T. destruct T as [T1 T2]. destruct B as [B1 B2].
  assert (X : cx = map CSub (members cx) /\ Forall cn_ok (members cx)).
  { clear T1 B1. revert T2 B2. induction cx as [|x cx IHc]; intros T2 B2; [split; [reflexivity|constructor]|].
    cbn [forallb fold_right] in T2, B2. apply andb_prop in T2. destruct T2 as [T2 T3]. destruct B2 as [B2 B3]. destruct (IHc T3 B3) as [E F].
    destruct x as [a|c]; [destruct B2|]. split; [cbn [members flat_map app map]; f_equal; exact E|]. cbn [members flat_map app]. constructor; [apply IH; assumption|exact F]. }
  destruct X as [EX F]. rewrite EX. apply cn_members; [apply cnh_right; assumption|exact F].
Qed.

(** The configuration with the data bytes in groups of their own; a message with 9 data bytes, a remote
    frame and an empty message, the first two saved before the start. *)
Definition nameb (t : can_type) : list N := make_group_name (lit "CANFD") ByChannel 1 [] (frame_name t).
Definition dgb : dg := mkDg 1 None 0 (map prepare_cg (can_config true VlsdGroup 8 nameb)).
Definition measb : MetaModel.hd := set_dgs meas1 [dgb].
Definition logsb : list clog := config_logs true VlsdGroup 8 nameb.
Definition pb : list bcall :=
  [BMsg 0 5000000000 (CanModel.mkCan 0 1 291 9 0 [1; 2; 3; 4; 5; 6; 7; 8; 9] 0 0 0 0); BMsg 1 6000000000 (CanModel.mkCan 0 1 7 2 0 [] 0 0 0 0); BMsg 0 7500000000 (CanModel.mkCan 0 2 292 0 0 [] 0 0 0 0)].
Definition samplesb : list sample := match log_samples logsb pb with Ok l => l | _ => [] end.
Definition nth_b (k : nat) : sample := nth k samplesb (mkS 0 0 [] false []).
Definition opsb1 : list wop := [OSave (nth_b 0); OTick; OSave (nth_b 1); OTick].
Definition opsb2 : list wop := [OTick; OSave (nth_b 2); OTick].
Definition wb (n : nat) : wst :=
  trun (dgroup_of dgb) (fun _ => false) sample_size true (retimed d2f0 (d_cgs dgb) (fun _ => false)) (WriterProofs.measurement opsb1 startw opsb2 n) (winit 2000000000 true).
Definition callsb (n : nat) : list mop := [MStart (mkStamp4 startw 0 0 2); MSave 0 (u_out (w_u (wb n))) (u_enc (w_u (wb n))); MFinal].

Lemma measb_ok : hd_ok measb.
Proof.
  destruct meas1_ok as (A1 & A2 & A3 & A4 & A5 & A6 & A7). unfold hd_ok.
  repeat (split; [assumption|]). constructor; [|constructor]. unfold dg_ok. split; [reflexivity|]. split; [reflexivity|]. split; [exact Logic.I|].
  assert (E : d_cgs dgb = d_cgs dgb) by reflexivity. unfold dgb at 2 in E.
  match type of E with _ = ?t => let v := eval vm_compute in t in assert (E2 : t = v) by (vm_compute; reflexivity); rewrite E2 in E; clear E2 end.
  rewrite E. clear E.
  repeat match goal with |- Forall cg_ok _ => constructor end; unfold cg_ok; cbn [g_record g_samples g_flags g_separator g_data g_inval g_name g_si g_md g_cns];
    repeat match goal with |- _ /\ _ => split end; try reflexivity; try exact Logic.I; try (apply text_right; reflexivity);
    repeat match goal with |- Forall cn_ok _ => constructor end; (apply cn_right; [vm_compute; reflexivity|vm_compute; repeat split]).
Qed.

Lemma callsb_ok : forall x e, calls_ok measb [MStart (mkStamp4 startw 0 0 2); MSave 0 x e; MFinal].
Proof.
  intros x e. split.
  - intros k [<-|[]]. exists dgb. split; [exact eq_refl|exact eq_refl].
  - intros t [X|[X|[X|[]]]]; try discriminate. assert (t = mkStamp4 startw 0 0 2) as -> by congruence. repeat split.
Qed.
Lemma callsb_turn : forall x e, in_turn [MStart (mkStamp4 startw 0 0 2); MSave 0 x e; MFinal].
Proof. intros x e l1 k l2 E1 K. destruct l1 as [|a l1]; [destruct K|]. cbn [sources] in E1. destruct l1; discriminate E1. Qed.
Lemma outb : u_out (w_u (wb 20)) =
    2 :: [9; 0; 0; 0; 1; 2; 3; 4; 5; 6; 7; 8; 9] ++ 1 :: le_bytes 8 (bits_of_dbl (of_Z (-1))) ++ [1; 35; 1; 0; 0; 9; 9] ++ repeat 0 8 ++
    3 :: repeat 0 8 ++ [1; 7; 0; 0; 0; 2; 0] ++
    2 :: [0; 0; 0; 0] ++ 1 :: le_bytes 8 (bits_of_dbl (fdiv (of_Z 3) (of_Z 2))) ++ [2; 36; 1; 0; 0; 0; 0] ++ [13; 0; 0; 0; 0; 0; 0; 0].
Proof. vm_compute. reflexivity. Qed.

Example C86_witness : hd_ok measb /\ nth_error (h_dgs measb) 0 = Some dgb /\ StreamSpec.dg_ok (dgroup_of dgb) /\ logs_ok dgb logsb /\ Forall (bcall_ok dgb logsb) pb /\
  Forall WriterProofs.plain opsb1 /\ Forall WriterProofs.plain opsb2 /\
  log_samples logsb pb = Ok (WriterProofs.wsaves opsb1 ++ WriterProofs.wsaves opsb2) /\
  (forall s, In s samplesb -> s_ts s < 2 ^ 63) /\
  sorted_ts samplesb /\ (forall s, In s samplesb -> startw <= s_ts s + 2000000000) /\ (forall s, In s (WriterProofs.wsaves opsb1) -> s_ts s <= startw) /\
  calls_ok measb (callsb 20) /\ in_turn (callsb 20) /\
  u_out (w_u (wb 20)) =
    2 :: [9; 0; 0; 0; 1; 2; 3; 4; 5; 6; 7; 8; 9] ++ 1 :: le_bytes 8 (bits_of_dbl (of_Z (-1))) ++ [1; 35; 1; 0; 0; 9; 9] ++ repeat 0 8 ++
    3 :: repeat 0 8 ++ [1; 7; 0; 0; 0; 2; 0] ++
    2 :: [0; 0; 0; 0] ++ 1 :: le_bytes 8 (bits_of_dbl (fdiv (of_Z 3) (of_Z 2))) ++ [2; 36; 1; 0; 0; 0; 0] ++ [13; 0; 0; 0; 0; 0; 0; 0].
Proof.
  split; [apply measb_ok|]. split; [reflexivity|].
  assert (C : logs_ok dgb logsb /\ StreamSpec.dg_ok (dgroup_of dgb)).
  { apply C86_config_partial; try reflexivity; try discriminate. intros t. apply C86_names; [reflexivity|constructor]. }
  split; [apply C|]. split; [apply C|]. split.
  { assert (MO : forall c m, lg_st c = VlsdGroup -> can_ok m -> can_id m < 2 ^ 29 -> N.of_nat (length (can_data m)) < 2 ^ 32 -> message_ok c m).
    { intros c m S A B D. split; [exact A|]. split; [exact B|]. split; [exact D|]. intros X. congruence. }
    repeat constructor; (eexists; split; [reflexivity|]); apply MO; try reflexivity; vm_compute; repeat constructor. }
  split; [repeat constructor|]. split; [repeat constructor|]. split; [vm_compute; reflexivity|].
  assert (E : samplesb = samplesb) by reflexivity. unfold samplesb at 2 in E.
  match type of E with _ = ?t => let v := eval vm_compute in t in assert (E2 : t = v) by (vm_compute; reflexivity); rewrite E2 in E; clear E2 end.
  split; [rewrite E; intros s [<-|[<-|[<-|[]]]]; vm_compute; reflexivity|].
  split; [rewrite E; vm_compute; repeat split; discriminate|]. split; [rewrite E; intros s [<-|[<-|[<-|[]]]]; vm_compute; discriminate|].
  split; [intros s [<-|[<-|[]]]; vm_compute; discriminate|]. split.
  { exact (callsb_ok _ _). }
  split; [exact (callsb_turn _ _)|]. exact outb.
Qed.
