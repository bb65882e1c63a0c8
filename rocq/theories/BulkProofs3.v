(** Samples with known calls and times in a measurement: the same as ValueProofs7 and C80_measurement, for
    any list of samples. *)
From Verif Require Import Base BlockModel ConvModel CcModel StreamModel StreamSpec QueueModel QueueSpec EncProofs ObsModel ObsSpec ObsProofs
  ChannelModel ChannelSpec HistProofs MetaModel MetaSpec IdentModel IdentSpec MeasModel MeasSpec MeasStream MeasProps WriterModel WriterProofs
  ValueModel ValueSpec ValueProofs ValueProofs2 ValueProofs3 ValueProofs4 ValueProofs5 ValueProofs6 ValueProofs7.
From Verif Require QueueProps.
Local Open Scope N_scope.
Local Open Scope list_scope.

Lemma sorted_map : forall (f : sample -> sample) l, (forall s, s_ts (f s) = s_ts s) -> sorted_ts l -> sorted_ts (map f l).
Proof.
  intros f l F. induction l as [|a [|b l] IH]; [auto|auto|]. intros [S1 S2]. change (map f (a :: b :: l)) with (f a :: map f (b :: l)).
  specialize (IH S2). cbn [map] in *. split; [rewrite !F; exact S1|exact IH].
Qed.

(** The calls with those that set the times. *)
Definition with_times (off : N -> bool) (T : N) (gs : list cg) (calls : nat -> nat -> option (list setop)) (times : nat -> nat -> N) (j n : nat) :
    option (list setop) :=
  match nth_error gs j, calls j n with
  | Some g, Some ops => Some (stamped off T (prepare_cg g) (times j n) ops)
  | _, _ => None
  end.

Section Known.
Context (d2f : N -> N) (gs : list cg) (d : dg) (l : list sample).
Context (EG : d_cgs d = prepared_groups gs) (DO : StreamSpec.dg_ok (dgroup_of d)) (SM : sizes_small gs).
Context (calls : nat -> nat -> option (list setop)) (times : nat -> nat -> N).
Context (PF : Forall (fun s => exists k g, nth_error gs k = Some g /\ is_vlsd g = false /\ s_id s = g_record g /\
                       buf_ok g (s_rec s) /\ s_has s = false /\ s_vbuf s = [] /\ s_ts s < 2 ^ 63) l).
Context (PC : forall j g n, nth_error gs j = Some g -> is_vlsd g = false ->
  match calls j n with
  | None => nth_error (of_group (prepare_cg g) l) n = None
  | Some ops => exists b, nth_error (of_group (prepare_cg g) l) n = Some (sample_of (prepare_cg g) (times j n) b) /\
      run_ops d2f (chans_of (prepare_cg g)) ops (new_bufs (prepared_groups gs) j) = Ok b /\
      Forall (op_ok d2f (chans_of g) (chans_of (prepare_cg g))) ops /\ times j n < 2 ^ 63
  end).

Lemma known_ok : Forall (sample_ok (dgroup_of d)) l /\ Forall plain_sample l.
Proof.
  split; eapply Forall_impl; try exact PF; intros s (k & g & K & V & E & B & H & VB & _).
  - eapply buf_sample; eauto.
  - exact H.
Qed.
Lemma known_calls : samples_of d2f gs calls l.
Proof.
  intros j g Hg V n. pose proof (PC j g n Hg V) as A. destruct (calls j n) as [ops|]; [|exact A].
  destruct A as (b & A & R & F & _). eexists. split; [exact A|]. auto.
Qed.

Context (off : N -> bool) (T : N) (D : forall x, d2f x < 2 ^ 32) (TT : T < 2 ^ 63) (MP : Forall (master_plain off) gs).
Context (TF : forall j g n, nth_error gs j = Some g -> is_vlsd g = false -> calls j n <> None -> time_fits off T g (times j n)).
Let rt := retimed d2f (d_cgs d) off.

Lemma known_timed : forall j g n ops, nth_error gs j = Some g -> is_vlsd g = false -> calls j n = Some ops ->
  exists s b', nth_error (of_group (prepare_cg g) l) n = Some s /\
    retime d2f (d_cgs d) off T s = Ok (sample_of (prepare_cg g) (times j n) b') /\
    run_ops d2f (chans_of (prepare_cg g)) (stamped off T (prepare_cg g) (times j n) ops) (new_bufs (prepared_groups gs) j) = Ok b' /\
    Forall (op_ok d2f (chans_of g) (chans_of (prepare_cg g))) (stamped off T (prepare_cg g) (times j n) ops) /\ buf_ok g b'.
Proof.
  intros j g n ops Hg V C. pose proof (PC j g n Hg V) as A. rewrite C in A. destruct A as (b & A & R & F & TL).
  destruct (sample_timed d2f gs off T j g (times j n) (new_bufs (prepared_groups gs) j) ops b) as (b' & X1 & X2 & X3 & X4); auto.
  - apply (ids_nodup gs d EG DO).
  - eapply group_small; eauto.
  - rewrite Forall_forall in MP. apply MP. eapply nth_error_In; eauto.
  - apply TF; auto. congruence.
  - apply (new_ok gs j g); auto.
  - exists (sample_of (prepare_cg g) (times j n) b), b'. rewrite EG. auto.
Qed.
Lemma known_place : forall s, In s l -> exists j g n ops, nth_error gs j = Some g /\ is_vlsd g = false /\ calls j n = Some ops /\
  nth_error (of_group (prepare_cg g) l) n = Some s.
Proof.
  intros s Hs. pose proof PF as F. rewrite Forall_forall in F. destruct (F s Hs) as (j & g & Hg & V & E & _).
  destruct (prepared g V) as (_ & ER & _).
  assert (I : In s (of_group (prepare_cg g) l)) by (unfold of_group; apply filter_In; split; [exact Hs|apply N.eqb_eq; congruence]).
  destruct (In_nth_error _ _ I) as [n N0]. pose proof (PC j g n Hg V) as X.
  destruct (calls j n) as [ops|] eqn:C; [|congruence]. exists j, g, n, ops. auto.
Qed.
Lemma known_defined : Forall (fun s => exists s', retime d2f (d_cgs d) off T s = Ok s') l.
Proof.
  apply Forall_forall. intros s Hs. destruct (known_place s Hs) as (j & g & n & ops & Hg & V & C & N0).
  destruct (known_timed j g n ops Hg V C) as (s1 & b' & N1 & R & _). assert (s1 = s) as -> by congruence. eauto.
Qed.
Lemma known_timed_ok : Forall (sample_ok (dgroup_of d)) (map (rt T) l) /\ Forall plain_sample (map (rt T) l).
Proof.
  split; apply Forall_forall; intros s' I; apply in_map_iff in I; destruct I as (s & <- & Hs).
  - destruct (known_place s Hs) as (j & g & n & ops & Hg & V & C & N0).
    destruct (known_timed j g n ops Hg V C) as (s1 & b' & N1 & R & _ & _ & BB). assert (s1 = s) as -> by congruence.
    unfold rt, retimed. rewrite R. destruct (prepared g V) as (_ & ER & _). eapply buf_sample; eauto.
  - destruct (rt_keeps d2f d off T s) as (_ & _ & H & _). unfold plain_sample, rt. rewrite H. destruct known_ok as [_ PO]. rewrite Forall_forall in PO. apply PO. exact Hs.
Qed.
Lemma known_group_map : forall g, of_group g (map (rt T) l) = map (rt T) (of_group g l).
Proof.
  intros g. unfold of_group. clear - l. induction l as [|s r IH]; [reflexivity|]. cbn [map filter]. destruct (rt_keeps d2f d off T s) as (_ & E & _).
  unfold rt at 1. rewrite E. destruct (s_id s =? g_record g); cbn [map]; rewrite IH; reflexivity.
Qed.
Lemma known_samples : samples_of d2f gs (with_times off T gs calls times) (map (rt T) l).
Proof.
  intros j g Hg V n. unfold with_times. rewrite Hg, known_group_map. pose proof (PC j g n Hg V) as X.
  destruct (calls j n) as [ops|] eqn:C.
  - destruct (known_timed j g n ops Hg V C) as (s1 & b' & N1 & R & RO & FO & BB). exists (rt T s1).
    split; [rewrite nth_error_map, N1; reflexivity|]. unfold rt, retimed. rewrite R. auto.
  - rewrite nth_error_map, X. reflexivity.
Qed.
End Known.

Lemma known_measurement : forall h2d f2d d2f i h k d gs calls times off st per pre trim ops1 T ops2, id_texts i -> id_numbers i -> hd_ok h ->
  nth_error (h_dgs h) k = Some d -> d_cgs d = prepared_groups gs -> StreamSpec.dg_ok (dgroup_of d) -> sizes_small gs ->
  (forall x, d2f x < 2 ^ 32) -> Forall (master_plain off) gs ->
  Forall WriterProofs.plain ops1 -> Forall WriterProofs.plain ops2 ->
  let all := WriterProofs.wsaves ops1 ++ WriterProofs.wsaves ops2 in
  Forall (fun s => exists k g, nth_error gs k = Some g /\ is_vlsd g = false /\ s_id s = g_record g /\
                       buf_ok g (s_rec s) /\ s_has s = false /\ s_vbuf s = [] /\ s_ts s < 2 ^ 63) all ->
  (forall j g n, nth_error gs j = Some g -> is_vlsd g = false ->
    match calls j n with
    | None => nth_error (of_group (prepare_cg g) all) n = None
    | Some ops => exists b, nth_error (of_group (prepare_cg g) all) n = Some (sample_of (prepare_cg g) (times j n) b) /\
        run_ops d2f (chans_of (prepare_cg g)) ops (new_bufs (prepared_groups gs) j) = Ok b /\
        Forall (op_ok d2f (chans_of g) (chans_of (prepare_cg g))) ops /\ times j n < 2 ^ 63
    end) ->
  (forall j g n, nth_error gs j = Some g -> is_vlsd g = false -> calls j n <> None -> time_fits off T g (times j n)) ->
  sorted_ts all -> (forall s, In s all -> T <= s_ts s + pre) -> (forall s, In s (WriterProofs.wsaves ops1) -> s_ts s <= T) ->
  0 < T -> T < 2 ^ 63 -> pre <= T ->
  (forall s, In s all -> exists s', retime d2f (d_cgs d) off T s = Ok s') /\
  exists n0, forall n, (n0 <= n)%nat ->
  let w := trun (dgroup_of d) (fun _ => false) st per (retimed d2f (d_cgs d) off) (WriterProofs.measurement ops1 T ops2 n) (winit pre trim) in
  forall ops, calls_ok h ops -> in_turn ops -> In k (sources ops) ->
  MeasSpec.saved k ops = u_out (w_u w) -> counters k ops = Some (u_enc (w_u w)) ->
  exists m, bind (init_meas i h) (mrun ops) = Ok m /\
  forall x, N.of_nat (length (m_file m ++ x)) < 2 ^ 63 ->
  exists enough, forall fuel, (enough <= fuel)%nat ->
  exists h' d' blocks, read_file fuel (m_file m ++ x) = Ok (id_trimmed i, h') /\
    nth_error (h_dgs h') k = Some d' /\
    (forall inflate, group_data inflate (m_file m ++ x) d' = Some (Ok blocks)) /\
    values_shown h2d f2d d2f gs (with_times off T gs calls times) fuel d' blocks.
Proof.
  intros h2d f2d d2f i h k d gs calls times off st per pre trim ops1 T ops2 IT IN OK Ed EG DO SM D MP P1 P2 all PF PC TF S B BT TP HT HP.
  split.
  { pose proof (known_defined d2f gs d all EG DO SM calls times PF PC off T D HT MP TF) as A. rewrite Forall_forall in A. exact A. }
  set (rt := retimed d2f (d_cgs d) off).
  assert (RK : forall T s, s_ts (rt T s) = s_ts s) by (intros T0 s; apply (rt_keeps d2f d off T0 s)).
  assert (SV : WriterProofs.wsaves (map (rt_op rt T) ops1) ++ WriterProofs.wsaves (map (rt_op rt T) ops2) = map (rt T) all)
    by (rewrite !rt_saves, <- map_app; reflexivity).
  destruct (known_timed_ok d2f gs d all EG DO SM calls times PF PC off T D HT MP TF) as [TO TPL]. fold rt in TO, TPL.
  pose proof (known_samples d2f gs d all EG DO SM calls times PC off T D HT MP TF) as TS. fold rt in TS.
  assert (TSM : forall s, In s (map (rt T) all) -> s_ts s < 2 ^ 64 /\ T <= s_ts s + pre).
  { intros s I. apply in_map_iff in I. destruct I as (s0 & <- & I). rewrite RK. split; [|apply B; exact I].
    rewrite Forall_forall in PF. destruct (PF s0 I) as (? & ? & _ & _ & _ & _ & _ & _ & L).
    change (2 ^ 63) with 9223372036854775808 in L. change (2 ^ 64) with 18446744073709551616. lia. }
  destruct (QueueProps.C25_stored_partial (dgroup_of d) (fun _ => false) st per pre trim (map (rt_op rt T) ops1) T (map (rt_op rt T) ops2) DO) as (n0 & N0);
    try (apply rt_plain; assumption); rewrite ?SV; auto.
  - apply sorted_map; auto.
  - intros s I. apply (TSM s I).
  - intros s I. rewrite rt_saves in I. apply in_map_iff in I. destruct I as (s0 & <- & I). rewrite RK. apply BT. exact I.
  - change (2 ^ 63) with 9223372036854775808 in HT. change (2 ^ 64) with 18446744073709551616. lia.
  - exists n0. intros n L w ops CO TU K ES EC.
    destruct (N0 n L) as (_ & _ & SH & G & EM). rewrite SV in SH. clear N0.
    destruct (timed_same rt T (RK T) (dgroup_of d) (fun _ => false) st per pre trim ops1 ops2 n P1 P2) as [(_ & _ & E3 & E4 & E5) _].
    fold w in E3, E4, E5.
    set (z := wrun (dgroup_of d) (fun _ => false) st per (WriterProofs.measurement (map (rt_op rt T) ops1) T (map (rt_op rt T) ops2) n) (winit pre trim)) in *.
    assert (GN : u_gone (w_u z) = []).
    { destruct (u_gone (w_u z)) as [|x r] eqn:E; auto. exfalso.
      assert (X : s_ts x + pre < T) by (apply G; left; auto).
      assert (Hx : In x (map (rt T) all)).
      { clear - SH. remember (x :: r) as b eqn:Eb.
        assert (KK : forall a b c : list sample, QueueSpec.shuffle a b c -> forall y, In y b -> In y c).
        { intros a b0 c Hs. induction Hs; intros y Hy; [destruct Hy|right; auto|].
          destruct Hy as [->|Hy]; [left; auto|right; auto]. }
        apply (KK _ _ _ SH). rewrite Eb. left; auto. }
      destruct (TSM x Hx). lia. }
    rewrite GN in SH. assert (SH' : u_log (w_u z) = map (rt T) all).
    { clear - SH. remember [] as y eqn:Ez. revert SH. generalize (map (rt T) all). intros c SH.
      induction SH; auto; [f_equal; auto|discriminate]. }
    rewrite SH', <- E3, <- E4, <- ES in EM.
    eapply file_values; eauto.
Qed.
