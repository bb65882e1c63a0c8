(** C80: the values an application sets are the values a reader of the file shows, for the samples of a
    program and for a whole measurement with its times; C81: the times of the samples. *)
From Verif Require Import Base BlockModel BlockSpec ConvModel ConvSpec CcModel StreamModel StreamSpec QueueModel QueueSpec EncProofs ObsModel ObsSpec ObsProofs
  ChannelModel ChannelSpec HistProofs MetaModel MetaSpec MetaProps IdentModel IdentSpec MeasModel MeasSpec MeasStream MeasProps CompProps WriterModel WriterProofs
  ValueModel ValueSpec ValueProofs ValueProofs2 ValueProofs3 ValueProofs4 ValueProofs5 ValueProofs6 ValueProofs7 ValueProofs8.
From Verif Require ChannelProps CcProofs.
From Coq Require Import Reals.
From Flocq Require Import Core.Core IEEE754.BinarySingleNaN.
Local Open Scope N_scope.
Local Open Scope list_scope.

(* ================================================================== *)
(** * C80 *)

(** A description [gs] of the application, prepared for writing; any program of SetChannelValue and
    SaveSample calls on its groups. The samples of the program are written by any saves of the data
    group, between those of others. In the finished file, with anything after it, the observers of the
    reader show for every numeric channel and every sample the value set last. *)
Theorem C80_file : forall h2d f2d d2f i h ops k d gs p l e, id_texts i -> id_numbers i -> hd_ok h -> calls_ok h ops -> in_turn ops ->
  nth_error (h_dgs h) k = Some d -> d_cgs d = map prepare_cg gs -> StreamSpec.dg_ok (dgroup_of d) -> In k (sources ops) -> sizes_small gs ->
  Forall (call_ok d2f gs) p -> program_samples d2f (d_cgs d) p = Ok l ->
  EncProofs.emitted (dgroup_of d) (fun _ => false) l (MeasSpec.saved k ops) e -> counters k ops = Some e ->
  exists m, bind (init_meas i h) (mrun ops) = Ok m /\
  forall x, N.of_nat (length (m_file m ++ x)) < 2 ^ 63 ->
  exists enough, forall fuel, (enough <= fuel)%nat ->
  exists h' d' blocks, read_file fuel (m_file m ++ x) = Ok (id_trimmed i, h') /\
    nth_error (h_dgs h') k = Some d' /\
    (forall inflate, group_data inflate (m_file m ++ x) d' = Some (Ok blocks)) /\
    values_shown h2d f2d d2f gs (calls_before p) fuel d' blocks.
Proof.
  intros h2d f2d d2f i h ops k d gs p l e IT IN OK CO TU Ed EG DO K SM CP RP EM EC.
  destruct (prog_ok d2f gs d p l EG SM CP RP) as [F PL].
  pose proof (prog_calls d2f gs d p l EG DO CP RP) as SO.
  eapply file_values; eauto.
Qed.
Print Assumptions C80_file.

(** Every program of calls that fit has samples: nothing fails and nothing is undefined. *)
Theorem C80_program : forall d2f gs p, sizes_small gs -> Forall (call_ok d2f gs) p ->
  exists l, program_samples d2f (map prepare_cg gs) p = Ok l /\ length l = length (filter (fun o => match o with PSave _ _ => true | _ => false end) p).
Proof.
  intros d2f gs p SM CP. destruct (prog_runs d2f gs SM p CP (new_bufs (prepared_groups gs))) as (l & R & F).
  - intros k g K V. apply new_ok; auto.
  - exists l. split; [exact R|]. clear - R. unfold prepared_groups in R. revert R. generalize (new_bufs (map prepare_cg gs)). revert l.
    induction p as [|[k o|k ts] p IH]; intros l b R; cbn [run_prog filter length] in *.
    + assert (l = []) as -> by congruence. reflexivity.
    + destruct (nth_error (map prepare_cg gs) k); [|discriminate R]. destruct (run_ops _ _ _ _) as [b'| |]; try discriminate R. cbn [bind] in R. eapply IH; eauto.
    + destruct (nth_error (map prepare_cg gs) k); [|discriminate R]. destruct (run_prog _ _ _ _) as [l'| |] eqn:E; try discriminate R. cbn [bind] in R.
      assert (l = sample_of c ts (b k) :: l') as -> by congruence. cbn [length]. f_equal. eapply IH; eauto.
Qed.
Print Assumptions C80_program.

Lemma sorted_map : forall (f : sample -> sample) l, (forall s, s_ts (f s) = s_ts s) -> sorted_ts l -> sorted_ts (map f l).
Proof.
  intros f l F. induction l as [|a [|b l] IH]; [auto|auto|]. intros [S1 S2]. change (map f (a :: b :: l)) with (f a :: map f (b :: l)).
  specialize (IH S2). cbn [map] in *. split; [rewrite !F; exact S1|exact IH].
Qed.

(** A whole measurement: the samples of any program saved while the worker takes its turns in any
    order, StartMeasurement(T), more of both, StopMeasurement. The reader shows the values set last,
    and in the time master of each group, unless its time is not calculated, the time of the sample
    since the start; also for the samples saved before the start. *)
Theorem C80_measurement : forall h2d f2d d2f i h k d gs p off st per pre trim ops1 T ops2, id_texts i -> id_numbers i -> hd_ok h ->
  nth_error (h_dgs h) k = Some d -> d_cgs d = map prepare_cg gs -> StreamSpec.dg_ok (dgroup_of d) -> sizes_small gs ->
  (forall x, d2f x < 2 ^ 32) -> Forall (master_plain off) gs ->
  Forall WriterProofs.plain ops1 -> Forall WriterProofs.plain ops2 ->
  let all := WriterProofs.wsaves ops1 ++ WriterProofs.wsaves ops2 in
  Forall (call_ok d2f gs) p -> program_samples d2f (d_cgs d) p = Ok all ->
  (forall j g n, nth_error gs j = Some g -> is_vlsd g = false -> (n < saves p j)%nat -> time_fits off T g (time_of p j n)) ->
  sorted_ts all -> (forall s, In s all -> T <= s_ts s + pre) -> (forall s, In s (WriterProofs.wsaves ops1) -> s_ts s <= T) ->
  0 < T -> T < 2 ^ 63 -> pre <= T ->
  (forall s, In s all -> exists s', retime d2f (d_cgs d) off T s = Ok s') /\
  exists n0, forall n, (n0 <= n)%nat ->
  let w := trun (dgroup_of d) (fun _ => false) st per (retimed d2f (d_cgs d) off) (WriterProofs.measurement ops1 T ops2 n) (winit pre trim) in
  forall ops, calls_ok h ops -> in_turn ops -> In k (sources ops) ->
  MeasSpec.saved k ops = u_out (w_u w) -> counters k ops = Some (u_enc (w_u w)) ->
  exists m, bind (init_meas i h) (mrun ops) = Ok m /\
  forall x, N.of_nat (length (m_file m ++ x)) < 2 ^ 63 ->
  exists enough, forall fuel, (enough <= fuel)%nat ->
  exists h' d' blocks, read_file fuel (m_file m ++ x) = Ok (id_trimmed i, h') /\
    nth_error (h_dgs h') k = Some d' /\
    (forall inflate, group_data inflate (m_file m ++ x) d' = Some (Ok blocks)) /\
    values_shown h2d f2d d2f gs (timed_calls off T gs p) fuel d' blocks.
Proof.
  intros h2d f2d d2f i h k d gs p off st per pre trim ops1 T ops2 IT IN OK Ed EG DO SM D MP P1 P2 all CP RP TF S B BT TP HT HP.
  split.
  { pose proof (all_defined d2f gs d p all EG DO SM CP RP off T D HT MP TF) as A. rewrite Forall_forall in A. exact A. }
  set (rt := retimed d2f (d_cgs d) off).
  assert (RK : forall T s, s_ts (rt T s) = s_ts s) by (intros T0 s; apply (rt_keeps d2f d off T0 s)).
  assert (SV : WriterProofs.wsaves (map (rt_op rt T) ops1) ++ WriterProofs.wsaves (map (rt_op rt T) ops2) = map (rt T) all)
    by (rewrite !rt_saves, <- map_app; reflexivity).
  destruct (timed_ok d2f gs d p all EG DO SM CP RP off T D HT MP TF) as [TO TPL]. fold rt in TO, TPL.
  pose proof (timed_samples d2f gs d p all EG DO SM CP RP off T D HT MP TF) as TS. fold rt in TS.
  assert (TSM : forall s, In s (map (rt T) all) -> s_ts s < 2 ^ 64 /\ T <= s_ts s + pre).
  { intros s I. apply in_map_iff in I. destruct I as (s0 & <- & I). rewrite RK. split; [|apply B; exact I].
    pose proof (prog_facts d2f gs d p all EG SM CP RP) as PF. rewrite Forall_forall in PF. destruct (PF s0 I) as (? & ? & _ & _ & _ & _ & _ & _ & L).
    change (2 ^ 63) with 9223372036854775808 in L. change (2 ^ 64) with 18446744073709551616. lia. }
  destruct (QueueProps.C25_stored_partial (dgroup_of d) (fun _ => false) st per pre trim (map (rt_op rt T) ops1) T (map (rt_op rt T) ops2) DO) as (n0 & N0);
    try (apply rt_plain; assumption); rewrite ?SV; auto.
  - apply sorted_map; auto.
  - intros s I. apply (TSM s I).
  - intros s I. rewrite rt_saves in I. apply in_map_iff in I. destruct I as (s0 & <- & I). rewrite RK. apply BT. exact I.
  - change (2 ^ 63) with 9223372036854775808 in HT. change (2 ^ 64) with 18446744073709551616. lia.
  - exists n0. intros n L w ops CO TU K ES EC.
    destruct (N0 n L) as (_ & _ & SH & G & EM). rewrite SV in SH. clear N0.
    destruct (timed_same rt T (RK T) (dgroup_of d) (fun _ => false) st per pre trim ops1 ops2 n P1 P2) as [(_ & _ & E3 & E4 & E5) _].
    fold w in E3, E4, E5.
    set (z := wrun (dgroup_of d) (fun _ => false) st per (WriterProofs.measurement (map (rt_op rt T) ops1) T (map (rt_op rt T) ops2) n) (winit pre trim)) in *.
    assert (GN : u_gone (w_u z) = []).
    { destruct (u_gone (w_u z)) as [|x r] eqn:E; auto. exfalso.
      assert (X : s_ts x + pre < T) by (apply G; left; auto).
      assert (Hx : In x (map (rt T) all)).
      { clear - SH. remember (x :: r) as b eqn:Eb.
        assert (KK : forall a b c : list sample, QueueSpec.shuffle a b c -> forall y, In y b -> In y c).
        { intros a b0 c Hs. induction Hs; intros y Hy; [destruct Hy|right; auto|].
          destruct Hy as [->|Hy]; [left; auto|right; auto]. }
        apply (KK _ _ _ SH). rewrite Eb. left; auto. }
      destruct (TSM x Hx). lia. }
    rewrite GN in SH. assert (SH' : u_log (w_u z) = map (rt T) all).
    { clear - SH. remember [] as y eqn:Ez. revert SH. generalize (map (rt T) all). intros c SH.
      induction SH; auto; [f_equal; auto|discriminate]. }
    rewrite SH', <- E3, <- E4, <- ES in EM.
    eapply file_values; eauto.
Qed.
Print Assumptions C80_measurement.

(** A description with a time master of type double and a 16 bit channel with an invalidation bit, and a
    second group with a signed channel. *)
Definition chw (type sync dtype bits flags : N) (name : list N) : cnh :=
  mkCnh type sync dtype 0 0 bits flags 0 0 0 0 0 0 0 0 name None None None [] (0, 0, 0) None.
Definition gsw : list cg :=
  [mkCg 1 0 0 46 0 0 [65] None None
     [mkCn (chw 2 1 4 64 0 [116]) (map CArr []); mkCn (chw 0 0 0 16 2 [117]) (map CArr [])];
   mkCg 2 0 0 46 0 0 [66] None None [mkCn (chw 0 0 3 32 0 [118]) (map CSub [])]].
Definition dgw : dg := mkDg 1 None 0 (map prepare_cg gsw).
Definition measw : hd := set_dgs meas1 [dgw].
(* What PrepareForWriting makes of it. *)
Lemma prep_gsw : map prepare_cg gsw =
  [mkCg 1 0 0 46 10 1 [65] None None
     [mkCn (chw 2 1 4 64 0 [116]) (map CArr []);
      mkCn (mkCnh 0 0 0 0 8 16 2 0 0 0 0 0 0 0 0 [117] None None None [] (0, 0, 0) None) (map CArr [])];
   mkCg 2 0 0 46 4 0 [66] None None [mkCn (chw 0 0 3 32 0 [118]) (map CSub [])]].
Proof. vm_compute. reflexivity. Qed.

Lemma measw_ok : hd_ok measw.
Proof.
  assert (PT : forall c, c <> 0 -> is_space c = false -> plain_text [c]).
  { intros c A W. split; [intros [X|[]]; auto|intros _; split; exact W]. }
  destruct meas1_ok as (A1 & A2 & A3 & A4 & A5 & A6 & A7). unfold hd_ok.
  repeat (split; [assumption|]). constructor; [|constructor].
  assert (CH : forall h, (exists a b c d e f g n, h = mkCnh a b c 0 d e f g 0 0 0 0 0 0 0 [n] None None None [] (0, 0, 0) None /\
     a < 2 ^ 8 /\ b < 2 ^ 8 /\ c < 2 ^ 8 /\ d < 2 ^ 32 /\ e < 2 ^ 32 /\ f < 2 ^ 32 /\ g < 2 ^ 32 /\ n <> 0 /\ is_space n = false) -> cnh_ok h).
  { intros h (a & b & c & d & e & f & g & n & -> & H). unfold cnh_ok, source_ok, u8, u16, u32, u64, text_ok, comment_ok.
    cbn [n_type n_sync n_dtype n_bitoff n_byteoff n_bits n_flags n_invalid n_precision n_rmin n_rmax n_lmin n_lmax n_emin n_emax n_name n_unit n_md n_si n_attach n_defx n_conv].
    repeat match goal with |- _ /\ _ => split end; try (intuition; fail); try reflexivity; try (constructor; fail); try exact Logic.I.
    all: repeat constructor. }
  assert (P0 : plain_text []) by (split; [intros []|intros X; congruence]).
  unfold dg_ok, dgw. cbn [d_idsize d_md d_link d_cgs]. split; [reflexivity|]. split; [reflexivity|]. split; [exact Logic.I|].
  rewrite prep_gsw. constructor; [|constructor; [|constructor]]; unfold cg_ok; cbn [g_record g_samples g_flags g_separator g_data g_inval g_name g_si g_md g_cns];
    repeat match goal with |- _ /\ _ => split end; try reflexivity; try exact Logic.I; try (apply PT; [discriminate|reflexivity]).
  - constructor; [|constructor; [|constructor]]; apply cn_arrays; try constructor; apply CH; repeat eexists; try discriminate; reflexivity.
  - constructor; [|constructor]. apply cn_members; try constructor; apply CH; repeat eexists; try discriminate; reflexivity.
Qed.

Lemma dgw_ok : StreamSpec.dg_ok (dgroup_of dgw).
Proof.
  constructor.
  - discriminate.
  - vm_compute. repeat constructor; intros X; cbn in X; decompose [or] X; auto; discriminate.
  - vm_compute. auto.
  - intros g [<-|[<-|[]]] _; vm_compute; reflexivity.
  - intros X. vm_compute in X. discriminate.
  - intros g _ X. vm_compute in X. discriminate.
Qed.

(** Three samples; the first group's channel is marked invalid the second time. *)
Definition pw : list pop :=
  [PSet 0 (mkOp 1 (VU 1000) true 0); PSave 0 5000000000; PSet 1 (mkOp 0 (VS (-3)) true 0); PSave 1 6000000000;
   PSet 0 (mkOp 1 (VU 7) false 0); PSave 0 7500000000].
Definition d2f0 (x : N) : N := x mod 2 ^ 32.
Definition samplesw : list sample :=
  [mkS 5000000000 1 [0; 0; 0; 0; 0; 0; 0; 0; 232; 3; 0] false []; mkS 6000000000 2 [255; 255; 255; 253] false [];
   mkS 7500000000 1 [0; 0; 0; 0; 0; 0; 0; 0; 7; 0; 1] false []].
Definition nth_s (k : nat) : sample := nth k samplesw (mkS 0 0 [] false []).
Definition opsw1 : list wop := [OSave (nth_s 0); OTick; OSave (nth_s 1); OTick].
Definition opsw2 : list wop := [OTick; OSave (nth_s 2); OTick].
Definition startw : N := 6000000000.
Definition ww (n : nat) : wst :=
  trun (dgroup_of dgw) (fun _ => false) sample_size true (retimed d2f0 (d_cgs dgw) (fun _ => false))
    (WriterProofs.measurement opsw1 startw opsw2 n) (winit 2000000000 true).
Definition callsw (n : nat) : list mop := [MStart (mkStamp4 startw 0 0 2); MSave 0 (u_out (w_u (ww n))) (u_enc (w_u (ww n))); MFinal].

Lemma callsw_ok : Forall (call_ok d2f0 gsw) pw.
Proof.
  assert (G0 : forall ts, ts < 2 ^ 63 -> call_ok d2f0 gsw (PSave 0 ts)) by (intros ts L; eexists; split; [reflexivity|]; split; [reflexivity|exact L]).
  assert (G1 : forall ts, ts < 2 ^ 63 -> call_ok d2f0 gsw (PSave 1 ts)) by (intros ts L; eexists; split; [reflexivity|]; split; [reflexivity|exact L]).
  assert (S0 : forall u b, u < 65536 -> call_ok d2f0 gsw (PSet 0 (mkOp 1 (VU u) b 0))).
  { intros u b L. eexists. split; [reflexivity|]. split; [reflexivity|]. unfold op_ok. cbn [op_chan op_idx op_value].
    eexists. eexists. split; [reflexivity|]. split; [vm_compute; reflexivity|]. split; [split; [left; reflexivity|exact Logic.I]|]. split; [reflexivity|exact L]. }
  assert (S1 : call_ok d2f0 gsw (PSet 1 (mkOp 0 (VS (-3)) true 0))).
  { eexists. split; [reflexivity|]. split; [reflexivity|]. unfold op_ok. cbn [op_chan op_idx op_value].
    eexists. eexists. split; [reflexivity|]. split; [vm_compute; reflexivity|]. split; [split; [left; reflexivity|exact Logic.I]|]. split; [reflexivity|].
    split; [discriminate|reflexivity]. }
  unfold pw. repeat constructor; first [apply S0; reflexivity|apply S1|apply G0; reflexivity|apply G1; reflexivity].
Qed.

Example C80_witness : hd_ok measw /\ nth_error (h_dgs measw) 0 = Some dgw /\ StreamSpec.dg_ok (dgroup_of dgw) /\ sizes_small gsw /\
  (forall x, d2f0 x < 2 ^ 32) /\ Forall (master_plain (fun _ => false)) gsw /\
  WriterProofs.wsaves opsw1 ++ WriterProofs.wsaves opsw2 = samplesw /\ Forall (call_ok d2f0 gsw) pw /\ program_samples d2f0 (d_cgs dgw) pw = Ok samplesw /\
  (forall j g n, nth_error gsw j = Some g -> is_vlsd g = false -> (n < saves pw j)%nat -> time_fits (fun _ => false) startw g (time_of pw j n)) /\
  sorted_ts samplesw /\ (forall s, In s samplesw -> startw <= s_ts s + 2000000000) /\ (forall s, In s (WriterProofs.wsaves opsw1) -> s_ts s <= startw) /\
  calls_ok measw (callsw 20) /\ in_turn (callsw 20) /\
  u_out (w_u (ww 20)) = 1 :: le_bytes 8 (bits_of_dbl (of_Z (-1))) ++ [232; 3; 0; 2; 255; 255; 255; 253; 1] ++ le_bytes 8 (bits_of_dbl (fdiv (of_Z 3) (of_Z 2))) ++ [7; 0; 1] /\
  map (fun n => timed_calls (fun _ => false) startw gsw pw 0 n) [0; 1; 2]%nat =
    [Some [mkOp 1 (VU 1000) true 0; mkOp 0 (VF (bits_of_dbl (of_Z (-1)))) true 0];
     Some [mkOp 1 (VU 1000) true 0; mkOp 1 (VU 7) false 0; mkOp 0 (VF (bits_of_dbl (fdiv (of_Z 3) (of_Z 2)))) true 0]; None].
Proof.
  split; [apply measw_ok|]. split; [reflexivity|]. split; [apply dgw_ok|]. split; [repeat constructor|].
  split; [intros x; apply N.mod_lt; discriminate|]. split.
  { constructor; [|constructor; [|constructor]]; intros _ _ mi M; vm_compute in M; [|discriminate M].
    assert (mi = 0%nat) as -> by congruence. repeat eexists; try reflexivity. right. left. reflexivity. }
  split; [reflexivity|]. split; [apply callsw_ok|]. split; [vm_compute; reflexivity|]. split.
  { intros [|[|j]] g n Hg V L; [| |destruct j; discriminate Hg].
    - assert (g = nth 0 gsw g) as -> by (cbn [nth_error gsw] in Hg; unfold gsw; cbn [nth]; congruence).
      intros _ mi c M C. vm_compute in M. assert (mi = 0%nat) as -> by congruence. vm_compute in C.
      match type of C with Some ?y = _ => assert (c = y) as -> by congruence end. discriminate.
    - assert (g = nth 1 gsw g) as -> by (cbn [nth_error gsw] in Hg; unfold gsw; cbn [nth]; congruence).
      intros _ mi c M. vm_compute in M. discriminate M. }
  split; [vm_compute; repeat split; discriminate|]. split; [intros s [<-|[<-|[<-|[]]]]; vm_compute; discriminate|].
  split; [intros s [<-|[<-|[]]]; vm_compute; discriminate|]. split.
  { split.
    - intros k [<-|[]]. exists dgw. split; reflexivity.
    - intros t [X|[X|[X|[]]]]; try discriminate. assert (t = mkStamp4 startw 0 0 2) as -> by congruence. repeat split. }
  split.
  { intros l1 k l2 E K. destruct l1 as [|a l1]; [destruct K|]. unfold callsw in E. cbn [sources] in E. destruct l1; discriminate E. }
  split; vm_compute; reflexivity.
Qed.

(* ================================================================== *)
(** * C81 *)

(** The nanoseconds of [ts] since the start [T], and the nanoseconds of a second. *)
Definition ns_since (T ts : N) : Z := (Z.of_N ts - Z.of_N T)%Z.

(** The time of a sample is a finite number of seconds; up to 2^53 ns (104 days) from the start it is
    right to the last bit. *)
Theorem C81_error_partial : forall T ts, T < 2 ^ 63 -> ts < 2 ^ 63 ->
  finite (seconds T ts) /\
  ((Z.abs (ns_since T ts) <= 2 ^ 53)%Z ->
   (Rabs (rv (seconds T ts) - IZR (ns_since T ts) / 1000000000) <= bpow radix2 (-53) * Rabs (IZR (ns_since T ts) / 1000000000))%R).
Proof.
  intros T ts A B. split; [apply (seconds_ok T ts A B)|]. intros L. apply (seconds_error T ts A B L).
Qed.
Print Assumptions C81_error_partial.

(** Times never go back when the time stamps do not. *)
Theorem C81_order : forall T t1 t2, T < 2 ^ 63 -> t2 < 2 ^ 63 -> t1 <= t2 -> (rv (seconds T t1) <= rv (seconds T t2))%R.
Proof. exact seconds_mono. Qed.
Print Assumptions C81_order.

(** Partial: only up to 2^23 seconds (97 days) from the start; there different time stamps have different times. *)
Theorem C81_distinct_partial : forall T t1 t2, T < 2 ^ 63 -> t2 < 2 ^ 63 -> t1 < t2 ->
  (Z.abs (ns_since T t1) < 2 ^ 23 * 1000000000)%Z -> (Z.abs (ns_since T t2) < 2 ^ 23 * 1000000000)%Z ->
  (rv (seconds T t1) < rv (seconds T t2))%R.
Proof. exact seconds_strict. Qed.
Print Assumptions C81_distinct_partial.

(** After that they may be equal: two samples one nanosecond apart, 104 days after the start. *)
Theorem C81_distinct_refuted : exists T t1 t2, T < 2 ^ 63 /\ t2 < 2 ^ 63 /\ t1 < t2 /\ bits_of_dbl (seconds T t1) = bits_of_dbl (seconds T t2).
Proof. exists 1000000000, 9000001000000001, 9000001000000002. repeat split; vm_compute; reflexivity. Qed.
Print Assumptions C81_distinct_refuted.

(** An integer time master has the whole seconds, rounded towards the start; zero before the start if
    it is unsigned. *)
Theorem C81_whole : forall c T ts, T < 2 ^ 63 -> ts < 2 ^ 63 -> (Z.abs (ns_since T ts) < 2 ^ 23 * 1000000000)%Z ->
  let s := Z.quot (ns_since T ts) 1000000000 in
  ((ch_dtype c = UnsignedLe \/ ch_dtype c = UnsignedBe) -> (s < 2 ^ Z.of_N (ch_bits c))%Z ->
     time_value c (seconds T ts) = Some (VU (Z.to_N (Z.max 0 s)))) /\
  ((ch_dtype c = SignedLe \/ ch_dtype c = SignedBe) -> (- 2 ^ (Z.of_N (ch_bits c) - 1) <= s < 2 ^ (Z.of_N (ch_bits c) - 1))%Z ->
     time_value c (seconds T ts) = Some (VS s)).
Proof.
  intros c T ts A B L s. destruct (seconds_ok T ts A B) as [F _]. unfold finite in F.
  assert (W : Btrunc (seconds T ts) = s) by (apply (seconds_whole T ts A B L)). clearbody s.
  split; intros DT HS; unfold time_value; cbv zeta; rewrite W, F; destruct DT as [-> | ->]; cbn [andb].
  1-2: rewrite (proj2 (Z.ltb_lt _ _)); [reflexivity|]; assert (0 < 2 ^ Z.of_N (ch_bits c))%Z by (apply Z.pow_pos_nonneg; lia); lia.
  1-2: rewrite (proj2 (Z.leb_le _ _)), (proj2 (Z.ltb_lt _ _)) by apply HS; reflexivity.
Qed.
Print Assumptions C81_whole.

(** A double time master of a written record gives the time back to GetTimestamp. *)
Theorem C81_timestamp : forall h2d f2d d2f c rec t n, (forall x, d2f x < 2 ^ 32) -> bytes_ok rec -> placed c (N.of_nat (length rec)) ->
  ch_type c = Master -> ch_invalid c = false -> (ch_dtype c = FloatLe \/ ch_dtype c = FloatBe) -> ch_bits c = 64 ->
  exists rec', set_timestamp d2f c None t rec = Ok rec' /\ length rec' = length rec /\ get_timestamp h2d f2d c 1 None n rec' = t.
Proof.
  intros h2d f2d d2f c rec t n D BO P TY IV DT BI.
  assert (TV : time_value c t = Some (VF (bits_of_dbl t))) by (unfold time_value; destruct DT as [-> | ->]; reflexivity).
  destruct (set_time d2f c rec t _ D P IV TV) as [E VF0].
  assert (EL : 0 < elems c) by (unfold elems; lia).
  destruct (ChannelProps.C05_set_get h2d f2d d2f c rec (VF (bits_of_dbl t)) true 0 BO P EL VF0) as (rec' & S1 & S2 & S3 & S4).
  exists rec'. split; [rewrite E; exact S1|]. split; [exact S2|]. unfold get_timestamp. cbn [negb N.eqb Pos.eqb]. rewrite TY, S4.
  unfold as_stored. rewrite BI. destruct DT as [-> | ->]; cbn [N.eqb Pos.eqb]; apply CcProofs.bits_round.
Qed.
Print Assumptions C81_timestamp.

Example C81_witness : let c := mkChan Master FloatLe 0 0 64 1 false 0 10 0 in
  placed c 11 /\ bits_of_dbl (get_timestamp (fun x => x) (fun x => x) c 1 None 3
    (match set_timestamp d2f0 c None (seconds 6000000000 7500000000) (repeat 0 (N.to_nat 11)) with Ok r => r | _ => [] end)) =
    bits_of_dbl (fdiv (of_Z 3) (of_Z 2)) /\
  time_value (mkChan Master SignedLe 0 0 32 1 false 0 10 0) (seconds 6000000000 3200000000) = Some (VS (-2)) /\
  time_value (mkChan Master UnsignedLe 0 0 32 1 false 0 10 0) (seconds 6000000000 3200000000) = Some (VU 0) /\
  time_value (mkChan Master UnsignedLe 0 0 32 1 false 0 10 0) (seconds 6000000000 9999999999) = Some (VU 3).
Proof. split; [constructor; vm_compute; auto; intuition discriminate|]. repeat split; vm_compute; reflexivity. Qed.

(* A group whose only channel is a time master of one byte, with and without a conversion. *)
Definition small_master (dtype bits : N) (cc : option conv) : list cg :=
  map prepare_cg [mkCg 1 0 0 46 0 0 [] None None [mkCn (mkCnh 2 1 dtype 0 0 bits 0 0 0 0 0 0 0 0 0 [116] None None None [] (0, 0, 0) cc) (map CArr [])]].

(** A time master that is too small has no check: 256 s after the start the cast of the time to an
    unsigned byte is undefined. *)
Theorem C81_too_small_refuted : exists gs T ts rec, length rec = 1%nat /\ T < ts /\
  retime d2f0 gs (fun _ => false) T (mkS ts 1 rec false []) = UB.
Proof. exists (small_master 0 8 None), 1000000000, 257000000000, [0]. repeat split; vm_compute; reflexivity. Qed.
Print Assumptions C81_too_small_refuted.

(** Samples of the pre-trigger window all have the time zero in an unsigned time master. *)
Theorem C81_pretrigger_refuted : exists gs T t1 t2 rec, t1 < t2 /\ t2 < T /\
  exists s1 s2, retime d2f0 gs (fun _ => false) T (mkS t1 1 rec false []) = Ok s1 /\ retime d2f0 gs (fun _ => false) T (mkS t2 1 rec false []) = Ok s2 /\
    s_rec s1 = s_rec s2 /\ s_rec s1 = [0; 0; 0; 0].
Proof.
  exists (small_master 0 32 None), 10000000000, 3000000000, 7000000000, [9; 9; 9; 9]. split; [reflexivity|]. split; [reflexivity|].
  eexists. eexists. split; [vm_compute; reflexivity|]. split; [vm_compute; reflexivity|]. split; reflexivity.
Qed.
Print Assumptions C81_pretrigger_refuted.

Lemma small_master_eq : forall cc, small_master 4 64 (Some cc) =
  [mkCg 1 0 0 46 8 0 [] None None [mkCn (mkCnh 2 1 4 0 0 64 0 0 0 0 0 0 0 0 0 [116] None None None [] (0, 0, 0) (Some cc)) (map CArr [])]].
Proof. intros cc. vm_compute. reflexivity. Qed.

(** A time master with a conversion that is neither linear nor one to one is not written: the record
    keeps the bytes it had, for any time. *)
Theorem C81_conversion_refuted : forall cc, c_type cc <> tLinear -> c_type cc <> tNone ->
  exists gs c, master_of (List.hd (mkCg 0 0 0 0 0 0 [] None None []) gs) = Some c /\
  forall T ts rec, T < 2 ^ 63 -> ts < 2 ^ 63 ->
  retime d2f0 gs (fun _ => false) T (mkS ts 1 rec false []) = Ok (mkS ts 1 rec false []).
Proof.
  intros cc NL NN. exists (small_master 4 64 (Some cc)). rewrite small_master_eq. eexists. split; [reflexivity|]. intros T ts rec A B.
  unfold retime. cbn [find g_record s_id N.eqb Pos.eqb]. unfold master_of. cbn [g_cns find is_master n_type n_sync N.eqb Pos.eqb andb orb].
  rewrite rel_ok by (cbn [s_ts]; auto). cbn [s_ts]. cbn [n_conv]. unfold set_timestamp.
  apply N.eqb_neq in NL, NN. rewrite NL, NN. reflexivity.
Qed.
Print Assumptions C81_conversion_refuted.

(** StartMeasurement opens the queue for the worker before it rewrites the times in it: a sample saved
    before the start and written between the two has no time. *)
Theorem C81_race_refuted : exists n s T, s_ts s <= T /\
  let rt := retimed d2f0 (d_cgs dgw) (fun _ => false) in
  let w := start_split (dgroup_of dgw) (fun _ => false) sample_size true rt T n (wrun (dgroup_of dgw) (fun _ => false) sample_size true [OSave s] (winit 2000000000 true)) in
  u_log (w_u w) = [s] /\ rt T s <> s.
Proof.
  exists 5%nat, (nth_s 0), startw. split; [vm_compute; discriminate|]. split; [vm_compute; reflexivity|vm_compute; discriminate].
Qed.
Print Assumptions C81_race_refuted.
