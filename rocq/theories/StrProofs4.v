(** A measurement with texts, byte arrays and dates. *)
From Verif Require Import Base BlockModel ConvModel CcModel StreamModel StreamSpec QueueModel QueueSpec EncProofs ObsModel ObsSpec ObsProofs
  ChannelModel ChannelSpec BitProofs ChannelProofs SetProofs HistProofs VlsdProofs TextModel TextProofs TimeModel
  MetaModel MetaSpec IdentModel IdentSpec MeasModel MeasSpec MeasStream MeasProps WriterModel WriterProofs
  ValueModel ValueSpec ValueProofs ValueProofs2 ValueProofs3 ValueProofs4 ValueProofs5 ValueProofs6 ValueProofs7 BulkProofs3 StrModel StrSpec StrProofs StrProofs2 StrProofs3.
From Verif Require QueueProps.
Local Open Scope N_scope.
Local Open Scope list_scope.

Lemma stamped_app : forall off T g ts ops, stamped off T g ts ops = ops ++ stamped off T g ts [].
Proof.
  intros. unfold stamped. destruct (master_pos (g_cns g)) as [mi|]; [|rewrite app_nil_r; reflexivity].
  destruct (off (g_record g)); [rewrite app_nil_r; reflexivity|]. destruct (nth_error (chans_of g) mi) as [c|]; [|rewrite app_nil_r; reflexivity].
  destruct (time_value c (seconds T ts)); [reflexivity|rewrite app_nil_r; reflexivity].
Qed.
Lemma nums_app : forall a b, nums (a ++ b) = nums a ++ nums b.
Proof. intros. unfold nums. apply flat_map_app. Qed.
Lemma nums_map : forall l, nums (map SNum l) = l.
Proof. induction l as [|o l IH]; [reflexivity|]. cbn. f_equal. exact IH. Qed.
Lemma put_nums : forall z c ci l, last_put z c ci (map SNum l) = None.
Proof. induction l as [|o l IH]; [reflexivity|]. cbn [map last_put]. rewrite IH. reflexivity. Qed.
Lemma held_nums : forall z c ci a l, held z c (a ++ map SNum l) ci = held z c a ci.
Proof.
  intros z c ci a l. unfold held. assert (E : last_put z c ci (a ++ map SNum l) = last_put z c ci a).
  { induction a as [|o a IH]; [apply put_nums|]. cbn [app last_put]. rewrite IH. reflexivity. }
  rewrite E. reflexivity.
Qed.
Lemma run_nums : forall z d2f cs l buf, run_sops z d2f cs (map SNum l) buf = run_ops d2f cs l buf.
Proof.
  intros z d2f cs. induction l as [|o l IH]; intros buf; [reflexivity|]. change (o :: l) with ([o] ++ l). rewrite run_ops_app. cbn [app map run_sops run_sop].
  destruct (run_ops d2f cs [o] buf); cbn [bind]; auto.
Qed.

Section Texts.
Context (z : zone) (d2f : N -> N) (gs : list cg) (d : dg) (l : list sample).
Context (EG : d_cgs d = prepared_groups gs) (DO : StreamSpec.dg_ok (dgroup_of d)) (SM : sizes_small gs).
Context (p : list xop) (XO : Forall (xcall_ok d2f gs) p) (RP : text_samples z d2f (prepared_groups gs) p = Ok l).

Lemma text_all : Forall (fun s => exists k g, nth_error gs k = Some g /\ is_vlsd g = false /\ s_id s = g_record g /\
                       buf_ok g (s_rec s) /\ s_has s = false /\ s_vbuf s = [] /\ s_ts s < 2 ^ 63) l.
Proof.
  destruct (text_runs z d2f gs SM p XO (new_bufs (prepared_groups gs))) as (l0 & R & F).
  - intros k g K V. apply (new_ok gs k g SM K V).
  - unfold text_samples in RP. assert (l0 = l) as -> by congruence. exact F.
Qed.
Lemma text_known : forall j g n, nth_error gs j = Some g -> is_vlsd g = false ->
  match xcalls p j n with
  | None => nth_error (of_group (prepare_cg g) l) n = None
  | Some ops => exists b, nth_error (of_group (prepare_cg g) l) n = Some (sample_of (prepare_cg g) (xtime p j n) b) /\
      run_sops z d2f (chans_of (prepare_cg g)) ops (new_bufs (prepared_groups gs) j) = Ok b /\
      Forall (sop_ok d2f (chans_of g) (chans_of (prepare_cg g))) ops /\ xtime p j n < 2 ^ 63 /\ buf_ok g b
  end.
Proof.
  intros j g n J V. assert (J' : nth_error (prepared_groups gs) j = Some (prepare_cg g)) by (unfold prepared_groups; rewrite nth_error_map, J; reflexivity).
  pose proof (text_of_group z d2f _ p _ l (ids_nodup gs d EG DO) RP j _ J' n) as A.
  destruct (xcalls p j n) as [ops|] eqn:C; [|exact A]. destruct A as (b & R & A). exists b.
  destruct (xcalls_ok d2f gs p XO j g n ops J C) as [F L]. split; [exact A|]. split; [exact R|]. split; [exact F|]. split; [exact L|].
  destruct (new_ok gs j g SM J V) as [[B1 B2] _]. destruct (prepared g V) as (P & _).
  destruct (sops_history z (fun x => x) (fun x => x) d2f _ _ _ _ (group_small gs SM j g J V) P ops _ F B1 B2) as (b1 & R1 & X1 & X2 & _).
  assert (b1 = b) as -> by congruence. split; auto.
Qed.
Lemma text_texts : texts_of z d2f gs (xnums p) (xcalls p) l.
Proof.
  intros j g J V n. pose proof (text_known j g n J V) as A. unfold xnums. destruct (xcalls p j n) as [ops|]; cbn [option_map]; [|auto].
  destruct A as (b & A & R & F & _). eexists _, ops. split; [exact A|]. auto.
Qed.

Context (off : N -> bool) (T : N) (D : forall x, d2f x < 2 ^ 32) (TT : T < 2 ^ 63) (MP : Forall (master_plain off) gs).
Context (TF : forall j g n, nth_error gs j = Some g -> is_vlsd g = false -> xcalls p j n <> None -> time_fits off T g (xtime p j n)).
Let rt := retimed d2f (d_cgs d) off.

Lemma text_timed : forall j g n ops, nth_error gs j = Some g -> is_vlsd g = false -> xcalls p j n = Some ops ->
  exists s b', nth_error (of_group (prepare_cg g) l) n = Some s /\
    retime d2f (d_cgs d) off T s = Ok (sample_of (prepare_cg g) (xtime p j n) b') /\
    let ops' := ops ++ map SNum (stamped off T (prepare_cg g) (xtime p j n) []) in
    run_sops z d2f (chans_of (prepare_cg g)) ops' (new_bufs (prepared_groups gs) j) = Ok b' /\
    Forall (sop_ok d2f (chans_of g) (chans_of (prepare_cg g))) ops' /\ buf_ok g b'.
Proof.
  intros j g n ops J V C. pose proof (text_known j g n J V) as A. rewrite C in A. destruct A as (b & A & R & F & TL & BO).
  destruct (sample_timed d2f gs off T j g (xtime p j n) b [] b) as (b' & X1 & X2 & X3 & X4); auto.
  - apply (ids_nodup gs d EG DO).
  - eapply group_small; eauto.
  - rewrite Forall_forall in MP. apply MP. eapply nth_error_In; eauto.
  - apply TF; auto. congruence.
  - exists (sample_of (prepare_cg g) (xtime p j n) b), b'. rewrite EG. split; [exact A|]. split; [exact X1|]. cbv zeta.
    rewrite run_sops_app, R. cbn [bind]. rewrite run_nums. split; [exact X2|]. split; [|exact X4].
    apply Forall_app. split; [exact F|]. apply Forall_forall. intros o I. apply in_map_iff in I. destruct I as (o1 & <- & I). rewrite Forall_forall in X3. apply X3. exact I.
Qed.
Lemma text_place : forall s, In s l -> exists j g n ops, nth_error gs j = Some g /\ is_vlsd g = false /\ xcalls p j n = Some ops /\
  nth_error (of_group (prepare_cg g) l) n = Some s.
Proof.
  intros s Hs. pose proof text_all as F. rewrite Forall_forall in F. destruct (F s Hs) as (j & g & Hg & V & E & _).
  destruct (prepared g V) as (_ & ER & _).
  assert (I : In s (of_group (prepare_cg g) l)) by (unfold of_group; apply filter_In; split; [exact Hs|apply N.eqb_eq; congruence]).
  destruct (In_nth_error _ _ I) as [n N0]. pose proof (text_known j g n Hg V) as X.
  destruct (xcalls p j n) as [ops|] eqn:C; [|congruence]. exists j, g, n, ops. auto.
Qed.
Lemma text_defined : Forall (fun s => exists s', retime d2f (d_cgs d) off T s = Ok s') l.
Proof.
  apply Forall_forall. intros s Hs. destruct (text_place s Hs) as (j & g & n & ops & Hg & V & C & N0).
  destruct (text_timed j g n ops Hg V C) as (s1 & b' & N1 & R & _). assert (s1 = s) as -> by congruence. eauto.
Qed.
Lemma text_timed_ok : Forall (sample_ok (dgroup_of d)) (map (rt T) l) /\ Forall plain_sample (map (rt T) l).
Proof.
  split; apply Forall_forall; intros s' I; apply in_map_iff in I; destruct I as (s & <- & Hs).
  - destruct (text_place s Hs) as (j & g & n & ops & Hg & V & C & N0).
    destruct (text_timed j g n ops Hg V C) as (s1 & b' & N1 & R & _ & _ & BB). assert (s1 = s) as -> by congruence.
    unfold rt, retimed. rewrite R. destruct (prepared g V) as (_ & ER & _). eapply buf_sample; eauto.
  - destruct (rt_keeps d2f d off T s) as (_ & _ & H & _). unfold plain_sample, rt. rewrite H. destruct (known_ok gs d l EG SM text_all) as [_ PO].
    rewrite Forall_forall in PO. apply PO. exact Hs.
Qed.
Lemma text_timed_texts : texts_of z d2f gs (xtimed off T gs p) (xcalls p) (map (rt T) l).
Proof.
  intros j g J V n. unfold xtimed, xnums. rewrite J. assert (GM : of_group (prepare_cg g) (map (rt T) l) = map (rt T) (of_group (prepare_cg g) l)) by apply known_group_map.
  rewrite GM. pose proof (text_known j g n J V) as X. destruct (xcalls p j n) as [ops|] eqn:C; cbn [option_map].
  - destruct (text_timed j g n ops J V C) as (s1 & b' & N1 & R & RO & FO & BB).
    exists (rt T s1), (ops ++ map SNum (stamped off T (prepare_cg g) (xtime p j n) [])). split; [rewrite nth_error_map, N1; reflexivity|].
    unfold rt at 1, retimed. rewrite R. split; [exact RO|]. split; [exact FO|]. split; [|intros; apply held_nums].
    rewrite stamped_app, nums_app, nums_map. reflexivity.
  - rewrite nth_error_map, X. auto.
Qed.
End Texts.

Lemma text_measurement : forall z h2d f2d d2f i h k d gs p off st per pre trim ops1 T ops2, id_texts i -> id_numbers i -> hd_ok h ->
  nth_error (h_dgs h) k = Some d -> d_cgs d = prepared_groups gs -> StreamSpec.dg_ok (dgroup_of d) -> sizes_small gs ->
  (forall x, d2f x < 2 ^ 32) -> Forall (master_plain off) gs ->
  Forall WriterProofs.plain ops1 -> Forall WriterProofs.plain ops2 ->
  let all := WriterProofs.wsaves ops1 ++ WriterProofs.wsaves ops2 in
  Forall (xcall_ok d2f gs) p -> text_samples z d2f (prepared_groups gs) p = Ok all ->
  (forall j g n, nth_error gs j = Some g -> is_vlsd g = false -> xcalls p j n <> None -> time_fits off T g (xtime p j n)) ->
  sorted_ts all -> (forall s, In s all -> T <= s_ts s + pre) -> (forall s, In s (WriterProofs.wsaves ops1) -> s_ts s <= T) ->
  0 < T -> T < 2 ^ 63 -> pre <= T ->
  (forall s, In s all -> exists s', retime d2f (d_cgs d) off T s = Ok s') /\
  exists n0, forall n, (n0 <= n)%nat ->
  let w := trun (dgroup_of d) (fun _ => false) st per (retimed d2f (d_cgs d) off) (WriterProofs.measurement ops1 T ops2 n) (winit pre trim) in
  forall ops, calls_ok h ops -> in_turn ops -> In k (sources ops) ->
  MeasSpec.saved k ops = u_out (w_u w) -> counters k ops = Some (u_enc (w_u w)) ->
  exists m, bind (init_meas i h) (mrun ops) = Ok m /\
  forall x, N.of_nat (length (m_file m ++ x)) < 2 ^ 63 ->
  exists enough, forall fuel, (enough <= fuel)%nat ->
  exists h' d' blocks, read_file fuel (m_file m ++ x) = Ok (id_trimmed i, h') /\
    nth_error (h_dgs h') k = Some d' /\
    (forall inflate, group_data inflate (m_file m ++ x) d' = Some (Ok blocks)) /\
    all_shown z h2d f2d d2f gs (xtimed off T gs p) (xcalls p) fuel d' blocks.
Proof.
  intros z h2d f2d d2f i h k d gs p off st per pre trim ops1 T ops2 IT IN OK Ed EG DO SM D MP P1 P2 all XO RP TF S B BT TP HT HP.
  pose proof (text_all z d2f gs all SM p XO RP) as PF.
  split.
  { pose proof (text_defined z d2f gs d all EG DO SM p XO RP off T D HT MP TF) as A. rewrite Forall_forall in A. exact A. }
  set (rt := retimed d2f (d_cgs d) off).
  assert (RK : forall T s, s_ts (rt T s) = s_ts s) by (intros T0 s; apply (rt_keeps d2f d off T0 s)).
  assert (SV : WriterProofs.wsaves (map (rt_op rt T) ops1) ++ WriterProofs.wsaves (map (rt_op rt T) ops2) = map (rt T) all)
    by (rewrite !rt_saves, <- map_app; reflexivity).
  destruct (text_timed_ok z d2f gs d all EG DO SM p XO RP off T D HT MP TF) as [TO TPL]. fold rt in TO, TPL.
  pose proof (text_timed_texts z d2f gs d all EG DO SM p XO RP off T D HT MP TF) as TS. fold rt in TS.
  assert (TSM : forall s, In s (map (rt T) all) -> s_ts s < 2 ^ 64 /\ T <= s_ts s + pre).
  { intros s I. apply in_map_iff in I. destruct I as (s0 & <- & I). rewrite RK. split; [|apply B; exact I].
    rewrite Forall_forall in PF. destruct (PF s0 I) as (? & ? & _ & _ & _ & _ & _ & _ & L).
    change (2 ^ 63) with 9223372036854775808 in L. change (2 ^ 64) with 18446744073709551616. lia. }
  destruct (QueueProps.C25_stored_partial (dgroup_of d) (fun _ => false) st per pre trim (map (rt_op rt T) ops1) T (map (rt_op rt T) ops2) DO) as (n0 & N0);
    try (apply rt_plain; assumption); rewrite ?SV; auto.
  - apply BulkProofs3.sorted_map; auto.
  - intros s I. apply (TSM s I).
  - intros s I. rewrite rt_saves in I. apply in_map_iff in I. destruct I as (s0 & <- & I). rewrite RK. apply BT. exact I.
  - change (2 ^ 63) with 9223372036854775808 in HT. change (2 ^ 64) with 18446744073709551616. lia.
  - exists n0. intros n L w ops CO TU K ES EC.
    destruct (N0 n L) as (_ & _ & SH & G & EM). rewrite SV in SH. clear N0.
    destruct (timed_same rt T (RK T) (dgroup_of d) (fun _ => false) st per pre trim ops1 ops2 n P1 P2) as [(_ & _ & E3 & E4 & E5) _].
    fold w in E3, E4, E5.
    set (y := wrun (dgroup_of d) (fun _ => false) st per (WriterProofs.measurement (map (rt_op rt T) ops1) T (map (rt_op rt T) ops2) n) (winit pre trim)) in *.
    assert (GN : u_gone (w_u y) = []).
    { destruct (u_gone (w_u y)) as [|x r] eqn:E; auto. exfalso.
      assert (X : s_ts x + pre < T) by (apply G; left; auto).
      assert (Hx : In x (map (rt T) all)).
      { clear - SH. remember (x :: r) as b eqn:Eb.
        assert (KK : forall a b c : list sample, QueueSpec.shuffle a b c -> forall y, In y b -> In y c).
        { intros a b0 c Hs. induction Hs; intros v Hy; [destruct Hy|right; auto|].
          destruct Hy as [->|Hy]; [left; auto|right; auto]. }
        apply (KK _ _ _ SH). rewrite Eb. left; auto. }
      destruct (TSM x Hx). lia. }
    rewrite GN in SH. assert (SH' : u_log (w_u y) = map (rt T) all).
    { clear - SH. remember [] as v eqn:Ez. revert SH. generalize (map (rt T) all). intros c SH.
      induction SH; auto; [f_equal; auto|discriminate]. }
    rewrite SH', <- E3, <- E4, <- ES in EM.
    eapply file_texts; eauto.
Qed.
