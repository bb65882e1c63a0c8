(** A CAN bus log in a file and its reader. *)
From Verif Require Import Base BlockModel ConvModel CcModel StreamModel StreamSpec StreamProofs StreamProps StreamExtra ChannelModel ChannelSpec QueueModel QueueSpec EncProofs BusModel BusSpec CanModel CanSpec SortModel SortSpec SortProofs2 SortProps
  IdentModel IdentSpec MetaModel MetaSpec MeasModel MeasSpec MeasProofs4 MeasProofs5 MeasStream MeasProps ValueModel ValueSpec ValueProofs ValueProofs2 BusLogModel BusLogSpec BusLogProofs BusLogProofs2 BusLogProofs3.
Local Open Scope N_scope.
Local Open Scope list_scope.

(** All events of a reader of the file, for the samples of a save. *)
Lemma file_events : forall i h ops k d l e, id_texts i -> id_numbers i -> hd_ok h -> calls_ok h ops -> in_turn ops ->
  nth_error (h_dgs h) k = Some d -> StreamSpec.dg_ok (dgroup_of d) -> In k (sources ops) ->
  Forall (sample_ok (dgroup_of d)) l ->
  EncProofs.emitted (dgroup_of d) none l (MeasSpec.saved k ops) e -> counters k ops = Some e ->
  exists m, bind (init_meas i h) (mrun ops) = Ok m /\
  forall x, N.of_nat (length (m_file m ++ x)) < 2 ^ 63 ->
  exists enough, forall fuel, (enough <= fuel)%nat ->
  exists h' p blocks, let d' := dg_form (dg_after ops k p d) in let recs := records_of (dgroup_of d) none l in
    read_file fuel (m_file m ++ x) = Ok (id_trimmed i, h') /\
    nth_error (h_dgs h') k = Some d' /\
    (forall inflate, group_data inflate (m_file m ++ x) d' = Some (Ok blocks)) /\
    N.of_nat (length (stream (dgroup_of d) recs)) < 2 ^ 63 /\
    Forall (rec_ok (dgroup_of d)) recs /\
    (forall id, In id (map g_record (d_cgs d)) -> nof_of (dgroup_of d') id = occ id recs /\ w64 (e_cnt e id) = occ id recs) /\
    forall sub, read_data (dgroup_of d') sub (fun _ => true) fuel blocks = Some (Ok (expected (dgroup_of d') sub [] recs)).
Proof.
  intros i h ops k d l e IT IN OK CO TU Ed DO K F EM EC.
  destruct (C69_file i h ops IT IN OK CO TU) as (m & E & R). exists m. split; [exact E|]. intros x LX.
  destruct (R x LX) as [n RF]. clear R.
  destruct (emitted_parts _ _ _ _ _ DO EM) as (E1 & E2 & E3 & E4).
  exists (n + S (length (MeasSpec.saved k ops)))%nat. intros fuel LF.
  destruct (RF fuel ltac:(lia)) as (h' & EF & _ & _ & _ & DG). destruct (DG k d Ed) as (p & Ek & GD & _). clear DG RF.
  cbv zeta in Ek, GD. exists h', p, [MeasSpec.saved k ops]. intros d' recs. fold d' in Ek, GD. fold recs in E1, E2, E3.
  assert (LS : N.of_nat (length (MeasSpec.saved k ops)) < 2 ^ 63).
  { destruct (run_inv i h ops OK CO TU) as (m' & hk & W & T & b & E' & I). rewrite E in E'. injection E' as <-.
    destruct (iv_dt _ _ _ _ _ _ _ _ _ _ _ _ I k K) as (bk & _ & _ & _ & _ & _ & [HB _]). rewrite dt_bytes_length in HB.
    rewrite app_length in LX. lia. }
  split; [exact EF|]. split; [exact Ek|]. split; [intros inflate; apply GD; exact K|]. split; [rewrite <- E1; exact LS|]. split; [exact E2|]. split.
  - intros id Hi. assert (X : w64 (e_cnt e id) = occ id recs).
    { rewrite E3. unfold w64. apply N.mod_small.
      pose proof (MeasStream.occ_bytes _ _ id DO E2) as OB. rewrite <- E1 in OB. change (2 ^ 63) with 9223372036854775808 in LS.
      change (2 ^ 64) with 18446744073709551616. lia. }
    split; [|exact X]. unfold d'. rewrite (counted_nof ops k p d e EC); [exact X|].
    cbn [dgroup_of StreamModel.d_groups]. rewrite map_map. exact Hi.
  - intros sub. assert (AL : alike (dgroup_of d) (dgroup_of d')) by apply alike_after.
    destruct recs as [|r0 t0] eqn:ER.
    { rewrite E1. cbn [map stream concat expected]. destruct fuel as [|fuel]; [lia|]. unfold read_data.
      cbn [concat app length read_loop]. unfold parse_record. destruct (StreamModel.d_groups (dgroup_of d')) as [|g gl]; reflexivity. }
    rewrite <- ER in *. rewrite (read_complete (dgroup_of d') sub (fun _ => true) recs [MeasSpec.saved k ops] fuel).
    + f_equal. f_equal. apply upto_true.
    + eapply alike_ok; eauto.
    + eapply Forall_impl; [|exact E2]. intros r. apply alike_rec. exact AL.
    + constructor; [|constructor]. intros Z. rewrite Z, ER in E1. rewrite ER in E2.
      inversion E2 as [|? ? R1 R2]; subst. pose proof (enc_rec_pos _ r0 DO R1) as PO.
      change (stream (dgroup_of d) (r0 :: t0)) with (enc_rec (dgroup_of d) r0 ++ stream (dgroup_of d) t0) in E1.
      destruct (enc_rec (dgroup_of d) r0); [cbn in PO; lia|discriminate E1].
    + cbn [concat]. rewrite app_nil_r, (alike_stream _ _ _ AL). exact E1.
    + rewrite (alike_stream _ _ _ AL), <- E1. lia.
Qed.

(* ------------------------------------------------------------------ *)
(** ** The samples of a log *)

(** Sample [s] belongs to call [o]; [tb] are the time bytes of the samples. *)
Definition made_call (d : dg) (logs : list clog) (tb : clog -> N -> list N) (o : bcall) (s : sample) : Prop :=
  match o with
  | BMsg k ts m => exists c t, nth_error logs k = Some c /\ log_ok d c t /\ message_ok c m /\ made c t (tb c ts) ts m s
  | BOther _ => ~ In (s_id s) (map lg_id logs) /\ sample_ok (dgroup_of d) s
  end.

Lemma kind_one : forall d c t t', log_ok d c t -> group_kind (lg_name c) = Some t' -> t' = t.
Proof. intros d c t t' LO E. pose proof (lo_kind _ _ _ LO) as X. congruence. Qed.

Section Log.
Context (d : dg) (logs : list clog) (tb : clog -> N -> list N) (p : list bcall) (l : list sample).
Context (LK : logs_ok d logs) (TB : forall c ts, In c logs -> length (tb c ts) = 8%nat /\ bytes_ok (tb c ts)) (ML : Forall2 (made_call d logs tb) p l).

Lemma made_ok : Forall (sample_ok (dgroup_of d)) l.
Proof.
  clear LK. induction ML as [|o s p' l' M F IH]; constructor; [|apply IH; exact F]. destruct o as [k ts m|s']; [|apply M].
  destruct M as (c & t & N0 & LO & MO & MA). destruct (TB c ts (nth_error_In _ _ N0)) as [T1 T2]. eapply made_sample; eauto.
Qed.

Lemma made_mine : forall k c t, nth_error logs k = Some c -> log_ok d c t ->
  Forall2 (fun q s => message_ok c (snd q) /\ made c t (tb c (fst q)) (fst q) (snd q) s) (messages k p) (mine (lg_id c) l).
Proof.
  intros k c t Kc LO. destruct LK as [ND _]. clear LK. induction ML as [|o s p' l' M F IH]; [constructor|]. specialize (IH F).
  unfold messages, mine. cbn [flat_map filter]. fold (messages k p'). fold (mine (lg_id c) l'). destruct o as [j ts m|s'].
  - destruct M as (cj & tj & N0 & LO' & MO & MA). destruct (TB cj ts (nth_error_In _ _ N0)) as [T1 T2].
    destruct (made_sample d cj tj LO' _ _ _ _ T1 T2 MO MA) as (_ & _ & EI & _).
    destruct (Nat.eqb_spec j k) as [->|NE].
    + assert (cj = c) by congruence. subst cj. assert (tj = t) by (eapply kind_one; [exact LO|apply (lo_kind _ _ _ LO')]). subst tj.
      rewrite EI, N.eqb_refl. cbn [app]. constructor; auto.
    + destruct (N.eqb_spec (s_id s) (lg_id c)) as [E|E]; [|exact IH]. exfalso. apply NE.
      rewrite NoDup_nth_error in ND. apply ND; [rewrite map_length; apply nth_error_Some; congruence|].
      rewrite !nth_error_map, N0, Kc. cbn [option_map]. congruence.
  - destruct M as [NI _]. cbn [app]. destruct (N.eqb_spec (s_id s) (lg_id c)) as [E|E]; [|exact IH].
    exfalso. apply NI. rewrite E. apply in_map. eapply nth_error_In; eauto.
Qed.
End Log.

Lemma forall2_length : forall {A B} (R : A -> B -> Prop) a b, Forall2 R a b -> length a = length b.
Proof. induction 1; cbn [length]; congruence. Qed.
Lemma forall2_nth : forall {A B} (R : A -> B -> Prop) a b, Forall2 R a b -> forall n,
  match nth_error a n, nth_error b n with Some x, Some y => R x y | None, None => True | _, _ => False end.
Proof. induction 1 as [|x y a b H F IH]; intros [|n]; cbn [nth_error]; auto. apply IH. Qed.
Lemma numbered_two : forall {A B C} (R : A -> B -> Prop) (f : A -> C) a b n, Forall2 R a b ->
  Forall2 (fun x y => fst x = fst y /\ exists z, snd x = f z /\ R z (snd y)) (map (fun q => (fst q, f (snd q))) (numbered_from n a)) (numbered_from n b).
Proof.
  intros A B C R f a b n F. revert n. induction F as [|x y a b H F IH]; intros n; cbn [numbered_from map]; constructor; auto.
  cbn [fst snd]. split; [reflexivity|]. exists x. auto.
Qed.
Lemma occ_pairs : forall main v ps, main <> v -> occ main (flat_map (pair_recs main v) ps) = N.of_nat (length ps).
Proof.
  intros main v ps H. induction ps as [|q ps IH]; [reflexivity|]. cbn [flat_map]. rewrite occ_app', IH. unfold pair_recs.
  destruct (v_first q); rewrite !occ_cons'; cbn [r_id]; rewrite N.eqb_refl; replace (v =? main) with false by lia; change (occ main []) with 0; cbn [length]; lia.
Qed.

Lemma forall2_right : forall {A B} (R : A -> B -> Prop) a b, Forall2 R a b -> forall y, In y b -> exists x, R x y.
Proof. induction 1 as [|x z a b H F IH]; intros y I; [destruct I|]. destruct I as [<-|I]; eauto. Qed.
Lemma forall2_flip : forall {A B} (R : A -> B -> Prop) a b, Forall2 R a b -> Forall2 (fun y x => R x y) b a.
Proof. induction 1; constructor; auto. Qed.
Lemma forall2_trans : forall {A B C} (R : A -> B -> Prop) (S : B -> C -> Prop) a b c, Forall2 R a b -> Forall2 S b c -> Forall2 (fun x z => exists y, R x y /\ S y z) a c.
Proof.
  intros A B C R S a b c F. revert c. induction F as [|x y a b H F IH]; intros c G; inversion G; subst; constructor; eauto.
Qed.
Lemma forall2_impl : forall {A B} (R S : A -> B -> Prop), (forall x y, R x y -> S x y) -> forall a b, Forall2 R a b -> Forall2 S a b.
Proof. induction 2; constructor; auto. Qed.
Lemma own_store : forall d c t, log_ok d c t -> read_store t (lg_st c) = SVlsd <-> in_own c t = true.
Proof.
  intros d c t LO. pose proof (lo_store _ _ _ LO) as NS. unfold read_store, in_own. destruct (has_bytes t), (lg_st c); cbn; split; congruence.
Qed.
Lemma small_index : forall a b : N, a <= b -> b < 2 ^ 63 -> a < 2 ^ 63.
Proof. intros. lia. Qed.

(** What the reader makes of the records is right. *)
Lemma log_events : forall (timed : clog -> cg -> N -> list N -> Prop) d logs tb p l e d' fuel blocks,
  StreamSpec.dg_ok (dgroup_of d) -> logs_ok d logs -> (forall c ts, In c logs -> length (tb c ts) = 8%nat /\ bytes_ok (tb c ts)) -> Forall2 (made_call d logs tb) p l ->
  (forall c t g ts rec, In c logs -> log_ok d c t -> In (prepare_cg g) (d_cgs d) -> MeasModel.is_vlsd g = false ->
     map bare_cn (g_cns g) = can_cns t (lg_mand c) (lg_st c) (lg_max c) -> bytes_ok rec -> length rec = can_size t (lg_mand c) (lg_st c) (lg_max c) ->
     firstn 8 rec = tb c ts -> timed c (in_file (Some e) g) ts rec) ->
  (exists ix lk md, d' = dg_form (mkDg ix md lk (map (counted (Some e)) (d_cgs d)))) ->
  let recs := records_of (dgroup_of d) none l in
  N.of_nat (length (stream (dgroup_of d) recs)) < 2 ^ 63 -> Forall (rec_ok (dgroup_of d)) recs ->
  (forall id, In id (map g_record (d_cgs d)) -> nof_of (dgroup_of d') id = occ id recs /\ w64 (e_cnt e id) = occ id recs) ->
  (forall sub, read_data (dgroup_of d') sub (fun _ => true) fuel blocks = Some (Ok (expected (dgroup_of d') sub [] recs))) ->
  log_shown timed logs p fuel d' blocks.
Proof.
  intros timed d logs tb p l e d' fuel blocks DO LK TB ML TI (ix & lk & md & Ed') recs LS RO CNT RD k c t Kc KT.
  assert (Ic : In c logs) by (eapply nth_error_In; eauto).
  destruct LK as [ND LK0]. destruct (LK0 c Ic) as [t' LO].
  assert (t = t') by (eapply kind_one; eauto). subst t'. pose proof (conj ND LK0 : logs_ok d logs) as LK. clear LK0.
  pose proof (made_ok d logs tb p l TB ML) as SO. pose proof (made_mine d logs tb p l LK TB ML k c t Kc LO) as MM.
  destruct (lo_group _ _ _ LO) as (g & G1 & G2 & G3 & G4 & G5). destruct (prepared g G2) as (_ & ER & V' & _).
  assert (EN : g_name (prepare_cg g) = g_name g).
  { unfold prepare_cg. rewrite G2. destruct (prepare_group (chans_of g)) as [[? ?] ?]. reflexivity. }
  assert (IR : In (lg_id c) (map g_record (d_cgs d))) by (rewrite <- G3, <- ER; apply in_map; exact G1).
  destruct (CNT _ IR) as [C1 C2].
  set (gm := MeasModel.group_of (prepare_cg g)).
  assert (IM : In gm (d_groups (dgroup_of d))) by (cbn [dgroup_of StreamModel.d_groups]; apply in_map; exact G1).
  assert (EM : g_id gm = lg_id c) by (unfold gm; cbn [MeasModel.group_of StreamModel.g_id]; congruence).
  assert (VM : g_vlsd gm = false) by exact V'.
  assert (HAS : forall s, In s l -> s_id s = lg_id c -> s_has s = in_own c t).
  { intros s Is Es. assert (Im : In s (mine (lg_id c) l)) by (unfold mine; apply filter_In; split; [exact Is|lia]).
    destruct (forall2_right _ _ _ MM s Im) as (q & MO & MA). destruct (TB c (fst q) Ic) as [T1 T2].
    destruct (made_sample d c t LO _ _ _ _ T1 T2 MO MA) as (_ & _ & _ & H & _). exact H. }
  set (g' := in_file (Some e) g).
  assert (RG : g_record g' = lg_id c) by (unfold g', in_file; cbn [cg_form counted g_record]; congruence).
  assert (DEC : forall q s idx, (message_ok c (snd q) /\ made c t (tb c (fst q)) (fst q) (snd q) s) ->
     (in_own c t = true -> idx + 4 + N.of_nat (length (s_vbuf s)) < 2 ^ 63) ->
     let rec := if in_own c t then patch_index (s_rec s) idx else s_rec s in
     decoded c t g' (snd q) (rec, if in_own c t then s_vbuf s else []) /\ timed c g' (fst q) rec).
  { intros q s idx [MO MA] LI rec. destruct (TB c (fst q) Ic) as [T1 T2].
    destruct (made_sample d c t LO _ _ _ _ T1 T2 MO MA) as (_ & _ & _ & HH & HV & HL & DE). rewrite HV in *.
    assert (X : exists idx', idx' + 4 + N.of_nat (length (can_data (snd q))) < 2 ^ 63 /\ rec = if in_own c t then patch_index (s_rec s) idx' else s_rec s).
    { unfold rec. destruct (in_own c t); [exists idx; auto|]. exists 0. split; [|reflexivity].
      destruct MO as (_ & _ & L & _). change (2 ^ 32) with 4294967296 in L. change (2 ^ 63) with 9223372036854775808. lia. }
    destruct X as (idx' & L & ->). destruct (DE idx' L) as (D1 & D2 & D3 & m' & D4 & D5). split.
    - exists m'. split; [|exact D5]. cbn [fst snd]. unfold g'. rewrite (parsed_alike (Some e) g t (lg_mand c) (lg_st c) (lg_max c)) by auto.
      destruct (in_own c t); exact D4.
    - apply (TI c t g (fst q)); auto. }
  assert (FC : forall (sub : N -> bool) (F : N -> bool), (forall id, F id = true -> sub id = true /\ In id (map g_record (d_cgs d))) ->
     filter (fun ev => F (e_id ev)) (expected (dgroup_of d') sub [] recs) = events_from [] (filter (fun r => F (r_id r)) recs)).
  { intros sub F HF. rewrite (expected_filter (dgroup_of d') sub F recs []); [reflexivity|intros id X; apply HF; exact X|].
    intros r _ X. destruct (CNT (r_id r)) as [Y _]; [apply HF; exact X|]. rewrite Y. cbn [app]. lia. }
  assert (BND : occ (lg_id c) recs < 2 ^ 63).
  { pose proof (MeasStream.occ_bytes (dgroup_of d) recs (lg_id c) DO) as OB. eapply N.le_lt_trans; [apply OB; exact RO|exact LS]. }
  destruct (in_own c t) eqn:OW.
  - (* values in a group of their own *)
    pose proof (proj2 (own_store d c t LO) OW) as RS. destruct (lo_value _ _ _ LO RS) as (gvc & W1 & W2 & W3).
    set (gv := MeasModel.group_of gvc).
    assert (IV : In gv (d_groups (dgroup_of d))) by (cbn [dgroup_of StreamModel.d_groups]; apply in_map; exact W1).
    assert (EV : g_id gv = w64 (lg_id c + 1)) by exact W3.
    assert (WV : g_vlsd gv = true) by exact W2.
    destruct (recs_pairs (dgroup_of d) DO (lg_id c) gm IM EM VM gv IV W2 EV l [] SO HAS) as (ps & PF & PA). cbn [app] in PA.
    set (F := fun id => (id =? lg_id c) || (id =? g_id gv)). change (filter (fun r => F (r_id r)) recs = flat_map (pair_recs (lg_id c) (g_id gv)) ps) in PF.
    assert (NV : lg_id c <> g_id gv).
    { intros X. assert (gm = gv) by (apply (group_unique (dgroup_of d)); auto; congruence). congruence. }
    assert (OM : occ (lg_id c) recs = N.of_nat (length (messages k p))).
    { rewrite <- (occ_filter F (lg_id c) recs) by (unfold F; rewrite N.eqb_refl; reflexivity).
      rewrite PF, occ_pairs by exact NV. rewrite (forall2_length _ _ _ MM), (forall2_length _ _ _ PA). reflexivity. }
    pose proof (forall2_trans _ _ _ _ _ MM PA) as MP. apply forall2_flip in MP.
    assert (OK : Forall2 (fun v q => decoded c t g' (snd q) (v_rec v, v_val v) /\ timed c g' (fst q) (v_rec v)) ps (messages k p)).
    { eapply forall2_impl; [|exact MP]. intros v q (s & S1 & idx & -> & S2). cbn [v_rec v_val]. apply (DEC q s idx S1). intros _.
      apply (N.le_lt_trans _ _ _ S2). eapply N.le_lt_trans; [apply (values_bound (dgroup_of d) (lg_id c) gm EM (g_id gv) l [] SO)|exact LS]. }
    exists g'. split; [|split; [exact RG|split; [|split]]].
    + rewrite Ed'. cbn [dg_form d_cgs]. unfold g', in_file. apply in_map. apply in_map. exact G1.
    + unfold g', in_file. cbn [cg_form counted g_name]. congruence.
    + unfold g', in_file. cbn [cg_form counted g_samples]. replace (g_record (prepare_cg g)) with (lg_id c) by congruence. rewrite C2. exact OM.
    + intros o sub HS. exists (expected (dgroup_of d') sub [] recs). split; [apply RD|].
      assert (NO : cg_nof o = N.of_nat (length ps)).
      { unfold o, can_observer. cbn [cg_nof]. unfold g', in_file. cbn [cg_form counted g_samples].
        replace (g_record (prepare_cg g)) with (lg_id c) by congruence. rewrite C2, OM. rewrite (forall2_length _ _ _ OK). reflexivity. }
      assert (MO : cg_main o = lg_id c) by exact RG.
      assert (IO : forall id, In id (cg_ids o) <-> id = cg_main o \/ id = g_id gv).
      { intros id. rewrite MO. unfold o, can_observer. cbn [cg_ids]. rewrite RS, RG, EV. cbn [In]. intuition congruence. }
      assert (FO : filter (fun ev => (e_id ev =? cg_main o) || (e_id ev =? g_id gv)) (expected (dgroup_of d') sub [] recs)
                   = flat_map (pair_events (cg_main o) (g_id gv)) (numbered_from 0 ps)).
      { rewrite MO. change (filter (fun ev => F (e_id ev)) (expected (dgroup_of d') sub [] recs) = flat_map (pair_events (lg_id c) (g_id gv)) (numbered_from 0 ps)). rewrite (FC sub F).
        - rewrite PF. rewrite events_pairs; auto.
        - intros id X. unfold F in X. split; [apply HS, IO; rewrite MO; lia|]. assert (id = lg_id c \/ id = g_id gv) as [-> | ->] by lia; [exact IR|].
          rewrite EV, <- W3. apply in_map. exact W1. }
      assert (NB : N.of_nat (length ps) <= cg_nof o /\ cg_nof o < 2 ^ 63).
      { rewrite NO. split; [lia|]. rewrite (forall2_length _ _ _ OK), <- OM. exact BND. }
      destruct NB as [NB1 NB2].
      split.
      * intros answer. destruct (C60_can_callback_partial answer o (g_id gv) ps _ IO ltac:(congruence) RS NB1 NB2 FO) as (s & S1 & S2).
        exists s. split; [exact S1|]. rewrite S2.
        eapply forall2_impl; [|apply (numbered_two _ (fun v => (v_rec v, v_val v)) _ _ 0 OK)].
        intros x y (A1 & z & A2 & A3 & A4). split; [exact A1|]. rewrite A2. cbn [fst]. auto.
      * destruct (C60_can_buffer_partial o (g_id gv) ps _ IO ltac:(congruence) RS NB1 NB2 FO) as (s & S1 & S2).
        exists s. split; [exact S1|]. intros n. rewrite S2, Nat2N.id. pose proof (forall2_nth _ _ _ OK n) as X.
        destruct (nth_error ps n) as [v|], (nth_error (messages k p) n) as [q|]; try (destruct X; fail); [|reflexivity].
        cbn [option_map]. exists (v_rec v, v_val v). cbn [fst snd]. split; [reflexivity|exact X].
  - (* values in the record or none *)
    assert (RS : read_store t (lg_st c) <> SVlsd) by (intros X; apply (own_store d c t LO) in X; congruence).
    pose proof (recs_fixed (dgroup_of d) DO (lg_id c) gm IM EM VM l [] SO HAS) as PF.
    change (filter (fun r => r_id r =? lg_id c) recs = map (fun s => Rec (lg_id c) (s_rec s)) (mine (lg_id c) l)) in PF.
    assert (OM : occ (lg_id c) recs = N.of_nat (length (messages k p))).
    { unfold occ. rewrite PF, map_length, (forall2_length _ _ _ MM). reflexivity. }
    apply forall2_flip in MM.
    assert (OK : Forall2 (fun r q => decoded c t g' (snd q) (r, []) /\ timed c g' (fst q) r) (map s_rec (mine (lg_id c) l)) (messages k p)).
    { clear - MM DEC. induction MM as [|s q a b H F IH]; cbn [map]; constructor; auto. apply (DEC q s 0 H). discriminate. }
    set (rs := map s_rec (mine (lg_id c) l)) in *.
    exists g'. split; [|split; [exact RG|split; [|split]]].
    + rewrite Ed'. cbn [dg_form d_cgs]. unfold g', in_file. apply in_map. apply in_map. exact G1.
    + unfold g', in_file. cbn [cg_form counted g_name]. congruence.
    + unfold g', in_file. cbn [cg_form counted g_samples]. replace (g_record (prepare_cg g)) with (lg_id c) by congruence. rewrite C2. exact OM.
    + intros o sub HS. exists (expected (dgroup_of d') sub [] recs). split; [apply RD|].
      assert (NO : cg_nof o = N.of_nat (length rs)).
      { unfold o, can_observer. cbn [cg_nof]. unfold g', in_file. cbn [cg_form counted g_samples].
        replace (g_record (prepare_cg g)) with (lg_id c) by congruence. rewrite C2, OM. rewrite (forall2_length _ _ _ OK). reflexivity. }
      assert (MO : cg_main o = lg_id c) by exact RG.
      assert (IO : forall id, In id (cg_ids o) <-> id = cg_main o).
      { intros id. rewrite MO. unfold o, can_observer. cbn [cg_ids]. rewrite RG. destruct (read_store t (lg_st c)); try congruence; cbn [In]; intuition congruence. }
      assert (FO : filter (fun ev => e_id ev =? cg_main o) (expected (dgroup_of d') sub [] recs) = map (fun q => Ev (fst q) (cg_main o) (snd q)) (numbered_from 0 rs)).
      { rewrite MO. rewrite (FC sub (fun id => id =? lg_id c)).
        - rewrite PF. rewrite (events_one (lg_id c)).
          + rewrite map_map. reflexivity.
          + clear. induction (mine (lg_id c) l); cbn [map]; constructor; auto.
        - intros id X. assert (id = lg_id c) as -> by lia. split; [apply HS, IO; congruence|exact IR]. }
      assert (NB : N.of_nat (length rs) <= cg_nof o /\ cg_nof o < 2 ^ 63).
      { rewrite NO. split; [lia|]. rewrite (forall2_length _ _ _ OK), <- OM. exact BND. }
      destruct NB as [NB1 NB2].
      destruct (C60_can_fixed (fun _ => true) o rs _ IO RS NB1 NB2 FO) as [_ S9].
      split.
      * intros answer. destruct (C60_can_fixed answer o rs _ IO RS NB1 NB2 FO) as [(s & S1 & S2) _].
        exists s. split; [exact S1|]. rewrite S2.
        eapply forall2_impl; [|apply (numbered_two _ (fun r => (r, @nil N)) _ _ 0 OK)].
        intros x y (A1 & z & A2 & A3 & A4). split; [exact A1|]. rewrite A2. cbn [fst]. auto.
      * destruct S9 as (s & S1 & S2). exists s. split; [exact S1|]. intros n. rewrite S2, Nat2N.id. pose proof (forall2_nth _ _ _ OK n) as X.
        destruct (nth_error rs n) as [v|], (nth_error (messages k p) n) as [q|]; try (destruct X; fail); [|reflexivity].
        cbn [option_map]. exists (v, []). cbn [fst snd]. split; [reflexivity|exact X].
Qed.
