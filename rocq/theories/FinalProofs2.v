(** Proofs about finalization, the whole file. *)
From Verif Require Import Base StreamModel StreamSpec StreamProofs StreamProofs2 BlockModel BlockSpec BlockProofs
  FinalModel FinalSpec FinalProofs.
From Coq Require Import Lia.
Local Open Scope N_scope.

Lemma split_last_app : forall (A : Type) (l : list A) x, split_last (l ++ [x]) = Some (l, x).
Proof. intros. unfold split_last. rewrite rev_app_distr. cbn [rev app]. rewrite rev_involutive. reflexivity. Qed.

Lemma update_groups_map : forall uc uv cnt l seen, NoDup (map g_id l) ->
  (forall g, In g l -> ~ In (g_id g) seen) ->
  update_groups uc uv cnt seen l = map (update_group uc uv cnt) l.
Proof.
  induction l as [|g r IH]; intros seen ND NS; cbn [update_groups map]; auto.
  inversion ND as [|x y N1 N2]; subst. f_equal.
  - destruct (existsb (N.eqb (g_id g)) seen) eqn:E; auto. apply existsb_exists in E as (i & I1 & I2).
    apply N.eqb_eq in I2. subst i. exfalso. apply (NS g); [left; auto|auto].
  - apply IH; auto. intros h IN [X|X].
    + apply N1. rewrite X. apply in_map. auto.
    + apply (NS h); [right; auto|auto].
Qed.

Lemma split32 : forall v, v / 2 ^ 32 * 2 ^ 32 + v mod 2 ^ 32 = v.
Proof. intros. pose proof (N.div_mod v (2 ^ 32) ltac:(discriminate)). lia. Qed.

Lemma update_counted : forall uc uv cnt g s b, cnt (g_id g) = (w64 s, w64 b) ->
  g_nof g + s < 2 ^ 64 -> vlsd_total g + b < 2 ^ 64 ->
  counted uc uv s b g (update_group uc uv cnt g).
Proof.
  intros uc uv cnt g s b E A B. unfold update_group. rewrite E.
  assert (S : w64 s = s) by (apply N.mod_small; lia). assert (T : w64 b = b) by (apply N.mod_small; lia).
  rewrite S, T. 
  assert (NOF : (if uc then w64 (g_nof g + s) else g_nof g) = if uc then g_nof g + s else g_nof g)
    by (destruct uc; auto; apply N.mod_small; lia).
  rewrite NOF. destruct (uv && g_vlsd g) eqn:C.
  - apply andb_true_iff in C as [-> C]. rewrite C.
    constructor; cbn [g_id g_vlsd g_nof g_data g_inval]; auto; try congruence. intros _.
    unfold vlsd_total. cbn [g_data g_inval]. rewrite N.shiftl_mul_pow2.
    change 4294967295 with (N.ones 32). rewrite N.land_ones, N.shiftr_div_pow2, split32.
    unfold vlsd_total in B. apply N.mod_small. exact B.
  - constructor; cbn [g_id g_vlsd g_nof g_data g_inval]; auto. intros V. rewrite V in C.
    destruct uv; [discriminate|]. reflexivity.
Qed.

(** The last data group after finalization. *)
Definition after (d : dgroup) (uc uv : bool) (cnt : counters) : dgroup :=
  mkDg (d_idsize d) (map (update_group uc uv cnt) (d_groups d)).

Lemma finalize_run : forall m before d bs pos len f fuel,
  open_file m before d bs pos len -> N.testbit (m_flags m) 0 = true -> dg_ok d ->
  let flags := N.testbit (m_flags m) in
  let len' := if flags 2 then update_dt f pos len else len in
  let uv := flags 5 || flags 6 in
  finalize_file f fuel m =
  match count_loop d f (dt_size len') fuel pos 0 (fun _ => (0, 0)) with
  | Some (Ok cnt) => Some (Ok (negb (flags 4) && negb (flags 3) && negb (flags 1),
      mkM false (m_flags m) (before ++ [mkF (after d true uv cnt) (bs ++ [FDt pos len'])])))
  | Some Fail => Some Fail
  | Some UB => Some UB
  | None => None
  end.
Proof.
  intros m before d bs pos len f fuel (O1 & O2) B0 H. cbv zeta. unfold finalize_file.
  rewrite O1, O2, split_last_app, B0. cbn [orb].
  destruct (N.eqb_spec (m_flags m) 0) as [Z|Z]; [rewrite Z in B0; discriminate|].
  set (g := if N.testbit (m_flags m) 2 then finalize_dt f (mkF d (bs ++ [FDt pos len])) else mkF d (bs ++ [FDt pos len])).
  set (len' := if N.testbit (m_flags m) 2 then update_dt f pos len else len).
  assert (G : g = mkF d (bs ++ [FDt pos len'])).
  { unfold g, len'. destruct (N.testbit (m_flags m) 2); auto. unfold finalize_dt. cbn [f_blocks f_dg]. rewrite split_last_app. reflexivity. }
  rewrite G. unfold finalize_cg. cbn [f_blocks f_dg]. rewrite split_last_app.
  pose proof (dg_some _ H) as NE. unfold after.
  assert (UG : forall cnt, update_groups true (N.testbit (m_flags m) 5 || N.testbit (m_flags m) 6) cnt [] (d_groups d)
               = map (update_group true (N.testbit (m_flags m) 5 || N.testbit (m_flags m) 6) cnt) (d_groups d))
    by (intros; apply update_groups_map; [apply H|intros ? ? []]).
  destruct (d_groups d) as [|x y] eqn:DG; [contradiction|].
  destruct (count_loop d f (dt_size len') fuel pos 0 (fun _ => (0, 0))) as [[cnt| |]|]; try reflexivity.
  rewrite UG. reflexivity.
Qed.

Lemma Forall2_map_r : forall (A B : Type) (R : A -> B -> Prop) (h : A -> B) l,
  (forall x, In x l -> R x (h x)) -> Forall2 R l (map h l).
Proof.
  induction l as [|x l IH]; intros H; cbn [map]; constructor; [apply H; left; auto|].
  apply IH. intros. apply H. right. auto.
Qed.

Lemma after_counted : forall d uv cnt recs, dg_ok d -> fits d recs ->
  (forall i, cnt i = (w64 (occ i recs), w64 (added d i recs))) ->
  Forall2 (fun g g' => counted true uv (occ (g_id g) recs) (payload_bytes (g_id g) recs + 4 * occ (g_id g) recs) g g')
    (d_groups d) (d_groups (after d true uv cnt)).
Proof.
  intros d uv cnt recs H F C. unfold after. cbn [d_groups]. apply Forall2_map_r. intros g IN.
  destruct (F g IN) as [F1 F2].
  assert (AD : added d (g_id g) recs = payload_bytes (g_id g) recs + if g_vlsd g then 4 * occ (g_id g) recs else 0)
    by (unfold added; rewrite (vlsd_id_in d g H IN); reflexivity).
  destruct (g_vlsd g) eqn:V.
  - apply update_counted; [rewrite C, AD; reflexivity|auto|lia].
  - assert (X : counted true uv (occ (g_id g) recs) (payload_bytes (g_id g) recs + 0) g (update_group true uv cnt g))
      by (apply update_counted; [rewrite C, AD; reflexivity|auto|lia]).
    destruct X. constructor; auto. congruence.
Qed.

Lemma dt_size_len : forall n, dt_size (24 + N.of_nat n) = N.of_nat n.
Proof. intros. unfold dt_size. destruct (N.ltb_spec 24 (24 + N.of_nat n)); lia. Qed.

Lemma update_dt_stream : forall pre x len, x <> [] \/ len <= 24 ->
  dt_size (update_dt (pre ++ x) (length pre) len) = N.of_nat (length x).
Proof.
  intros pre x len H. unfold update_dt. rewrite app_length.
  destruct (Nat.ltb_spec (length pre) (length pre + length x)) as [C|C].
  - rewrite dt_size_len. lia.
  - destruct x; [|cbn [length] in C; lia]. destruct H as [H|H]; [contradiction|].
    unfold dt_size. destruct (N.ltb_spec 24 len); [lia|reflexivity].
Qed.

Lemma dt_bytes_stream : forall pre x len, x <> [] \/ len <= 24 ->
  dt_bytes (pre ++ x) (length pre) (update_dt (pre ++ x) (length pre) len) = x.
Proof.
  intros pre x len H. unfold dt_bytes. rewrite update_dt_stream by auto. rewrite Nat2N.id. unfold slice.
  rewrite skipn_app, skipn_all, Nat.sub_diag. cbn [skipn app]. apply firstn_all.
Qed.

Lemma finalize_complete : forall m before d bs len pre recs fuel,
  open_file m before d bs (length pre) len -> N.testbit (m_flags m) 0 = true -> N.testbit (m_flags m) 2 = true ->
  dg_ok d -> Forall (rec_ok d) recs -> (recs <> [] \/ len <= 24) -> fits d recs ->
  (length (stream d recs) < fuel)%nat ->
  let flags := N.testbit (m_flags m) in
  exists d' len', finalize_file (pre ++ stream d recs) fuel m =
    Some (Ok (negb (flags 4) && negb (flags 3) && negb (flags 1),
              mkM false (m_flags m) (before ++ [mkF d' (bs ++ [FDt (length pre) len'])]))) /\
    dt_bytes (pre ++ stream d recs) (length pre) len' = stream d recs /\
    d_idsize d' = d_idsize d /\
    Forall2 (fun g g' => counted true (flags 5 || flags 6) (occ (g_id g) recs)
                           (payload_bytes (g_id g) recs + 4 * occ (g_id g) recs) g g') (d_groups d) (d_groups d').
Proof.
  intros m before d bs len pre recs fuel O B0 B2 H F NE FT L flags.
  assert (NE' : stream d recs <> [] \/ len <= 24).
  { destruct NE as [NE|NE]; auto. left. intros X. pose proof (stream_len_ge d recs H F) as G. rewrite X in G.
    destruct recs; [contradiction|cbn in G; lia]. }
  pose proof (finalize_run m before d bs (length pre) len (pre ++ stream d recs) fuel O B0 H) as R. cbv zeta in R.
  rewrite B2, update_dt_stream in R by auto.
  destruct (count_complete d pre recs fuel H F L) as (cnt & C1 & C2). rewrite C1 in R.
  eexists _, _. split; [exact R|]. split; [apply dt_bytes_stream; auto|]. split; [reflexivity|].
  apply after_counted; auto.
Qed.

Lemma finalize_cut : forall m before d bs len pre recs r tail rest fuel,
  open_file m before d bs (length pre) len -> N.testbit (m_flags m) 0 = true -> N.testbit (m_flags m) 2 = true ->
  dg_ok d -> Forall (rec_ok d) recs -> rec_ok d r -> enc_rec d r = tail ++ rest -> tail <> [] -> rest <> [] ->
  fits d (recs ++ [r]) -> (length (stream d recs ++ tail) < fuel)%nat ->
  let flags := N.testbit (m_flags m) in
  if (length tail <? header_bytes d (r_id r))%nat
  then finalize_file (pre ++ stream d recs ++ tail) fuel m = Some Fail
  else exists d' len', finalize_file (pre ++ stream d recs ++ tail) fuel m =
    Some (Ok (negb (flags 4) && negb (flags 3) && negb (flags 1),
              mkM false (m_flags m) (before ++ [mkF d' (bs ++ [FDt (length pre) len'])]))) /\
    dt_bytes (pre ++ stream d recs ++ tail) (length pre) len' = stream d recs ++ tail /\
    d_idsize d' = d_idsize d /\
    Forall2 (fun g g' => counted true (flags 5 || flags 6) (occ (g_id g) (recs ++ [r]))
       (payload_bytes (g_id g) (recs ++ [r]) + 4 * occ (g_id g) (recs ++ [r])) g g') (d_groups d) (d_groups d').
Proof.
  intros m before d bs len pre recs r tail rest fuel O B0 B2 H F R E T1 T2 FT L flags.
  assert (NE' : stream d recs ++ tail <> [] \/ len <= 24).
  { left. intros X. apply app_eq_nil in X as [_ X]. contradiction. }
  pose proof (finalize_run m before d bs (length pre) len (pre ++ stream d recs ++ tail) fuel O B0 H) as RN. cbv zeta in RN.
  rewrite B2, update_dt_stream in RN by auto.
  pose proof (count_cut d pre recs r tail rest fuel H F R E T1 T2 L) as C. cbv zeta in C.
  destruct (length tail <? header_bytes d (r_id r))%nat.
  - rewrite C in RN. exact RN.
  - destruct C as (cnt & C1 & C2). rewrite C1 in RN.
    eexists _, _. split; [exact RN|]. split; [apply dt_bytes_stream; auto|]. split; [reflexivity|].
    apply after_counted; auto.
Qed.

(* ------------------------------------------------------------------ *)
(** ** Reading afterwards *)

Section Lists.
Variable uv : bool.
Variables (s b : N -> N).
Let R := fun g g' => counted true uv (s (g_id g)) (b (g_id g)) g g'.

Lemma ids_list : forall l l', Forall2 R l l' -> map g_id l' = map g_id l.
Proof. intros l l' C. induction C as [|g g' l l' H _ IH]; cbn [map]; auto. rewrite IH, (cd_id _ _ _ _ _ _ H). reflexivity. Qed.

Lemma vlsd_list : forall id l l', Forall2 R l l' ->
  existsb (fun g => (g_id g =? id) && g_vlsd g) l' = existsb (fun g => (g_id g =? id) && g_vlsd g) l.
Proof.
  intros id l l' C. induction C as [|g g' l l' H _ IH]; cbn [existsb]; auto.
  rewrite IH, (cd_id _ _ _ _ _ _ H), (cd_vlsd _ _ _ _ _ _ H). reflexivity.
Qed.

Lemma left_list : forall l l', Forall2 R l l' -> forall g', In g' l' -> exists g, In g l /\ R g g'.
Proof.
  intros l l' C. induction C as [|g g0 l l' H _ IH]; intros g' []; subst.
  - exists g. split; [left; auto|auto].
  - destruct (IH g' H0) as (x & X1 & X2). exists x. split; [right; auto|auto].
Qed.

Lemma right_list : forall l l', Forall2 R l l' -> forall g, In g l -> exists g', In g' l' /\ R g g'.
Proof.
  intros l l' C. induction C as [|g0 g' l l' H _ IH]; intros g []; subst.
  - exists g'. split; [left; auto|auto].
  - destruct (IH g H0) as (x & X1 & X2). exists x. split; [right; auto|auto].
Qed.
End Lists.

Section Same.
Variables (d d' : dgroup).
Hypothesis SZ : d_idsize d' = d_idsize d.
Variable uv : bool.
Variables (s b : N -> N).
Hypothesis C : Forall2 (fun g g' => counted true uv (s (g_id g)) (b (g_id g)) g g') (d_groups d) (d_groups d').

Lemma same_ids : map g_id (d_groups d') = map g_id (d_groups d).
Proof. exact (ids_list uv s b _ _ C). Qed.

Lemma same_vlsd : forall id, vlsd_id d' id = vlsd_id d id.
Proof. intros. exact (vlsd_list uv s b id _ _ C). Qed.

Lemma same_enc : forall r, enc_rec d' r = enc_rec d r.
Proof. intros. unfold enc_rec. rewrite SZ, same_vlsd. reflexivity. Qed.

Lemma same_stream : forall recs, stream d' recs = stream d recs.
Proof. intros. unfold stream. f_equal. apply map_ext. apply same_enc. Qed.

Lemma in_left : forall g', In g' (d_groups d') -> exists g, In g (d_groups d) /\ counted true uv (s (g_id g)) (b (g_id g)) g g'.
Proof. exact (left_list uv s b _ _ C). Qed.

Lemma in_right : forall g, In g (d_groups d) -> exists g', In g' (d_groups d') /\ counted true uv (s (g_id g)) (b (g_id g)) g g'.
Proof. exact (right_list uv s b _ _ C). Qed.

Lemma counted_size : forall g g', counted true uv (s (g_id g)) (b (g_id g)) g g' -> g_vlsd g = false -> rec_size g' = rec_size g.
Proof. intros g g' X V. destruct (cd_size _ _ _ _ _ _ X V) as [A B]. unfold rec_size. rewrite A, B. reflexivity. Qed.

Lemma same_ok : dg_ok d -> dg_ok d'.
Proof.
  intros H. constructor.
  - intros E. apply (dg_some _ H). pose proof same_ids as X. rewrite E in X. destruct (d_groups d); [auto|discriminate].
  - rewrite same_ids. apply H.
  - rewrite SZ. apply H.
  - intros g' IN Z. rewrite SZ in *. destruct (in_left g' IN) as (g & G1 & G2). rewrite (cd_id _ _ _ _ _ _ G2). apply (dg_fit _ H); auto.
  - intros Z. rewrite SZ in Z. rewrite <- (map_length g_id), same_ids, map_length. apply (dg_single _ H); auto.
  - intros g' IN Z V. rewrite SZ in Z. destruct (in_left g' IN) as (g & G1 & G2). rewrite (cd_vlsd _ _ _ _ _ _ G2) in V.
    rewrite (counted_size g g' G2 V). apply (dg_bytes _ H); auto.
Qed.

Lemma same_rec : forall r, rec_ok d r -> rec_ok d' r.
Proof.
  intros r (g & IN & E & S1). destruct (in_right g IN) as (g' & I2 & X). exists g'. split; auto.
  rewrite (cd_id _ _ _ _ _ _ X). split; auto. rewrite (cd_vlsd _ _ _ _ _ _ X).
  destruct (g_vlsd g) eqn:V; auto. rewrite (counted_size g g' X V). auto.
Qed.
End Same.

(** All records are delivered when the counts are large enough. *)
Lemma expected_full : forall recs d prev, dg_ok d -> Forall (rec_ok d) recs ->
  (forall g, In g (d_groups d) -> occ (g_id g) (prev ++ recs) <= g_nof g) ->
  map ev_rec (expected d (fun _ => true) prev recs) = recs.
Proof.
  induction recs as [|r t IH]; intros d prev H F L; cbn [expected]; auto.
  apply Forall_cons_iff in F as [F1 F2]. destruct F1 as (g & IN & E & S1).
  assert (LT : occ (r_id r) prev < nof_of d (r_id r)).
  { rewrite <- E, (nof_of_in d g H IN). specialize (L g IN). rewrite occ_app, occ_cons, <- E, N.eqb_refl in L. lia. }
  destruct (N.ltb_spec (occ (r_id r) prev) (nof_of d (r_id r))); [|lia]. cbn [andb app map].
  rewrite IH; auto.
  - destruct r; reflexivity.
  - intros g2 IN2. rewrite <- app_assoc. apply L. auto.
Qed.

Lemma upto_true : forall l, upto (fun _ => true) l = l.
Proof. induction l; cbn; congruence. Qed.

Lemma counts_fit : forall d d' uv recs all,
  Forall2 (fun g g' => counted true uv (occ (g_id g) all) (payload_bytes (g_id g) all + 4 * occ (g_id g) all) g g') (d_groups d) (d_groups d') ->
  (forall i, occ i recs <= occ i all) ->
  forall g, In g (d_groups d') -> occ (g_id g) recs <= g_nof g.
Proof.
  intros d d' uv recs all C LE g IN.
  destruct (in_left d d' uv (fun i => occ i all) (fun i => payload_bytes i all + 4 * occ i all) C g IN) as (g0 & I0 & X).
  rewrite (cd_nof _ _ _ _ _ _ X), (cd_id _ _ _ _ _ _ X). specialize (LE (g_id g0)). lia.
Qed.

Lemma read_after : forall d d' uv recs fuel, dg_ok d -> Forall (rec_ok d) recs -> d_idsize d' = d_idsize d ->
  Forall2 (fun g g' => counted true uv (occ (g_id g) recs) (payload_bytes (g_id g) recs + 4 * occ (g_id g) recs) g g') (d_groups d) (d_groups d') ->
  recs <> [] -> (length (stream d recs) < fuel)%nat ->
  exists evs, read_data d' (fun _ => true) (fun _ => true) fuel [stream d recs] = Some (Ok evs) /\ map ev_rec evs = recs.
Proof.
  intros d d' uv recs fuel H F SZ C NE L.
  pose proof (same_stream d d' SZ uv (fun i => occ i recs) (fun i => payload_bytes i recs + 4 * occ i recs) C recs) as SS.
  pose proof (same_ok d d' SZ uv (fun i => occ i recs) (fun i => payload_bytes i recs + 4 * occ i recs) C H) as H'.
  assert (F' : Forall (rec_ok d') recs).
  { eapply Forall_impl; [|exact F]. intros r. apply (same_rec d d' uv (fun i => occ i recs) (fun i => payload_bytes i recs + 4 * occ i recs) C). }
  eexists. split.
  - apply (read_complete d' (fun _ => true) (fun _ => true) recs); auto.
    + constructor; auto. pose proof (stream_len_ge d recs H F). destruct (stream d recs); [destruct recs; [contradiction|cbn in *; lia]|discriminate].
    + cbn [concat]. rewrite app_nil_r. symmetry. exact SS.
    + rewrite SS. exact L.
  - rewrite upto_true. apply expected_full; auto. cbn [app]. eapply counts_fit; eauto. intros. lia.
Qed.

Lemma read_after_cut : forall d d' uv recs r tail rest fuel, dg_ok d -> Forall (rec_ok d) recs -> rec_ok d r ->
  enc_rec d r = tail ++ rest -> tail <> [] -> rest <> [] -> d_idsize d' = d_idsize d ->
  Forall2 (fun g g' => counted true uv (occ (g_id g) (recs ++ [r])) (payload_bytes (g_id g) (recs ++ [r]) + 4 * occ (g_id g) (recs ++ [r])) g g') (d_groups d) (d_groups d') ->
  (length (stream d recs ++ tail) < fuel)%nat ->
  exists evs, read_data d' (fun _ => true) (fun _ => true) fuel [stream d recs ++ tail] = Some (Ok evs) /\ map ev_rec evs = recs.
Proof.
  intros d d' uv recs r tail rest fuel H F R E T1 T2 SZ C L.
  pose proof (same_stream d d' SZ uv (fun i => occ i (recs ++ [r])) (fun i => payload_bytes i (recs ++ [r]) + 4 * occ i (recs ++ [r])) C recs) as SS.
  pose proof (same_enc d d' SZ uv (fun i => occ i (recs ++ [r])) (fun i => payload_bytes i (recs ++ [r]) + 4 * occ i (recs ++ [r])) C r) as SE.
  pose proof (same_ok d d' SZ uv (fun i => occ i (recs ++ [r])) (fun i => payload_bytes i (recs ++ [r]) + 4 * occ i (recs ++ [r])) C H) as H'.
  pose proof (same_rec d d' uv (fun i => occ i (recs ++ [r])) (fun i => payload_bytes i (recs ++ [r]) + 4 * occ i (recs ++ [r])) C) as SR.
  assert (F' : Forall (rec_ok d') recs) by (eapply Forall_impl; [|exact F]; auto).
  eexists. split.
  - apply (read_truncated d' (fun _ => true) (fun _ => true) recs r tail rest); auto.
    + rewrite SE. exact E.
    + constructor; auto. intros X. apply app_eq_nil in X as [_ X]. contradiction.
    + cbn [concat]. rewrite app_nil_r, SS. reflexivity.
    + rewrite SS. exact L.
  - rewrite upto_true. apply expected_full; auto. cbn [app]. eapply counts_fit; eauto. intros i. rewrite occ_app. lia.
Qed.

(** A group of records of no bytes without record id: the counting never ends. *)
Lemma zero_loops : forall fuel p cnt,
  count_loop (mkDg 0 [mkGroup 0 false 0 0 0]) [7] 1 fuel p 0 cnt = None.
Proof.
  induction fuel as [|k IH]; intros p cnt; [reflexivity|]. cbn [count_loop].
  change (0 <? 1) with true. cbn match.
  change (read_record_id (mkDg 0 [mkGroup 0 false 0 0 0]) [7] p) with (Ok (0, p)). cbv iota zeta.
  change (find_group (mkDg 0 [mkGroup 0 false 0 0 0]) 0) with (Some (mkGroup 0 false 0 0 0)). cbv iota.
  change (count_bytes (mkGroup 0 false 0 0 0) [7] p) with (Ok 0). cbv iota.
  change (g_id (mkGroup 0 false 0 0 0)) with 0. destruct (cnt 0) as [s b].
  rewrite Nat.sub_diag. cbn [N.to_nat]. rewrite Nat.add_0_r. apply IH.
Qed.
