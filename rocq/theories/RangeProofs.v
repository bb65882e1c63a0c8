(** Range reading delivers the slice of the complete reading. *)
From Verif Require Import Base StreamModel StreamSpec StreamProofs StreamProofs2.
Local Open Scope N_scope.

Section Range.
Context (d : dgroup) (sub : N -> bool) (verdict : event -> bool) (mn mxs : N).

(** What a cleared "used" flag means. *)
Definition uinv (u : used_map) (prev : list srec) : Prop :=
  forall g, In g (d_groups d) ->
    (u (g_id g) = true -> sub (g_id g) = true) /\
    (u (g_id g) = false -> sub (g_id g) = false \/ g_nof g < mn \/
       mxs < N.min (occ (g_id g) prev) (g_nof g) + 1).

Definition evr (prev : list srec) (r : srec) : list event :=
  filter (in_range mn mxs) (ev_of d sub prev r).

Lemma uinv_init : dg_ok d -> uinv (range_init d sub mn) [].
Proof.
  intros H g Hin. unfold range_init. rewrite find_in_nodup by (auto; apply H).
  split; intros E.
  - apply andb_prop in E as [E _]; auto.
  - destruct (sub (g_id g)); [right; left|left; auto]. cbn [andb] in E.
    destruct (g_vlsd g); cbn in E; [discriminate|].
    destruct (N.ltb_spec (g_nof g) mn); auto. discriminate.
Qed.

Lemma uinv_mono : forall u prev r, uinv u prev -> uinv u (prev ++ [r]).
Proof.
  intros u prev r U g Hin. destruct (U g Hin) as [U1 U2]. split; auto.
  intros E. destruct (U2 E) as [K|[K|K]]; auto. right; right. rewrite occ_snoc.
  destruct (r_id r =? g_id g); lia.
Qed.

Lemma ready_nothing : forall recs u prev, dg_ok d -> Forall (rec_ok d) recs ->
  uinv u prev -> range_ready d u = true ->
  filter (in_range mn mxs) (expected d sub prev recs) = [].
Proof.
  induction recs as [|r t IH]; intros u prev H F U R; [reflexivity|].
  inversion F as [|? ? HR HF]; subst.
  rewrite expected_cons, filter_app.
  rewrite (IH u (prev ++ [r]) H HF (uinv_mono _ _ _ U) R), app_nil_r.
  destruct HR as (g & Hin & E & _). unfold ev_of. rewrite <- E, (nof_of_in _ _ H Hin).
  unfold range_ready in R. rewrite forallb_forall in R. specialize (R g Hin).
  apply negb_true_iff in R. destruct (U g Hin) as [_ U2].
  destruct (U2 R) as [K|[K|K]].
  - rewrite K. reflexivity.
  - destruct (sub (g_id g)); [|reflexivity]. cbn [andb].
    destruct (N.ltb_spec (occ (g_id g) prev) (g_nof g)); [|reflexivity].
    cbn [filter]. unfold in_range; cbn [e_sample].
    replace (mn <=? occ (g_id g) prev + 1) with false by lia. reflexivity.
  - destruct (sub (g_id g)); [|reflexivity]. cbn [andb].
    destruct (N.ltb_spec (occ (g_id g) prev) (g_nof g)); [|reflexivity].
    cbn [filter]. unfold in_range; cbn [e_sample].
    replace (occ (g_id g) prev + 1 <=? mxs) with false by lia. rewrite andb_false_r. reflexivity.
Qed.

Lemma in_group_eq : forall g h, dg_ok d -> In g (d_groups d) -> In h (d_groups d) ->
  g_id g = g_id h -> g = h.
Proof.
  intros g h H G1 G2 E.
  pose proof (find_in_nodup _ _ (dg_ids _ H) G1) as F1.
  pose proof (find_in_nodup _ _ (dg_ids _ H) G2) as F2. rewrite <- E in F2. congruence.
Qed.

Lemma parse_range_one : forall mx st u prev r rest,
  dg_ok d -> rec_ok d r -> uinv u prev ->
  good (p_rc st) (enc_rec d r ++ rest) -> cnt_ok d (p_cnt st) prev ->
  dc (p_rc st) + N.of_nat (length (enc_rec d r ++ rest)) <= mx ->
  exists st' u',
    parse_range_record d sub verdict mn mxs mx st u
      = Ok (forallb verdict (evr prev r) && negb (range_ready d u'), st', u') /\
    good (p_rc st') rest /\ cnt_ok d (p_cnt st') (prev ++ [r]) /\ uinv u' (prev ++ [r]) /\
    p_log st' = p_log st ++ evr prev r /\
    dc (p_rc st') + N.of_nat (length rest) <= mx /\ dc (p_rc st) < dc (p_rc st').
Proof.
  intros mx st u prev r rest H R U G C M.
  pose proof (enc_rec_pos d r H R) as Hpos. rewrite app_length in M.
  destruct R as (g & Hin & E & R).
  assert (GG := G). unfold enc_rec in GG. rewrite <- E, (vlsd_id_in _ _ H Hin) in GG.
  rewrite <- !app_assoc in GG.
  destruct (parse_id_good d g _ _ H Hin GG) as (s1 & E1 & G1 & D1).
  destruct (payload_size_good g s1 (r_data r) rest R G1) as (s2 & E2 & G2 & D2).
  unfold parse_range_record.
  destruct (d_groups d) as [|g0 gs] eqn:EG; [destruct Hin|]. rewrite <- EG in *.
  replace (mx <=? dc (p_rc st)) with false by lia.
  rewrite E1. cbn [bind fst snd]. rewrite (in_range_map_in _ _ Hin), (find_cg_in _ _ H Hin).
  rewrite E2. cbn [bind fst snd].
  rewrite (in_id_list_in _ sub _ H Hin).
  assert (HL : length (enc_rec d r) = (N.to_nat (d_idsize d) + ((if g_vlsd g then 4 else 0) + length (r_data r)))%nat).
  { unfold enc_rec. rewrite <- E, (vlsd_id_in _ _ H Hin), !app_length, le_bytes_length.
    destruct (g_vlsd g); [rewrite le_bytes_length|]; reflexivity. }
  destruct (U g Hin) as [U1 U2]. pose proof (C g Hin) as K.
  pose proof (uinv_mono _ _ r U) as UM.
  unfold evr, ev_of. rewrite <- E, (nof_of_in _ _ H Hin).
  destruct (negb (u (g_id g)) || (p_cnt st (g_id g) + 1 <? mn) || (mxs <? p_cnt st (g_id g) + 1)) eqn:SK.
  - (* skipped *)
    assert (EV : filter (in_range mn mxs)
        (if sub (g_id g) && (occ (g_id g) prev <? g_nof g)
         then [Ev (occ (g_id g) prev) (g_id g) (r_data r)] else []) = []).
    { destruct (sub (g_id g)) eqn:ES; [|reflexivity]. cbn [andb].
      destruct (N.ltb_spec (occ (g_id g) prev) (g_nof g)) as [L|L]; [|reflexivity].
      rewrite N.min_l in K by lia. rewrite N.min_l in U2 by lia.
      cbn [filter]. unfold in_range; cbn [e_sample].
      replace ((mn <=? occ (g_id g) prev + 1) && (occ (g_id g) prev + 1 <=? mxs)) with false; [reflexivity|].
      symmetry. rewrite K in SK.
      destruct (u (g_id g)); cbn [negb orb] in SK; [lia|].
      destruct (U2 eq_refl) as [Q|[Q|Q]]; [discriminate|lia|lia]. }
    rewrite EV. cbn [forallb andb].
    destruct (skip_good (length (r_data r)) s2 _ G2) as (G3 & D3 & D4).
    { rewrite app_length. lia. }
    rewrite skipn_app, Nat.sub_diag, skipn_all in G3. cbn [app skipn] in G3.
    assert (D5 : dc (p_rc st) < dc (skip_bytes (length (r_data r)) s2)).
    { destruct (Nat.eq_dec (length (r_data r)) 0) as [Z|Z].
      - assert (dc s2 <= dc (skip_bytes (length (r_data r)) s2)).
        { rewrite Z. unfold skip_bytes. destruct G2 as (_ & F & _).
          replace (fi s2 + 0 <=? length (cur s2))%nat with true by lia. cbn [dc]. lia. }
        destruct (g_vlsd g); lia.
      - specialize (D4 ltac:(lia)). destruct (g_vlsd g); lia. }
    eexists. eexists. split; [reflexivity|]. rewrite app_nil_r.
    assert (UF : uinv (if mxs <? p_cnt st (g_id g) + 1 then updb u (g_id g) false else u) (prev ++ [r])).
    { destruct (N.ltb_spec mxs (p_cnt st (g_id g) + 1)) as [L|L]; [|exact UM].
      intros h Hh. unfold updb. destruct (N.eqb_spec (g_id h) (g_id g)) as [Q|Q].
      - split; [discriminate|]. intros _. right; right.
        rewrite (in_group_eq h g H Hh Hin Q). rewrite occ_snoc. destruct (r_id r =? g_id g); lia.
      - exact (UM h Hh). }
    unfold count_skip.
    destruct (p_cnt st (g_id g) <? g_nof g) eqn:L; cbn [p_rc p_cnt p_log].
    + repeat split; try apply G3; auto.
      * apply cnt_ok_upd with (r := r); auto.
      * apply UF; auto.
      * apply UF; auto.
      * destruct (g_vlsd g); lia.
    + repeat split; try apply G3; auto.
      * eapply cnt_ok_same; eauto.
      * apply UF; auto.
      * apply UF; auto.
      * destruct (g_vlsd g); lia.
  - (* read *)
    destruct (u (g_id g)) eqn:EU; cbn [negb orb] in SK; [|discriminate].
    rewrite (U1 eq_refl). cbn [negb andb].
    destruct (get_good (length (r_data r)) s2 _ G2) as (s3 & E3 & G3 & D3).
    { rewrite app_length. lia. }
    rewrite E3. cbn [bind fst snd].
    rewrite firstn_app, Nat.sub_diag, firstn_O, app_nil_r, firstn_all.
    rewrite skipn_app, Nat.sub_diag, skipn_all in G3. cbn [app skipn] in G3.
    replace (if g_vlsd g then g_id g else g_id g) with (g_id g) by (destruct (g_vlsd g); auto).
    unfold notify. rewrite (cnt_lt d _ prev g H Hin C).
    destruct (N.ltb_spec (occ (g_id g) prev) (g_nof g)) as [L|L].
    + rewrite N.min_l in K by lia. rewrite K.
      assert (IR : in_range mn mxs (Ev (occ (g_id g) prev) (g_id g) (r_data r)) = true).
      { unfold in_range; cbn [e_sample]. rewrite K in SK. lia. }
      cbn [filter]. rewrite IR. cbn [forallb]. rewrite andb_true_r.
      eexists. exists u. split; [reflexivity|].
      cbn [p_rc p_cnt p_log]. repeat split; try apply G3.
      * rewrite <- K. apply cnt_ok_upd with (r := r); auto. rewrite K. lia.
      * apply UM; auto.
      * apply UM; auto.
      * destruct (g_vlsd g); lia.
      * destruct (g_vlsd g); lia.
    + cbn [filter forallb]. eexists. exists u. split; [reflexivity|].
      cbn [p_rc p_cnt p_log]. rewrite app_nil_r. repeat split; try apply G3.
      * eapply cnt_ok_same; eauto. rewrite (cnt_lt d _ prev g H Hin C). lia.
      * apply UM; auto.
      * apply UM; auto.
      * destruct (g_vlsd g); lia.
      * destruct (g_vlsd g); lia.
Qed.

Lemma range_loop_end : forall fuel mx st u, dg_ok d ->
  (length (cur (p_rc st)) <= fi (p_rc st))%nat -> todo (p_rc st) = [] ->
  mx - dc (p_rc st) < N.of_nat fuel ->
  range_loop d sub verdict mn mxs mx fuel st u = Some (Ok (p_log st)).
Proof.
  induction fuel; intros mx st u H Hf Ht HF; [lia|].
  cbn [range_loop]. unfold parse_range_record.
  destruct (d_groups d) as [|g0 gs] eqn:EG; [reflexivity|].
  destruct (N.leb_spec mx (dc (p_rc st))); [reflexivity|].
  unfold parse_id.
  destruct (N.eqb_spec (d_idsize d) 0) as [Z|Z].
  - cbn [bind fst snd].
    assert (Hin : In g0 (d_groups d)) by (rewrite EG; left; auto).
    assert (EM : match d_groups d with [] => 0 | g :: _ => g_id g end = g_id g0)
      by (rewrite EG; reflexivity).
    rewrite EM, (find_cg_in _ _ H Hin), (in_range_map_in _ _ Hin).
    unfold payload_size. destruct (g_vlsd g0) eqn:V.
    + rewrite get_past_end by (auto; lia). reflexivity.
    + cbn [bind fst snd]. pose proof (dg_bytes _ H g0 Hin Z V) as P.
      destruct (skip_end (rec_size g0) (p_rc st) Hf Ht P) as (s' & E & F1 & F2 & F3).
      rewrite E.
      assert (NX : forall u' , 
         match Ok (true && negb (range_ready d u'), count_skip st g0 s', u') with
         | Ok (true, st', u'0) => range_loop d sub verdict mn mxs mx fuel st' u'0
         | Ok (false, st', _) => Some (Ok (p_log st'))
         | Fail => Some Fail
         | UB => Some UB
         end = Some (Ok (p_log st))).
      { intros u'. cbn [andb].
        assert (p_log (count_skip st g0 s') = p_log st /\ p_rc (count_skip st g0 s') = s') as [Q1 Q2].
        { unfold count_skip. destruct (p_cnt st (g_id g0) <? g_nof g0); auto. }
        destruct (negb (range_ready d u')); [|rewrite Q1; reflexivity].
        rewrite IHfuel; rewrite ?Q2, ?Q1; auto. lia. }
      destruct (negb (u (g_id g0)) || (p_cnt st (g_id g0) + 1 <? mn) || (mxs <? p_cnt st (g_id g0) + 1)); [apply NX|].
      destruct (negb (in_id_list d sub (g_id g0))); [apply NX|].
      rewrite get_past_end by auto. reflexivity.
  - destruct ((d_idsize d =? 1) || (d_idsize d =? 2) || (d_idsize d =? 4) || (d_idsize d =? 8)) eqn:K; [|reflexivity].
    rewrite get_past_end by (auto; lia). reflexivity.
Qed.

Lemma upto_evr : forall prev r, upto verdict (evr prev r) = evr prev r.
Proof.
  intros. unfold evr, ev_of. destruct (_ && _); [|reflexivity].
  cbn [filter]. destruct (in_range _ _ _); [|reflexivity]. cbn. destruct (verdict _); auto.
Qed.

Lemma range_loop_records : forall recs mx st u prev fuel,
  dg_ok d -> Forall (rec_ok d) recs -> uinv u prev ->
  good (p_rc st) (stream d recs) -> cnt_ok d (p_cnt st) prev ->
  dc (p_rc st) + N.of_nat (length (stream d recs)) <= mx ->
  mx - dc (p_rc st) < N.of_nat fuel ->
  range_loop d sub verdict mn mxs mx fuel st u =
  Some (Ok (p_log st ++ upto verdict (filter (in_range mn mxs) (expected d sub prev recs)))).
Proof.
  induction recs as [|r t IH]; intros mx st u prev fuel H F U G C M L.
  - cbn [expected filter upto]. rewrite app_nil_r. cbn [stream map concat] in G.
    destruct (good_nil _ G). apply range_loop_end; auto.
  - inversion F as [|? ? HR HF]; subst.
    change (stream d (r :: t)) with (enc_rec d r ++ stream d t) in *.
    destruct (parse_range_one mx st u prev r (stream d t)) as
      (st1 & u1 & E1 & G1 & C1 & U1 & L1 & M1 & D1); auto.
    destruct fuel as [|fuel]; [lia|]. cbn [range_loop]. rewrite E1.
    rewrite expected_cons, filter_app. fold (evr prev r).
    rewrite upto_app, upto_evr.
    destruct (forallb verdict (evr prev r)) eqn:EV; cbn [andb].
    + destruct (range_ready d u1) eqn:RD; cbn [negb].
      * rewrite (ready_nothing t u1 (prev ++ [r]) H HF U1 RD), L1. cbn [upto].
        rewrite app_nil_r. reflexivity.
      * rewrite (IH mx st1 u1 (prev ++ [r]) fuel) by (auto; lia). rewrite L1, <- app_assoc. reflexivity.
    + rewrite L1. reflexivity.
Qed.
End Range.

Lemma read_partial_slice : forall d sub verdict mn mx recs blocks fuel,
  dg_ok d -> Forall (rec_ok d) recs -> Forall (fun b => b <> []) blocks ->
  concat blocks = stream d recs -> (length (stream d recs) < fuel)%nat -> mn <= mx ->
  read_partial_data d sub verdict mn mx fuel blocks =
  Some (Ok (upto verdict (filter (in_range mn mx) (expected d sub [] recs)))).
Proof.
  intros d sub verdict mn mx recs blocks fuel H F HB E L LE. unfold read_partial_data.
  replace (mx <? mn) with false by lia.
  destruct blocks as [|b0 bs] eqn:EB.
  - cbn in E. destruct recs as [|r t]; [reflexivity|]. exfalso.
    inversion F; subst. pose proof (enc_rec_pos d r H H2) as P.
    change (stream d (r :: t)) with (enc_rec d r ++ stream d t) in E.
    destruct (enc_rec d r); [cbn in P; lia|discriminate].
  - rewrite <- EB in *. clear EB.
    rewrite (range_loop_records d sub verdict mn mx recs _ _ _ []); auto.
    + apply uinv_init; auto.
    + rewrite <- E. apply good_init; auto.
    + apply cnt_ok_init.
    + cbn [p_rc rc_init dc]. rewrite E. lia.
    + cbn [p_rc rc_init dc]. rewrite E. lia.
Qed.
