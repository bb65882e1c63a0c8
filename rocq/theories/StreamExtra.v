(** Corollaries in the shape of the properties C10-C16. *)
From Verif Require Import Base StreamModel StreamSpec StreamProofs StreamProofs2 RangeProofs
  Stream3Model Stream3Proofs IdProofs.
Local Open Scope N_scope.

Lemma id_fields_differ : forall gs g h, N.of_nat (length gs) < 2 ^ 64 ->
  In g (d_groups (build4 gs)) -> In h (d_groups (build4 gs)) -> g_id g <> g_id h ->
  put_id (d_idsize (build4 gs)) (g_id g) <> put_id (d_idsize (build4 gs)) (g_id h).
Proof.
  intros gs g h L Hg Hh NE E. apply NE.
  pose proof (build4_fit gs g L Hg) as FG. pose proof (build4_fit gs h L Hh) as FH.
  pose proof (id_size_in (N.of_nat (length gs))) as S. rewrite <- build4_idsize in S.
  set (z := d_idsize (build4 gs)) in *. clearbody z.
  unfold put_id, w8, w16, w32, w64 in E.
  cbn [In] in S. destruct S as [S|[S|[S|[S|[S|[]]]]]]; rewrite <- S in *; cbn [N.eqb Pos.eqb] in E.
  - change (256 ^ 0) with 1 in *. lia.
  - rewrite !N.mod_small in E by assumption. apply (le_bytes_inj 1) in E; auto.
  - rewrite !N.mod_small in E by assumption. apply (le_bytes_inj 2) in E; auto.
  - rewrite !N.mod_small in E by assumption. apply (le_bytes_inj 4) in E; auto.
  - rewrite !N.mod_small in E by assumption. apply (le_bytes_inj 8) in E; auto.
Qed.

Lemma upto_true : forall l, upto (fun _ => true) l = l.
Proof. intros. apply upto_all. induction l; cbn; auto. Qed.

Lemma write_read4 : forall gs recs blocks fuel,
  let d := build4 gs in
  gs <> [] -> N.of_nat (length gs) < 2 ^ 64 -> (forall g, In g gs -> (0 < rec_size g)%nat) ->
  Forall (rec_ok d) recs -> counts_right d recs ->
  Forall (fun b => b <> []) blocks -> concat blocks = concat (map (written d) recs) ->
  (length (concat blocks) < fuel)%nat ->
  exists evs, read_data d (fun _ => true) (fun _ => true) fuel blocks = Some (Ok evs) /\
    map ev_rec evs = recs /\
    forall i e, nth_error evs i = Some e -> e_sample e = occ (e_id e) (firstn i recs).
Proof.
  intros gs recs blocks fuel d HN L P F C HB E LF.
  pose proof (build4_ok gs HN L P) as OK. fold d in OK.
  rewrite (written_stream d recs OK F) in E. rewrite E in LF.
  exists (expected d (fun _ => true) [] recs). split.
  - rewrite (read_complete d _ _ recs) by auto. rewrite upto_true. reflexivity.
  - apply (expected_all recs d (fun _ => true) [] OK F); auto.
    intros g Hg. cbn [app]. rewrite (C g Hg). lia.
Qed.

Lemma numbered_ev_rec : forall recs prev, map ev_rec (numbered (fun _ => true) prev recs) = recs.
Proof.
  induction recs as [|r t IH]; intros; [reflexivity|].
  cbn [numbered map app]. rewrite IH. unfold ev_rec; cbn. destruct r; reflexivity.
Qed.

Lemma build3_link : forall gs n, t_link (build3 gs n) = n.
Proof.
  induction gs as [|g gs IH] using rev_ind; intros; [reflexivity|].
  rewrite build3_snoc. unfold add_cg3. cbn [t_link]. auto.
Qed.

Lemma write_read3 : forall gs pre recs post fuel,
  let d := build3 gs (length pre) in
  gs <> [] -> (length gs <= 256)%nat -> (forall g, In g gs -> (0 < h_size g)%nat) ->
  Forall (rec3_ok d) recs -> counts3 d recs ->
  (length (concat (map (fun r => put3 (t_nrid d) (r_id r) (r_data r)) recs)) < fuel)%nat ->
  read_data3 d (fun _ => true) fuel
    (pre ++ concat (map (fun r => put3 (t_nrid d) (r_id r) (r_data r)) recs) ++ post)
  = Some (numbered (fun _ => true) [] recs) /\
  map ev_rec (numbered (fun _ => true) [] recs) = recs.
Proof.
  intros gs pre recs post fuel d HN L P F C LF.
  pose proof (build3_ok gs (length pre) HN L P) as OK. fold d in OK.
  assert (E : concat (map (fun r => put3 (t_nrid d) (r_id r) (r_data r)) recs) = stream3 d recs).
  { unfold stream3. f_equal. apply map_ext_in. intros r Hr. apply put3_enc; auto.
    rewrite Forall_forall in F. destruct (F r Hr) as (g & Hin & Eid & _).
    apply (in_map h_id) in Hin. unfold d in Hin. rewrite build3_ids in Hin. rewrite <- Eid.
    assert (K : forall n, In (h_id g) (map (fun k => (1 + N.of_nat k) mod 256) (seq 0 n)) -> h_id g < 256).
    { intros n Hn. apply in_map_iff in Hn as (k & E & _). rewrite <- E. apply N.mod_lt. lia. }
    destruct (length gs) as [|[|n]]; [destruct Hin| |apply (K (S (S n))); auto].
    destruct Hin as [Hin|[]]. rewrite <- Hin. lia. }
  rewrite E in *. split; [|apply numbered_ev_rec].
  rewrite (read3_ok d _ recs fuel pre post) by (auto; apply build3_link).
  - rewrite upto_true. reflexivity.
Qed.

Lemma zero_size_loops : forall fuel,
  read_data (mkDg 0 [mkGroup 0 false 0 0 0]) (fun _ => true) (fun _ => true) fuel [[1]] = None.
Proof.
  intros fuel. unfold read_data, rc_init. generalize (fun _ : N => 0) as cnt.
  induction fuel as [|fuel IH]; intros cnt; [reflexivity|].
  cbn [read_loop]. unfold parse_record, parse_id, find_group, payload_size, in_id_list, notify, get_array.
  cbn [d_groups d_idsize cg_map filter find existsb g_vlsd g_id g_nof p_rc p_cnt p_log bind fst snd
       fi cur stale todo dc N.eqb].
  change (N.of_nat (length (concat [[1]])) <=? 0) with false. cbn [rec_size g_data g_inval].
  change (N.to_nat (w32 (0 + 0))) with 0%nat.
  cbn [Nat.add length Nat.leb andb orb Nat.ltb bind fst snd slice firstn skipn].
  change (0 =? 0) with true. cbn [andb orb bind fst snd]. 
  replace (cnt 0 <? 0) with false by (destruct (cnt 0); reflexivity).
  apply IH.
Qed.

Lemma split_records : forall d sub verdict recs b1 b2 fuel,
  dg_ok d -> Forall (rec_ok d) recs ->
  Forall (fun b => b <> []) b1 -> Forall (fun b => b <> []) b2 ->
  concat b1 = stream d recs -> concat b2 = stream d recs -> (length (stream d recs) < fuel)%nat ->
  read_data d sub verdict fuel b1 = read_data d sub verdict fuel b2.
Proof. intros. rewrite !(read_complete d sub verdict recs) by auto. reflexivity. Qed.

Lemma split_range : forall d sub verdict mn mx recs b1 b2 fuel,
  dg_ok d -> Forall (rec_ok d) recs ->
  Forall (fun b => b <> []) b1 -> Forall (fun b => b <> []) b2 ->
  concat b1 = stream d recs -> concat b2 = stream d recs -> (length (stream d recs) < fuel)%nat ->
  mn <= mx ->
  read_partial_data d sub verdict mn mx fuel b1 = read_partial_data d sub verdict mn mx fuel b2.
Proof. intros. rewrite !(read_partial_slice d sub verdict mn mx recs) by auto. reflexivity. Qed.

Lemma subscription : forall d sub recs blocks fuel,
  dg_ok d -> Forall (rec_ok d) recs -> Forall (fun b => b <> []) blocks ->
  concat blocks = stream d recs -> (length (stream d recs) < fuel)%nat ->
  exists all, read_data d (fun _ => true) (fun _ => true) fuel blocks = Some (Ok all) /\
    read_data d sub (fun _ => true) fuel blocks = Some (Ok (filter (fun e => sub (e_id e)) all)).
Proof.
  intros d sub recs blocks fuel H F HB E L. exists (expected d (fun _ => true) [] recs).
  rewrite !(read_complete d _ _ recs) by auto. rewrite !upto_true. split; [reflexivity|].
  rewrite (expected_filter recs d sub). reflexivity.
Qed.

Lemma range_slice : forall d sub verdict mn mx recs blocks fuel,
  dg_ok d -> Forall (rec_ok d) recs -> Forall (fun b => b <> []) blocks ->
  concat blocks = stream d recs -> (length (stream d recs) < fuel)%nat -> mn <= mx ->
  exists all, read_data d sub (fun _ => true) fuel blocks = Some (Ok all) /\
    read_partial_data d sub verdict mn mx fuel blocks =
    Some (Ok (upto verdict (filter (in_range mn mx) all))).
Proof.
  intros d sub verdict mn mx recs blocks fuel H F HB E L LE. exists (expected d sub [] recs).
  rewrite (read_complete d _ _ recs), (read_partial_slice d sub verdict mn mx recs) by auto.
  rewrite upto_true. auto.
Qed.

Lemma numbered_filter : forall recs sub prev,
  numbered sub prev recs = filter (fun e => sub (e_id e)) (numbered (fun _ => true) prev recs).
Proof.
  induction recs as [|r t IH]; intros; [reflexivity|].
  cbn [numbered]. rewrite filter_app, (IH sub). f_equal.
Qed.

Lemma range_slice3 : forall d sub verdict mn mx recs fuel pre post,
  dg3_ok d -> Forall (rec3_ok d) recs -> counts3 d recs ->
  (forall g, In g (t_groups d) -> h_srs g = []) ->
  t_link d = length pre -> (length (stream3 d recs) < fuel)%nat -> mn <= mx ->
  exists all, read_data3 d (fun _ => true) fuel (pre ++ stream3 d recs ++ post) = Some all /\
    read_partial_data3 d sub verdict mn mx fuel (pre ++ stream3 d recs ++ post) =
    Some (upto verdict (filter (in_range mn mx) (filter (fun e => sub (e_id e)) all))).
Proof.
  intros d sub verdict mn mx recs fuel pre post H F C SR EL L LE.
  exists (numbered (fun _ => true) [] recs).
  rewrite read3_ok, read_partial3_ok by auto. rewrite upto_true, (numbered_filter recs sub).
  auto.
Qed.
