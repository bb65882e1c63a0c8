(** Corollaries in the shape of the properties C12, C16, C20-C25. *)
From Verif Require Import Base ChannelModel VlsdProofs StreamModel StreamSpec StreamProofs StreamProofs2
  IdProofs VlsdReadProofs QueueModel QueueSpec QueueProofs EncProofs QueueProofs2 WriterModel
  WriterProofs.
Local Open Scope N_scope.

Lemma records_split : forall d h prev s post,
  exists rest, records_of d h (prev ++ s :: post) =
    records_of d h prev ++ sample_records d h prev s ++ rest.
Proof.
  intros. exists (records_from d h (prev ++ [s]) post). unfold records_of. rewrite records_from_app.
  reflexivity.
Qed.

Lemma group_values_split : forall d v prev s post, in_vlsd d v s = true ->
  group_values d v (prev ++ s :: post) = group_values d v prev ++ s_vbuf s :: group_values d v post.
Proof.
  intros. unfold group_values. rewrite filter_app, map_app. cbn [filter]. rewrite H. reflexivity.
Qed.

(** The offsets of length-prefixed values are pairwise different. *)
Lemma offsets_from_ge : forall l off o p, In (o, p) (offsets_from off l) -> off <= o.
Proof.
  induction l as [|x l IH]; intros off o p H; [destruct H|]. cbn [offsets_from] in H.
  destruct H as [E|H]; [injection E as <- <-; lia|]. apply IH in H. lia.
Qed.

Lemma requested_one : forall a p b off,
  requested [off + chunks_len a] (offsets_from off (a ++ p :: b)) = [(off + chunks_len a, p)].
Proof.
  intros a p b off. unfold requested.
  revert off. induction a as [|x a IH]; intros off; cbn [app offsets_from filter].
  - change (chunks_len []) with 0. rewrite N.add_0_r. cbn [existsb fst]. rewrite N.eqb_refl. cbn [orb].
    f_equal. apply filter_none. intros [o q] H. apply offsets_from_ge in H. cbn [existsb fst].
    replace (o =? off) with false by lia. reflexivity.
  - cbn [chunks_len fold_right]. fold (chunks_len a). cbn [existsb fst].
    replace (off =? off + (4 + N.of_nat (length x) + chunks_len a)) with false by lia. cbn [orb].
    replace (off + (4 + N.of_nat (length x) + chunks_len a))
      with (off + 4 + N.of_nat (length x) + chunks_len a) by lia.
    apply IH.
Qed.

(** A sample with a value in a VLSD group: its record holds the offset of the value, and asking the
    reader for that offset gives the value. *)
Lemma vlsd_index : forall d h e out blocks fuel prev s post v,
  let l := prev ++ s :: post in
  dg_ok d -> Forall (sample_ok d) l -> emitted d h l out e ->
  vlsd_group d s = Some v -> (8 <= length (s_rec s))%nat ->
  chunks_len (group_values d (g_id v) l) < 2 ^ 64 ->
  (forall x, In x l -> N.of_nat (length (s_vbuf x)) < 2 ^ 32 - 4) ->
  Forall (fun b => b <> []) blocks -> concat blocks = out -> (length out < fuel)%nat ->
  exists r idx,
    (exists before after, records_of d h l = before ++ Rec (s_id s) r :: after /\
       occ (s_id s) before = N.of_nat (length (filter (fun x => s_id x =? s_id s) prev))) /\
    length r = length (s_rec s) /\
    firstn (length r - 8) r = firstn (length r - 8) (s_rec s) /\
    stored_index r = idx /\
    nth_error (offsets_from 0 (group_values d (g_id v) l)) (length (group_values d (g_id v) prev))
      = Some (idx, s_vbuf s) /\
    read_vlsd_cg (with_counts d e) (g_id v) [idx] fuel blocks = Some (Ok [(idx, s_vbuf s)]).
Proof.
  intros d h e out blocks fuel prev s post v l H F (E1 & E2 & E3) V L8 B SM NB CB LF.
  assert (S : sample_ok d s).
  { rewrite Forall_forall in F. apply F. unfold l. apply in_or_app; right; left; auto. }
  destruct (vlsd_group_in d s v V) as [Hv Vv].
  assert (IV : in_vlsd d (g_id v) s = true) by (unfold in_vlsd; rewrite V; apply N.eqb_refl).
  set (idx := chunks_len (group_values d (g_id v) prev)).
  set (r := patch_index (s_rec s) idx).
  assert (IB : idx < 2 ^ 64).
  { unfold l in B. rewrite group_values_split, chunks_len_app in B by auto. unfold idx. lia. }
  destruct (stored_patch (s_rec s) idx L8 IB) as [P1 P2].
  exists r, idx. destruct S as ((k & Hk & Ek & NV & LR) & LV).
  pose proof (find_cg_sample d s k H Hk Ek) as FC.
  assert (GO : group_of d s = Some (s_id s)) by (unfold group_of; rewrite FC; cbn; f_equal; auto).
  assert (SR : sample_records d h prev s = [Rec (g_id v) (s_vbuf s); Rec (s_id s) r]).
  { unfold sample_records. rewrite GO, V. reflexivity. }
  assert (LR2 : length r = length (s_rec s)) by apply patch_length.
  split; [|split; [auto|split; [rewrite LR2; auto|split; [auto|split]]]].
  - destruct (records_split d h prev s post) as [rest RS]. rewrite SR in RS.
    exists (records_of d h prev ++ [Rec (g_id v) (s_vbuf s)]), rest. split.
    + unfold l. rewrite RS, <- app_assoc. reflexivity.
    + assert (FP : Forall (sample_ok d) prev) by (unfold l in F; apply Forall_app in F; tauto).
      rewrite occ_app, occ_cons. cbn [r_id]. change (occ (s_id s) []) with 0.
      replace (g_id v =? s_id s) with false.
      2: { symmetry. apply N.eqb_neq. intros E. rewrite <- Ek in E.
           pose proof (same_group d v k H Hv Hk E). congruence. }
      rewrite <- Ek. rewrite (occ_records d h prev k H FP Hk), NV. lia.
  - unfold l. rewrite group_values_split, offsets_from_nth by auto. unfold idx. f_equal.
  - rewrite written_stream in E1 by auto.
    rewrite (read_vlsd_cg_ok (with_counts d e) (g_id v) [idx] (records_of d h l)); auto.
    + rewrite payloads_records by auto. unfold l. rewrite group_values_split by auto.
      change idx with (0 + idx). unfold idx. rewrite requested_one. reflexivity.
    + apply with_counts_ok; auto.
    + eapply Forall_impl; [|exact E2]. intros x. apply with_counts_rec_ok.
    + rewrite with_counts_vlsd, vlsd_id_in; auto.
    + intros x Hx Ex.
      assert (HP : In (r_data x) (payloads (g_id v) (records_of d h l))).
      { unfold payloads. apply in_map. apply filter_In. split; auto. apply N.eqb_eq; auto. }
      rewrite payloads_records in HP by auto. unfold group_values in HP.
      apply in_map_iff in HP as (y & EY & HY). apply filter_In in HY as [HY _]. rewrite <- EY. auto.
    + rewrite with_counts_stream. congruence.
    + rewrite with_counts_stream. congruence.
Qed.

(** The same for a value stored in the signal data of its channel. *)
Lemma sd_values_split : forall d h g prev s post, in_sd d h g s = true ->
  sd_values d h g (prev ++ s :: post) = sd_values d h g prev ++ s_vbuf s :: sd_values d h g post.
Proof.
  intros. unfold sd_values. rewrite filter_app, map_app. cbn [filter]. rewrite H. reflexivity.
Qed.

Lemma chunks_app : forall a b, chunks (a ++ b) = chunks a ++ chunks b.
Proof. intros. unfold chunks. rewrite map_app, concat_app. reflexivity. Qed.

Lemma sd_index : forall d h e out prev s post,
  let l := prev ++ s :: post in
  dg_ok d -> Forall (sample_ok d) l -> emitted d h l out e ->
  s_has s = true -> vlsd_group d s = None -> h (s_id s) = true -> (8 <= length (s_rec s))%nat ->
  N.of_nat (length (e_sd e (s_id s))) < 2 ^ 64 ->
  exists r idx,
    (exists before after, records_of d h l = before ++ Rec (s_id s) r :: after /\
       occ (s_id s) before = N.of_nat (length (filter (fun x => s_id x =? s_id s) prev))) /\
    length r = length (s_rec s) /\
    firstn (length r - 8) r = firstn (length r - 8) (s_rec s) /\
    stored_index r = idx /\
    nth_error (offsets_from 0 (sd_values d h (s_id s) l)) (length (sd_values d h (s_id s) prev))
      = Some (idx, s_vbuf s) /\
    e_sd e (s_id s) = concat (map chunk (sd_values d h (s_id s) l)) /\
    sd_lookup (e_sd e (s_id s)) idx = Ok (s_vbuf s).
Proof.
  intros d h e out prev s post l H F (E1 & E2 & E3) HS V SD L8 B.
  assert (S : sample_ok d s).
  { rewrite Forall_forall in F. apply F. unfold l. apply in_or_app; right; left; auto. }
  destruct S as ((k & Hk & Ek & NV & LR) & LV).
  pose proof (find_cg_sample d s k H Hk Ek) as FC.
  assert (GO : group_of d s = Some (s_id s)) by (unfold group_of; rewrite FC; cbn; f_equal; auto).
  assert (IS : in_sd d h (s_id s) s = true).
  { unfold in_sd. rewrite HS, V, GO, SD, N.eqb_refl. reflexivity. }
  set (idx := chunks_len (sd_values d h (s_id s) prev)).
  set (r := patch_index (s_rec s) idx).
  pose proof (eo_sd _ _ _ _ E3 (s_id s)) as ES.
  assert (IB : idx < 2 ^ 64).
  { rewrite ES, chunks_length in B. unfold l in B. rewrite sd_values_split, chunks_len_app in B by auto.
    unfold idx. lia. }
  destruct (stored_patch (s_rec s) idx L8 IB) as [P1 P2].
  exists r, idx.
  assert (SR : sample_records d h prev s = [Rec (s_id s) r]).
  { unfold sample_records. rewrite GO, V, HS, SD. reflexivity. }
  assert (LR2 : length r = length (s_rec s)) by apply patch_length.
  split; [|split; [auto|split; [rewrite LR2; auto|split; [auto|split; [|split; [exact ES|]]]]]].
  - destruct (records_split d h prev s post) as [rest RS]. rewrite SR in RS.
    exists (records_of d h prev), rest. split.
    + unfold l. rewrite RS. reflexivity.
    + assert (FP : Forall (sample_ok d) prev) by (unfold l in F; apply Forall_app in F; tauto).
      rewrite <- Ek. rewrite (occ_records d h prev k H FP Hk), NV. reflexivity.
  - unfold l. rewrite sd_values_split, offsets_from_nth by auto. reflexivity.
  - rewrite ES in *. unfold l in *. rewrite sd_values_split in * by auto.
    change (s_vbuf s :: sd_values d h (s_id s) post) with ([s_vbuf s] ++ sd_values d h (s_id s) post) in *.
    rewrite !chunks_app in *. unfold idx. rewrite <- chunks_length.
    assert (C1 : chunks [s_vbuf s] = le_bytes 4 (N.of_nat (length (s_vbuf s))) ++ s_vbuf s).
    { unfold chunks. cbn [map concat]. rewrite app_nil_r. reflexivity. }
    rewrite C1 in *. apply sd_lookup_at; auto.
Qed.

(** ** The size of a block *)

(** Bytes a sample needs in a data block at most. *)
Definition needs (idsize : N) (s : sample) : N :=
  idsize + N.of_nat (length (s_rec s)) +
  if s_has s then idsize + 4 + N.of_nat (length (s_vbuf s)) else 0.

Lemma put_id_length : forall n id, n = 0 \/ n = 1 \/ n = 2 \/ n = 4 \/ n = 8 ->
  N.of_nat (length (put_id n id)) = n.
Proof.
  intros n id H; decompose [or] H; subst n; unfold put_id; cbn [N.eqb Pos.eqb]; rewrite ?le_bytes_length; reflexivity.
Qed.

Definition id_size_ok (n : N) : Prop := n = 0 \/ n = 1 \/ n = 2 \/ n = 4 \/ n = 8.

Lemma emit4_length : forall d h e s bs e', id_size_ok (d_idsize d) ->
  emit4 d h e s = Some (bs, e') -> N.of_nat (length bs) <= needs (d_idsize d) s.
Proof.
  intros d h e s bs e' I E. unfold emit4 in E. destruct (find_cg_record_id d (s_id s)) as [g|]; [|discriminate E].
  injection E as E. unfold write_sample4 in E. unfold needs.
  pose proof (put_id_length (d_idsize d)) as P.
  destruct (vlsd_group d s) as [v|] eqn:V.
  - assert (S : s_has s = true) by (unfold vlsd_group in V; destruct (s_has s); congruence).
    injection E as <- _. unfold vlsd_record, fixed_record. rewrite !app_length, le_bytes_length, patch_length, S.
    pose proof (P (g_id v) I). pose proof (P (g_id g) I). lia.
  - pose proof (P (g_id g) I).
    destruct (s_has s && h (g_id g)); injection E as <- _; unfold fixed_record;
      rewrite app_length, ?patch_length; destruct (s_has s); lia.
Qed.

Definition zsmall (d : dgroup) (st : zst) : Prop :=
  Forall (fun b => N.of_nat (length (snd b)) < buffer_max) (z_blocks st) /\
  N.of_nat (length (z_buf st)) < buffer_max /\
  Forall (fun s => needs (d_idsize d) s < buffer_max) (q_list (z_q st)) /\
  Forall (fun s => needs (d_idsize d) s < buffer_max) (zheld (z_phase st)).

Lemma flush_small : forall d st, zsmall d st -> zsmall d (flush st).
Proof.
  intros d st (A & B & C & D). split; [|split; [reflexivity|auto]].
  unfold flush. cbn [z_blocks]. apply Forall_app. auto.
Qed.

Lemma finish_small : forall d st, zsmall d st -> zsmall d (finish st).
Proof.
  intros d st (A & B & C & D). unfold finish. cbv zeta. cbn [z_buf].
  assert (Z : zsmall d (mkZ (z_q st) ZIdle (z_fin st) (z_buf st) (z_blocks st) (z_off st) (z_enc st) (z_log st) (z_gone st))).
  { split; [exact A|]. split; [exact B|]. split; [exact C|constructor]. }
  destruct (z_buf st) eqn:E; [exact Z|]. apply flush_small. exact Z.
Qed.

Lemma ztake_small : forall d c st, zsmall d st -> zsmall d (ztake c st).
Proof.
  intros d c st Z. unfold ztake, get_sample. destruct (q_list (z_q st)) as [|s r] eqn:Q.
  - apply finish_small; auto.
  - destruct Z as (A & B & C & D). rewrite Q in C. apply Forall_cons_iff in C as [C1 C2]. destruct (_ && _).
    + apply finish_small. split; [exact A|]. split; [exact B|]. split; [exact C2|constructor].
    + split; [exact A|]. split; [exact B|]. split; [exact C2|]. cbn. auto.
Qed.

Lemma zwrite_small : forall d h c s st, id_size_ok (d_idsize d) -> zsmall d st ->
  N.of_nat (length (z_buf st)) + needs (d_idsize d) s < buffer_max -> zsmall d (zwrite d h c s st).
Proof.
  intros d h c s st I (A & B & C & D) N. unfold zwrite. destruct (emit4 d h (z_enc st) s) as [[b e]|] eqn:E.
  - apply ztake_small. split; [exact A|]. split; [|split; [exact C|constructor]].
    cbn [z_buf]. rewrite app_length. pose proof (emit4_length _ _ _ _ _ _ I E). lia.
  - apply ztake_small. split; [exact A|]. split; [exact B|]. split; [exact C|constructor].
Qed.

Lemma ztrim_small : forall d stale c st, zsmall d st -> zsmall d (ztrim stale c st).
Proof.
  intros d stale c st (A & B & C & D). split; [exact A|]. split; [exact B|]. split; [|exact D].
  unfold ztrim. cbv zeta. cbn [z_q].
  rewrite <- (cfg_trim_split stale c (z_q st)) in C. apply Forall_app in C. tauto.
Qed.

Lemma zopen_small : forall d fin st, zsmall d st -> zsmall d (zopen fin st).
Proof.
  intros d fin st (A & B & C & D). unfold zopen. destruct (q_list (z_q st)) eqn:Q.
  - split; [exact A|]. split; [exact B|]. rewrite Q. split; [exact C|exact D].
  - split; [exact A|]. split; [reflexivity|]. cbn [z_q]. rewrite Q. split; [exact C|constructor].
Qed.

Lemma max_index_needs : forall n buf s, max_index n buf s = N.of_nat (length buf) + needs n s.
Proof. intros. unfold max_index, needs. destruct (s_has s); lia. Qed.

Lemma zwork_small : forall d h stale c fin st, id_size_ok (d_idsize d) -> zsmall d st ->
  zsmall d (zwork d h stale c fin st).
Proof.
  intros d h stale c fin st I Z. unfold zwork. destruct (z_phase st) as [| |s] eqn:P.
  - destruct fin; [apply zopen_small; auto|]. cbv zeta. destruct (_ <? 2); [|apply zopen_small]; apply ztrim_small; auto.
  - apply ztake_small. apply ztrim_small. auto.
  - pose proof Z as (A & B & C & D). rewrite P in D. apply Forall_cons_iff in D as [D _].
    rewrite max_index_needs. destruct (N.leb_spec buffer_max (N.of_nat (length (z_buf st)) + needs (d_idsize d) s)) as [Q|Q].
    + destruct (z_fin st || _).
      * apply zwrite_small; auto. apply flush_small; auto.
      * apply finish_small. split; [exact A|]. split; [exact B|]. split; [|constructor].
        cbn [z_q push_sample q_list]. constructor; auto.
    + apply zwrite_small; auto.
Qed.

Lemma zrun_small : forall sch d h stale c st, id_size_ok (d_idsize d) -> zsmall d st ->
  Forall (fun s => needs (d_idsize d) s < buffer_max) (zsaved sch) -> zsmall d (zrun d h stale c sch st).
Proof.
  induction sch as [|a r IH]; intros d h stale c st I Z F; cbn [zrun]; auto.
  destruct a as [s|fin]; cbn [zsaved] in F.
  - apply Forall_cons_iff in F as [F0 F]. apply IH; auto. destruct Z as (A & B & C & D).
    split; [exact A|]. split; [exact B|]. split; [|exact D].
    cbn [zsave z_q add_sample q_list]. apply Forall_app. auto.
  - apply IH; auto. apply zwork_small; auto.
Qed.
