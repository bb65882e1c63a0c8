(** The configuration of a CAN bus log and the names of its groups. *)
From Coq Require Import String.
From Verif Require Import Base BlockModel ConvModel CcModel StreamModel StreamSpec ChannelModel ChannelSpec HistProofs QueueModel QueueSpec BusModel BusSpec CanModel CanSpec SortModel
  MetaModel MetaSpec MeasModel MeasSpec ValueModel ValueSpec ValueProofs BusLogModel BusLogSpec BusLogProofs BusLogProofs2.
Local Open Scope N_scope.
Local Open Scope list_scope.

Lemma bare_same : forall t mand st max, map bare_cn (can_cns t mand st max) = can_cns t mand st max.
Proof.
  intros. unfold can_cns. cbn [map bare_cn]. f_equal. f_equal. rewrite map_map. f_equal.
Qed.

Lemma can_cg_size : forall t mand st max name id, N.of_nat max < 2 ^ 27 ->
  g_data (prepare_cg (can_cg t mand st max name id)) + g_inval (prepare_cg (can_cg t mand st max name id)) = N.of_nat (can_size t mand st max).
Proof.
  intros. rewrite <- (can_bytes (can_cg t mand st max name id) t mand st max (bare_same _ _ _ _)). apply prepared_sizes; [reflexivity|].
  rewrite (can_bytes (can_cg t mand st max name id) t mand st max (bare_same _ _ _ _)).
  change (2 ^ 27) with 134217728 in H. change (2 ^ 28) with 268435456. destruct t, mand, st; cbn [can_size]; lia.
Qed.

(** A message group of the configuration and the group after it. *)
Lemma one_log : forall d t mand st max name id, N.of_nat max < 2 ^ 27 -> (8 <= max)%nat -> st <> FixedStorage -> group_kind name = Some t ->
  In (prepare_cg (can_cg t mand st max name id)) (d_cgs d) ->
  (read_store t st = SVlsd -> In (prepare_cg (value_cg (w64 (id + 1)))) (d_cgs d)) ->
  log_ok d (log_of mand st max (can_cg t mand st max name id)) t.
Proof.
  intros d t mand st max name id M2 M1 NS GK I IV. constructor; cbn [log_of lg_name lg_id lg_mand lg_st lg_max lg_buf can_cg g_name g_record].
  - exact GK.
  - exists (can_cg t mand st max name id). split; [exact I|]. repeat split. apply bare_same.
  - auto.
  - exact NS.
  - intros R. exists (prepare_cg (value_cg (w64 (id + 1)))). split; [auto|]. split; reflexivity.
  - split.
    + unfold fresh_buffer. apply Forall_forall. intros b B. apply repeat_spec in B. subst. reflexivity.
    + change (mkCg id 0 6 46 0 0 name None None (can_cns t mand st max)) with (can_cg t mand st max name id).
      unfold fresh_buffer. rewrite repeat_length, can_cg_size by exact M2. unfold w32. rewrite N.mod_small; [lia|].
      change (2 ^ 27) with 134217728 in M2. change (2 ^ 32) with 4294967296. destruct t, mand, st; cbn [can_size]; lia.
Qed.

Lemma config_ok : forall mand st max name d, (8 <= max)%nat -> N.of_nat max < 2 ^ 27 -> st <> FixedStorage -> (forall t, group_kind (name t) = Some t) ->
  d_cgs d = map prepare_cg (can_config mand st max name) -> logs_ok d (config_logs mand st max name).
Proof.
  intros mand st max name d M1 M2 NS GK E. split.
  - unfold config_logs. destruct st, mand; try congruence; cbn; repeat constructor; cbn; intuition discriminate.
  - intros c I. unfold config_logs in I. rewrite in_map_iff in I. destruct I as (g & <- & I). apply filter_In in I. destruct I as [I V].
    assert (X : exists t id, g = can_cg t mand st max (name t) id /\ (read_store t st = SVlsd -> In (value_cg (w64 (id + 1))) (can_config mand st max name))).
    { destruct st, mand; try congruence; cbn [can_config app In] in I |- *; decompose [or] I; subst; try discriminate V;
        try match goal with H : False |- _ => destruct H end; eexists; eexists; (split; [reflexivity|]); cbn [read_store has_bytes]; intros R; try discriminate R;
        cbn [w64]; auto 8. }
    destruct X as (t & id & -> & VV). exists t. apply one_log; auto.
    + rewrite E. apply in_map. exact I.
    + intros R. rewrite E. apply in_map. apply VV. exact R.
Qed.

Lemma config_group : forall mand st max name d, d_cgs d = map prepare_cg (can_config mand st max name) -> MetaModel.d_idsize d = 1 -> StreamSpec.dg_ok (dgroup_of d).
Proof.
  intros mand st max name d E S.
  assert (ID : map StreamModel.g_id (d_groups (dgroup_of d)) = map g_record (can_config mand st max name)).
  { cbn [dgroup_of StreamModel.d_groups]. rewrite map_map, E, map_map. apply map_ext. intros g. cbn [MeasModel.group_of StreamModel.g_id]. unfold prepare_cg. destruct (MeasModel.is_vlsd g); [reflexivity|]. destruct (prepare_group (chans_of g)) as [[? ?] ?]. reflexivity. }
  constructor; cbn [dgroup_of StreamModel.d_idsize]; rewrite ?S.
  - intros X. rewrite X in ID. destruct st, mand; discriminate ID.
  - rewrite ID. destruct st, mand; cbn; repeat constructor; cbn; intuition discriminate.
  - right. left. reflexivity.
  - intros g I _. apply (in_map StreamModel.g_id) in I. rewrite ID in I. change (256 ^ 1) with 256.
    destruct st, mand; cbn in I; decompose [or] I; subst; try contradiction; lia.
  - discriminate.
  - discriminate.
Qed.

(* ------------------------------------------------------------------ *)
(** ** Names *)

Lemma digits_quiet : forall p id, Forall (fun b => 48 <= b < 58) id -> contains (95 :: p) id = false.
Proof.
  induction 1 as [|b id B F IH]; [reflexivity|]. cbn [contains starts]. replace (95 =? b) with false by lia. exact IH.
Qed.
Lemma head_quiet : forall a p id, 58 <= a -> Forall (fun b => 48 <= b < 58) id -> starts (a :: p) id = false.
Proof. intros a p id L F. destruct F as [|b id B F]; [reflexivity|]. cbn [starts]. replace (a =? b) with false by lia. reflexivity. Qed.

Lemma found_at : forall p a b, starts p b = true -> contains p (a ++ b) = true.
Proof.
  intros p a b S. induction a as [|x a IH].
  - cbn [app]. destruct b; cbn [contains]; rewrite S; reflexivity.
  - cbn [app contains]. rewrite IH. apply Bool.orb_true_r.
Qed.

Lemma skip_one : forall x y p c s, (x =? y) = false -> contains (95 :: x :: p) (c :: y :: s) = contains (95 :: x :: p) (y :: s).
Proof.
  intros x y p c s E. change (contains (95 :: x :: p) (c :: y :: s)) with (((95 =? c) && ((x =? y) && starts p s)) || contains (95 :: x :: p) (y :: s)).
  rewrite E, Bool.andb_false_r. reflexivity.
Qed.

Definition quiet (s : list N) : Prop := forall t, contains (lit "_" ++ frame_name t) s = false.

Lemma tail_quiet : forall id, Forall (fun b => 48 <= b < 58) id -> quiet (lit "_" ++ id).
Proof.
  intros id F t. change (lit "_" ++ id) with (95 :: id). change (lit "_" ++ frame_name t) with (95 :: frame_name t). cbn [contains].
  rewrite (digits_quiet (frame_name t) id F), Bool.orb_false_r. cbn [starts]. rewrite N.eqb_refl. cbn [andb].
  destruct t; (apply head_quiet; [vm_compute; discriminate|exact F]).
Qed.

Lemma other_frame : forall t u tail, t <> u -> quiet tail -> contains (lit "_" ++ frame_name u) (lit "_" ++ frame_name t ++ tail) = false.
Proof.
  intros t u tail N Q. pose proof (Q u) as Qu. clear Q. destruct t, u; try congruence; exact Qu.
Qed.
Lemma behind_can : forall t u tail, t <> u -> quiet tail -> contains (lit "_" ++ frame_name u) (lit "CAN" ++ lit "_" ++ frame_name t ++ tail) = false.
Proof. intros t u tail N Q. eapply eq_trans; [|exact (other_frame t u tail N Q)]. destruct u; reflexivity. Qed.
Lemma behind_number : forall t u c tail, t <> u -> quiet tail -> contains (lit "_" ++ frame_name u) (lit "CAN" ++ [c] ++ lit "_" ++ frame_name t ++ tail) = false.
Proof.
  intros t u c tail N Q. eapply eq_trans; [|exact (other_frame t u tail N Q)]. change (lit "_" ++ frame_name t ++ tail) with (95 :: frame_name t ++ tail).
  assert (X : forall p, contains (95 :: p) (lit "CAN" ++ [c] ++ 95 :: frame_name t ++ tail) = contains (95 :: p) (c :: 95 :: frame_name t ++ tail)) by reflexivity.
  change (lit "_" ++ frame_name u) with (95 :: frame_name u). rewrite X. destruct u; apply skip_one; reflexivity.
Qed.
Lemma frame_found : forall t a tail, contains (lit "_" ++ frame_name t) (a ++ lit "_" ++ frame_name t ++ tail) = true.
Proof. intros t a tail. apply found_at. destruct t; reflexivity. Qed.

Lemma kind_of : forall name t, (forall u, t <> u -> contains (lit "_" ++ frame_name u) name = false) -> contains (lit "_" ++ frame_name t) name = true -> group_kind name = Some t.
Proof.
  intros name t O H. unfold group_kind. destruct t; rewrite ?(O CanData), ?(O CanRemote), ?(O CanError) by discriminate; rewrite H; reflexivity.
Qed.

Lemma names_right : forall bus f channel id t, contains (lit "CAN") bus = true -> Forall (fun b => 48 <= b < 58) id ->
  group_kind (make_group_name bus f channel id (frame_name t)) = Some t.
Proof.
  intros bus f channel id t B F. unfold make_group_name, bus_text. rewrite B.
  assert (Q0 : quiet []) by (intros u; destruct u; reflexivity). pose proof (tail_quiet id F) as Q1.
  destruct f.
  - rewrite <- (app_nil_r (frame_name t)). apply kind_of; [intros u N; apply behind_can; auto|apply frame_found].
  - rewrite <- (app_nil_r (frame_name t)). apply kind_of; [intros u N; apply behind_number; auto|].
    exact (frame_found t (lit "CAN" ++ [channel]) []).
  - destruct (0 <? channel).
    + apply kind_of; [intros u N; apply behind_number; auto|]. exact (frame_found t (lit "CAN" ++ [channel]) (lit "_" ++ id)).
    + apply kind_of; [intros u N; apply behind_can; auto|exact (frame_found t (lit "CAN") (lit "_" ++ id))].
Qed.
