(** Record ids of an MDF4 data group, and the writer's record encoding. *)
From Verif Require Import Base StreamModel StreamSpec StreamProofs Stream3Proofs.
Local Open Scope N_scope.

Definition build4 (l : list group) : dgroup := fold_left add_cg4 l (mkDg 0 []).

Lemma build4_snoc : forall l g, build4 (l ++ [g]) = add_cg4 (build4 l) g.
Proof. intros. unfold build4. rewrite fold_left_app. reflexivity. Qed.

Lemma renumber_length : forall l id, length (renumber id l) = length l.
Proof. induction l; intros; cbn; auto. Qed.

Lemma renumber_ids : forall l id,
  map g_id (renumber id l) = map (fun k => id + N.of_nat k) (seq 0 (length l)).
Proof.
  induction l as [|g r IH]; intros id; [reflexivity|].
  cbn [renumber map length seq g_id]. f_equal; [lia|].
  rewrite IH, <- seq_shift, map_map. apply map_ext. intros k. lia.
Qed.

Lemma renumber_attr : forall l id,
  map (fun g => (g_vlsd g, g_data g, g_inval g, g_nof g)) (renumber id l) =
  map (fun g => (g_vlsd g, g_data g, g_inval g, g_nof g)) l.
Proof. induction l; intros; cbn; f_equal; auto. Qed.

Lemma build4_length : forall l, length (d_groups (build4 l)) = length l.
Proof.
  induction l as [|g l IH] using rev_ind; [reflexivity|].
  rewrite build4_snoc. unfold add_cg4. cbn [d_groups].
  rewrite renumber_length, !app_length, IH. reflexivity.
Qed.

Lemma build4_attr : forall l,
  map (fun g => (g_vlsd g, g_data g, g_inval g, g_nof g)) (d_groups (build4 l)) =
  map (fun g => (g_vlsd g, g_data g, g_inval g, g_nof g)) l.
Proof.
  induction l as [|g l IH] using rev_ind; [reflexivity|].
  rewrite build4_snoc. unfold add_cg4. cbn [d_groups].
  rewrite renumber_attr, !map_app, IH. reflexivity.
Qed.

Lemma build4_ids : forall l,
  map g_id (d_groups (build4 l)) =
  map (fun k => (if N.of_nat (length l) <? 2 then 0 else 1) + N.of_nat k) (seq 0 (length l)).
Proof.
  intros l. destruct l as [|g l _] using rev_ind; [reflexivity|].
  rewrite build4_snoc. unfold add_cg4. cbn [d_groups].
  rewrite renumber_ids, !app_length, build4_length. reflexivity.
Qed.

Lemma build4_idsize : forall l, d_idsize (build4 l) = id_size_for (N.of_nat (length l)).
Proof.
  intros l. destruct l as [|g l _] using rev_ind; [reflexivity|].
  rewrite build4_snoc. unfold add_cg4. cbn [d_idsize].
  rewrite !app_length, build4_length. reflexivity.
Qed.

Lemma id_size_in : forall n, In (id_size_for n) [0; 1; 2; 4; 8].
Proof.
  intros n. unfold id_size_for.
  destruct (n <? 2); [cbn; auto|]. destruct (n <? 0x100); [cbn; auto|].
  destruct (n <? 0x10000); [cbn; auto|]. destruct (n <? 0x100000000); cbn; auto 8.
Qed.

Lemma id_size_fits : forall n, n < 2 ^ 64 -> 2 <= n -> n < 256 ^ id_size_for n.
Proof.
  intros n H L. unfold id_size_for.
  destruct (N.ltb_spec n 2); [lia|]. destruct (N.ltb_spec n 0x100); [change (256 ^ 1) with 256; lia|].
  destruct (N.ltb_spec n 0x10000); [change (256 ^ 2) with 0x10000; lia|].
  destruct (N.ltb_spec n 0x100000000); [change (256 ^ 4) with 0x100000000; lia|].
  change (256 ^ 8) with (2 ^ 64). lia.
Qed.

Lemma build4_nodup : forall l, NoDup (map g_id (d_groups (build4 l))).
Proof.
  intros l. rewrite build4_ids. apply nodup_map_on; [apply seq_NoDup|].
  intros x y _ _ E. lia.
Qed.

Lemma build4_fit : forall l g, N.of_nat (length l) < 2 ^ 64 -> In g (d_groups (build4 l)) ->
  g_id g < 256 ^ d_idsize (build4 l).
Proof.
  intros l g L Hin. apply (in_map g_id) in Hin. rewrite build4_ids in Hin.
  apply in_map_iff in Hin as (k & E & Hk). apply in_seq in Hk. rewrite build4_idsize, <- E.
  destruct (N.ltb_spec (N.of_nat (length l)) 2) as [Q|Q].
  - pose proof (pow256_pos (id_size_for (N.of_nat (length l)))). lia.
  - pose proof (id_size_fits _ L Q). lia.
Qed.

Lemma build4_single : forall l, d_idsize (build4 l) = 0 <-> (length l < 2)%nat.
Proof.
  intros l. rewrite build4_idsize. unfold id_size_for.
  destruct (N.ltb_spec (N.of_nat (length l)) 2); [split; auto; lia|].
  destruct (_ <? 0x100); [split; [discriminate|lia]|].
  destruct (_ <? 0x10000); [split; [discriminate|lia]|].
  destruct (_ <? 0x100000000); split; try discriminate; lia.
Qed.

(** A data group built by adding groups meets the hypotheses of the reading theorems. *)
Lemma build4_ok : forall l, l <> [] -> N.of_nat (length l) < 2 ^ 64 ->
  (forall g, In g l -> (0 < rec_size g)%nat) -> dg_ok (build4 l).
Proof.
  intros l HN L P. pose proof (build4_length l) as LB. constructor.
  - intros E. rewrite E in LB. destruct l; [congruence|discriminate].
  - apply build4_nodup.
  - rewrite build4_idsize. apply id_size_in.
  - intros g Hin _. apply build4_fit; auto.
  - intros E. apply build4_single in E. rewrite LB. destruct l; [congruence|]. cbn [length] in *. lia.
  - intros g Hin _ _. pose proof (build4_attr l) as A.
    assert (K : In (g_vlsd g, g_data g, g_inval g, g_nof g)
                  (map (fun g => (g_vlsd g, g_data g, g_inval g, g_nof g)) l)).
    { rewrite <- A. apply (in_map (fun g => (g_vlsd g, g_data g, g_inval g, g_nof g))). auto. }
    apply in_map_iff in K as (g1 & E & Hg). injection E as _ E1 E2 _.
    unfold rec_size. rewrite <- E1, <- E2. apply (P g1 Hg).
Qed.

(* ------------------------------------------------------------------ *)
(** ** The writer's encoding *)

(** What the writer stores for a record of the group with this id. *)
Definition written (d : dgroup) (r : srec) : list N :=
  if vlsd_id d (r_id r) then vlsd_record (d_idsize d) (r_id r) (r_data r)
  else fixed_record (d_idsize d) (r_id r) (r_data r).

Lemma put_id_le : forall d g, dg_ok d -> In g (d_groups d) ->
  put_id (d_idsize d) (g_id g) = le_bytes (N.to_nat (d_idsize d)) (g_id g).
Proof.
  intros d g H Hin. pose proof (dg_size _ H) as S. pose proof (dg_fit _ H g Hin) as FIT.
  unfold put_id, w8, w16, w32, w64.
  cbn [In] in S. destruct S as [S|[S|[S|[S|[S|[]]]]]]; rewrite <- S in *; cbn [N.eqb Pos.eqb].
  - reflexivity.
  - rewrite N.mod_small; [reflexivity|]. apply FIT; discriminate.
  - rewrite N.mod_small; [reflexivity|]. apply FIT; discriminate.
  - rewrite N.mod_small; [reflexivity|]. apply FIT; discriminate.
  - rewrite N.mod_small; [reflexivity|]. apply FIT; discriminate.
Qed.

Lemma written_enc : forall d r, dg_ok d -> rec_ok d r -> written d r = enc_rec d r.
Proof.
  intros d r H (g & Hin & Eid & R). unfold written, enc_rec, vlsd_record, fixed_record.
  rewrite <- Eid, (vlsd_id_in d g H Hin), (put_id_le d g H Hin).
  destruct (g_vlsd g); [|reflexivity].
  unfold w32. rewrite N.mod_small by auto. reflexivity.
Qed.

Lemma written_stream : forall d recs, dg_ok d -> Forall (rec_ok d) recs ->
  concat (map (written d) recs) = stream d recs.
Proof.
  intros d recs H F. unfold stream. f_equal. apply map_ext_in. intros r Hr.
  rewrite Forall_forall in F. apply written_enc; auto.
Qed.
