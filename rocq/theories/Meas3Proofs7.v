(** Reading the file of an MDF3 measurement. *)
From Verif Require Import Base BlockModel BlockSpec BlockProofs BlockProofs3 BlockProofs4 StreamModel StreamSpec StreamProofs StreamProofs2 RangeProofs Stream3Model Stream3Proofs
  ConvModel CcModel Cc3Proofs MetaModel MetaProofs
  IdentModel IdentSpec IdentProofs Meta3Model Meta3Spec Meta3Proofs Meta3Proofs2 MeasModel MeasProofs MeasProofs2 MeasProofs4
  Meas3Model Meas3Proofs Meas3Proofs2 Meas3Spec Meas3Proofs3 Meas3Proofs4 Meas3Proofs5 Meas3Proofs6.
Local Open Scope N_scope.

(* ------------------------------------------------------------------ *)
(** ** The description *)

(** The description [d'] with the numbers of [dx]. *)
Definition cgs_nums (xs gs : list cg3) : list cg3 := map (fun '(x, g) => set_nof (g3_nof x) g) (combine xs gs).
Definition dg_nums (dx d' : dgb3) : dgb3 := mkDgb3 (d3_ids d') (d3_link dx) (cgs_nums (d3_cgs dx) (d3_cgs d')).
Definition dgs_nums (xs ds : list dgb3) : list dgb3 := map (fun '(x, d) => dg_nums x d) (combine xs ds).

Definition fits_cg (g x : cg3) : Prop := only_nof g x /\ g3_nof x < 2 ^ 32.
Definition fits_dg (d x : dgb3) : Prop := d3_link x < 2 ^ 32 /\ Forall2 fits_cg (d3_cgs d) (d3_cgs x).

Lemma cgs_nums_as : forall gs xs gs', Forall2 fits_cg gs xs -> Forall2 cg3_as gs gs' -> Forall2 cg3_as xs (cgs_nums xs gs').
Proof.
  intros gs xs gs' F. revert gs'. induction F as [|g x r r' [E B] F IH]; intros gs' A; inversion A as [|? g' ? l' A1 A2]; subst.
  - constructor.
  - unfold cgs_nums. cbn [combine map]. constructor; [|apply IH; exact A2].
    destruct A1 as (B1 & B2 & _ & B4 & cns & C & ->). unfold only_nof in E. rewrite E. unfold cg3_as, set_nof.
    cbn [g3_id g3_size g3_nof g3_cns g3_comment g3_sr]. split; [exact B1|]. split; [exact B2|]. split; [exact B|]. split; [exact B4|].
    exists cns. split; [exact C|reflexivity].
Qed.

Lemma dg_nums_as : forall d x d', fits_dg d x -> dgb3_as d d' -> dgb3_as x (dg_nums x d').
Proof.
  intros d x d' [B F] (B1 & B2 & cgs & A & ->).
  assert (LL : length (d3_cgs x) = length (d3_cgs d)) by (eapply forall2_length; exact F).
  unfold dgb3_as, dg_nums. cbn [d3_ids d3_link d3_cgs]. rewrite LL. split; [exact B|]. split; [exact B2|].
  exists (cgs_nums (d3_cgs x) cgs). split; [eapply cgs_nums_as; eauto|reflexivity].
Qed.

Lemma dgs_nums_as : forall ds xs ds', Forall2 fits_dg ds xs -> Forall2 dgb3_as ds ds' -> Forall2 dgb3_as xs (dgs_nums xs ds').
Proof.
  intros ds xs ds' F. revert ds'. induction F as [|d x r r' E F IH]; intros ds' A; inversion A as [|? d' ? l' A1 A2]; subst.
  - constructor.
  - unfold dgs_nums. cbn [combine map]. constructor; [eapply dg_nums_as; eauto|apply IH; exact A2].
Qed.

Lemma fits_fuel : forall fuel ds xs, Forall2 fits_dg ds xs -> Forall (dgb3_fuel fuel) ds -> Forall (dgb3_fuel fuel) xs.
Proof.
  intros fuel ds xs F. induction F as [|d x r r' [_ E] F IH]; intros H; constructor.
  - apply Forall_inv in H. destruct H as [L C]. unfold dgb3_fuel. rewrite (forall2_length _ _ _ E). split; [exact L|].
    clear -E C. induction E as [|g y l l' [EO _] E IH]; constructor.
    + apply Forall_inv in C. unfold cg3_fuel in *. unfold only_nof in EO. rewrite EO. exact C.
    + apply IH. apply Forall_inv_tail in C. exact C.
  - apply IH. apply Forall_inv_tail in H. exact H.
Qed.

(** The header of the file is read with the numbers it was last written with. *)
Lemma read_view : forall fuel base h h' hx t xs data, (0 < length base)%nat -> hd3_as h h' -> hd3_fuel fuel h ->
  hx = set_time3 t (set_dgs3 h xs) -> time3_ok t -> Forall2 fits_dg (h3_dgs h) xs ->
  N.of_nat (length (base ++ hd_b hx (length base))) < 2 ^ 32 ->
  read_hd3 fuel (base ++ hd_b hx (length base) ++ data) (length base) = Ok (set_time3 t (set_dgs3 h' (dgs_nums xs (h3_dgs h')))).
Proof.
  intros fuel base h h' hx t xs data NE (_ & S & TC & dgs & A & ->) [FU FUS] EX TO F B.
  assert (AX : hd3_as hx (set_time3 t (set_dgs3 h (dgs_nums xs dgs)))).
  { rewrite EX. unfold hd3_as. cbn [set_time3 set_dgs3 h3_time h3_author h3_org h3_project h3_subject h3_comment h3_dgs].
    split; [exact TO|]. split; [exact S|]. split; [exact TC|]. exists (dgs_nums xs dgs). split; [eapply dgs_nums_as; eauto|reflexivity]. }
  assert (FX : hd3_fuel fuel hx).
  { rewrite EX. unfold hd3_fuel. cbn [set_time3 set_dgs3 h3_dgs]. rewrite (forall2_length _ _ _ F). split; [exact FU|]. eapply fits_fuel; eauto. }
  destruct (hd3_written fuel hx _ AX FX base NE) as (x & EW & _ & R).
  rewrite (hd_form3 hx base NE) in EW.
  assert (EB : base ++ hd_b hx (length base) = base ++ x) by congruence. apply app_inv_head in EB. subst x.
  apply (R B). apply holds_end.
Qed.

Lemma dgs_nums_nth : forall xs ds k x d, nth_error xs k = Some x -> nth_error ds k = Some d ->
  nth_error (dgs_nums xs ds) k = Some (dg_nums x d).
Proof.
  unfold dgs_nums. induction xs as [|a r IH]; intros [|b ds] [|k] x d E1 E2; try discriminate; cbn [nth_error combine map] in *.
  - congruence.
  - apply IH; assumption.
Qed.

Lemma nums_after : forall recs l d d', dgb3_as d d' -> dg_nums (dg_now recs l d) d' = dg3_after recs l d'.
Proof.
  intros recs l d d' (_ & _ & cgs & A & ->). unfold dg_nums, dg_now, dg3_after. cbn [d3_ids d3_link d3_cgs]. f_equal.
  unfold cgs_nums. induction A as [|g g' r r' A1 A IH]; [reflexivity|]. cbn [map combine]. rewrite IH. f_equal.
  destruct A1 as (_ & _ & _ & _ & cns & _ & ->). reflexivity.
Qed.

(* ------------------------------------------------------------------ *)
(** ** The records *)

(** Two data groups with the same ids and record sizes. *)
Definition same_groups (t t' : dg3) : Prop :=
  t_nrid t' = t_nrid t /\ Forall2 (fun g g' => h_id g' = h_id g /\ h_size g' = h_size g) (t_groups t) (t_groups t').

Lemma same_in : forall l l' g, Forall2 (fun g g' => h_id g' = h_id g /\ h_size g' = h_size g) l l' -> In g l' ->
  exists x, In x l /\ h_id g = h_id x /\ h_size g = h_size x.
Proof.
  intros l l' g F. induction F as [|a b r r' [E1 E2] F IH]; intros []; subst.
  - exists a. split; [left; reflexivity|auto].
  - destruct (IH H) as (x & I & E). exists x. split; [right; exact I|exact E].
Qed.
Lemma same_in' : forall l l' g, Forall2 (fun g g' => h_id g' = h_id g /\ h_size g' = h_size g) l l' -> In g l ->
  exists x, In x l' /\ h_id x = h_id g /\ h_size x = h_size g.
Proof.
  intros l l' g F. induction F as [|a b r r' [E1 E2] F IH]; intros []; subst.
  - exists b. split; [left; reflexivity|auto].
  - destruct (IH H) as (x & I & E). exists x. split; [right; exact I|exact E].
Qed.

Lemma same_ok : forall t t', same_groups t t' -> dg3_ok t -> dg3_ok t'.
Proof.
  intros t t' [EN F] [O1 O2 O3 O4 O5]. constructor.
  - destruct F; [congruence|discriminate].
  - assert (E : map h_id (t_groups t') = map h_id (t_groups t)).
    { clear -F. induction F as [|a b r r' [E1 E2] F IH]; [reflexivity|]. cbn [map]. rewrite E1, IH. reflexivity. }
    rewrite E. exact O2.
  - rewrite EN. exact O3.
  - intros Z. rewrite EN in Z. destruct (O4 Z) as (g & E & EI). rewrite E in F.
    inversion F as [|? b ? r' [E1 E2] F']; subst. inversion F'; subst. exists b. split; [reflexivity|congruence].
  - intros g Hg. destruct (same_in _ _ _ F Hg) as (x & I & _ & ->). apply O5. exact I.
Qed.

Lemma same_recs : forall t t' recs, same_groups t t' -> Forall (rec3_ok t) recs -> Forall (rec3_ok t') recs.
Proof.
  intros t t' recs [EN F] H. eapply Forall_impl; [|exact H]. cbv beta. intros r (g & I & E1 & E2).
  destruct (same_in' _ _ _ F I) as (x & IX & Q1 & Q2). exists x. split; [exact IX|]. split; congruence.
Qed.

(** A data group as read, with any numbers. *)
Lemma nums_groups : forall d d' x, dgb3_as d d' -> Forall2 only_nof (d3_cgs d) (d3_cgs x) ->
  same_groups (dgroup3_of (set_ids3 d)) (dgroup3_of (dg_nums x d')).
Proof.
  intros d d' x (_ & B & cgs & A & ->) F. unfold same_groups, dgroup3_of, set_ids3, dg_nums.
  cbn [t_nrid t_groups d3_ids d3_cgs d3_link]. split.
  - unfold ids_for. replace (w16 (N.of_nat (length (d3_cgs d)))) with (N.of_nat (length (d3_cgs d))) by (symmetry; apply N.mod_small; exact B). reflexivity.
  - revert cgs A. induction F as [|g y r r' EO F IH]; intros cgs A; inversion A as [|? g' ? l' A1 A2]; subst.
    + constructor.
    + unfold cgs_nums. cbn [map combine]. constructor; [|apply (IH ltac:(cbn [length] in B; lia) l' A2)].
      destruct A1 as (_ & _ & _ & _ & cns & _ & ->). split; reflexivity.
Qed.

Lemma bytes3_stream : forall d recs t, records3_ok d recs -> t_nrid t = ids_for d -> bytes3 (ids_for d) recs = stream3 t recs.
Proof.
  intros d recs t (_ & IDS & F) EN. unfold bytes3, stream3. f_equal. apply map_ext_in. intros r Hr.
  rewrite Forall_forall in F. destruct (F r Hr) as (g & I & EI & _).
  unfold dgroup3_of, set_ids3 in I. cbn [t_groups d3_cgs] in I. apply in_map_iff in I. destruct I as (c & <- & IC).
  specialize (IDS c IC). cbn [group3_of h_id] in EI.
  unfold put3, enc3. rewrite EN.
  assert (EW : w8 (r_id r) = r_id r) by (apply N.mod_small; lia).
  rewrite EW. unfold ids_for. destruct (1 <? _); reflexivity.
Qed.

Lemma occ_bytes : forall d recs id, records3_ok d recs -> occ id recs <= N.of_nat (length (bytes3 (ids_for d) recs)).
Proof.
  intros d recs id R. rewrite (bytes3_stream d recs (dgroup3_of (set_ids3 d)) R eq_refl). destruct R as (O & _ & F).
  induction F as [|r t HR F IH]; [cbn; lia|].
  rewrite occ_cons. change (stream3 (dgroup3_of (set_ids3 d)) (r :: t)) with (enc3 (dgroup3_of (set_ids3 d)) r ++ stream3 (dgroup3_of (set_ids3 d)) t).
  rewrite app_length. pose proof (enc3_pos _ _ O HR). destruct (r_id r =? id); lia.
Qed.

(** The groups of [x] have counters between the numbers of old and of all records. *)
Definition between (old new : list srec) (x : cg3) : Prop :=
  g3_nof x = occ (g3_id x) old \/ g3_nof x = occ (g3_id x) (old ++ new).

Lemma nums_in : forall d d' x g, dgb3_as d d' -> Forall2 only_nof (d3_cgs d) (d3_cgs x) -> In g (t_groups (dgroup3_of (dg_nums x d'))) ->
  exists c, In c (d3_cgs x) /\ h_id g = g3_id c /\ h_nof g = g3_nof c.
Proof.
  intros d d' x g (_ & _ & cgs & A & ->) F I. unfold dgroup3_of, dg_nums in I. cbn [t_groups d3_cgs] in I.
  revert cgs A I. induction F as [|a y r r' EO F IH]; intros cgs A I; inversion A as [|? g' ? l' A1 A2]; subst; [destruct I|].
  unfold cgs_nums in I. cbn [map combine] in I. destruct I as [<-|I].
  - exists y. split; [left; reflexivity|]. destruct A1 as (_ & _ & _ & _ & cns & _ & ->). unfold only_nof in EO. rewrite EO. split; reflexivity.
  - destruct (IH l' A2 I) as (c & IC & E). exists c. split; [right; exact IC|exact E].
Qed.

Lemma group_part : forall d d' x old new fuel a b, dgb3_as d d' -> Forall2 only_nof (d3_cgs d) (d3_cgs x) ->
  records3_ok d (old ++ new) -> Forall (between old new) (d3_cgs x) -> d3_link x = N.of_nat (length a) ->
  (length (bytes3 (ids_for d) (old ++ new)) < fuel)%nat ->
  exists more, read_data3 (dgroup3_of (dg_nums x d')) (fun _ => true) fuel (a ++ bytes3 (ids_for d) (old ++ new) ++ b) =
      Some (numbered (fun _ => true) [] old ++ more) /\
    part_of more (numbered (fun _ => true) old new).
Proof.
  intros d d' x old new fuel a b A F R B EL LF.
  set (t := dgroup3_of (dg_nums x d')). pose proof (nums_groups d d' x A F) as SG. fold t in SG.
  rewrite (bytes3_stream d (old ++ new) t R (proj1 SG)) in *. destruct R as (O & _ & FR).
  apply read3_part.
  - eapply same_ok; eauto.
  - eapply same_recs; eauto.
  - intros g Hg. destruct (nums_in _ _ _ _ A F Hg) as (c & IC & E1 & E2). rewrite Forall_forall in B.
    specialize (B c IC). rewrite E1, E2. unfold between in B. rewrite occ_app in *. destruct B as [-> | ->]; lia.
  - unfold t, dgroup3_of, dg_nums. cbn [t_link d3_link]. rewrite EL. apply Nat2N.id.
  - exact LF.
Qed.

(** No records: nothing is read. *)
Lemma group_none : forall d x fuel f, Forall (fun g => g3_nof g = 0) (d3_cgs x) -> (0 < fuel)%nat ->
  read_data3 (dgroup3_of (dg_nums x d)) (fun _ => true) fuel f = Some [].
Proof.
  intros d x fuel f Z L. unfold read_data3.
  assert (EZ : data_size3 (dgroup3_of (dg_nums x d)) = 0).
  { unfold data_size3, dgroup3_of, dg_nums. cbn [t_nrid t_groups d3_cgs d3_ids]. unfold cgs_nums.
    generalize (d3_cgs d). induction Z as [|g r E Z IH]; intros [|c l]; try reflexivity.
    cbn [combine map fold_right group3_of h_nof set_nof g3_nof]. rewrite IH, E. lia. }
  rewrite EZ. destruct fuel; [lia|]. reflexivity.
Qed.
