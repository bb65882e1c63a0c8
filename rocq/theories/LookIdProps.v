(** C93: finding channel groups by record id. *)
From Coq Require Import Lia.
From Verif Require Import Base StreamModel Stream3Model IdProofs Stream3Proofs LookModel LookSpec LookProps.
Local Open Scope N_scope.

Lemma by_id : forall ids, NoDup ids -> forall id i, get_group_id ids id = Some i <-> nth_error ids i = Some id.
Proof.
  intros ids D id i. unfold get_group_id.
  rewrite (place_some _ (fun g => g =? id) (fun g => g = id) (fun g => N.eqb_eq g id)). split.
  - intros [(x & X & ->) _]. exact X.
  - intros E. split; [exists id; auto|]. intros j y L Y ->.
    rewrite NoDup_nth_error in D.
    assert (j < length ids)%nat by (apply nth_error_Some; congruence).
    specialize (D j i H ltac:(congruence)). lia.
Qed.

(** After any number of groups are created in an MDF 4 data group, GetChannelGroup with a record id gives the
    group that has it. With two groups or more, the ids that find a group are the numbers from 1 in the order of
    creation; a single group is found by 0 only. *)
Theorem C93_by_id : forall gs id i,
  (get_group_id (map g_id (d_groups (build4 gs))) id = Some i <->
   exists g, nth_error (d_groups (build4 gs)) i = Some g /\ g_id g = id) /\
  (get_group_id (map g_id (d_groups (build4 gs))) id = Some i <->
   (i < length gs)%nat /\ id = N.of_nat i + (if (length gs <? 2)%nat then 0 else 1)).
Proof.
  intros gs id i. rewrite (by_id _ (build4_nodup gs)). split.
  - rewrite nth_error_map. destruct (nth_error (d_groups (build4 gs)) i) as [g|]; cbn [option_map]; split.
    + intros E. injection E as <-. exists g. auto.
    + intros (h & E & <-). injection E as ->. reflexivity.
    + discriminate.
    + intros (h & E & _). discriminate.
  - rewrite build4_ids, nth_error_map.
    assert (C: (N.of_nat (length gs) <? 2) = (length gs <? 2)%nat).
    { destruct (N.ltb_spec (N.of_nat (length gs)) 2), (Nat.ltb_spec (length gs) 2); try reflexivity; lia. }
    rewrite C. destruct (Nat.lt_ge_cases i (length gs)) as [L|L].
    + rewrite (nth_error_nth' _ 0%nat) by (rewrite seq_length; exact L).
      rewrite seq_nth by exact L. cbn [option_map]. split.
      * intros E. injection E as <-. split; [exact L|]. lia.
      * intros [_ ->]. f_equal. lia.
    + rewrite (proj2 (nth_error_None _ _)) by (rewrite seq_length; exact L). split; [discriminate|lia].
Qed.
Print Assumptions C93_by_id.

(** In an MDF 3 data group of at most 256 groups GetChannelGroup with the record id of a group gives that group. *)
Theorem C93_by_id3_partial : forall gs link, (length gs <= 256)%nat -> forall id i,
  get_group_id (map h_id (t_groups (build3 gs link))) id = Some i <->
  exists g, nth_error (t_groups (build3 gs link)) i = Some g /\ h_id g = id.
Proof.
  intros gs link L id i. rewrite (by_id _ (proj2 (build3_nodup gs link) L)).
  rewrite nth_error_map. destruct (nth_error (t_groups (build3 gs link)) i) as [g|]; cbn [option_map]; split.
  - intros E. injection E as <-. exists g. auto.
  - intros (h & E & <-). injection E as ->. reflexivity.
  - discriminate.
  - intros (h & E & _). discriminate.
Qed.
Print Assumptions C93_by_id3_partial.

(** FINDING. In an MDF 3 data group every group is found by its record id: false with 257 groups or more. The ids
    are 8 bits and wrap (dg3block.cpp:151-153), so the id of the 257th group gives the first one. *)
Theorem C93_by_id3_refuted : ~ forall gs link i g,
  nth_error (t_groups (build3 gs link)) i = Some g ->
  get_group_id (map h_id (t_groups (build3 gs link))) (h_id g) = Some i.
Proof.
  intros H. specialize (H (repeat (mkG3 0 1 0 []) 257) 0%nat 256%nat (mkG3 1 1 0 [])).
  specialize (H ltac:(vm_compute; reflexivity)). vm_compute in H. discriminate H.
Qed.
Print Assumptions C93_by_id3_refuted.

(** Three groups are found by 1, 2 and 3, one group by 0. *)
Example C93_by_id_witness :
  let ids n := map g_id (d_groups (build4 (repeat (mkGroup 77 false 4 1 0) n))) in
  map (get_group_id (ids 3%nat)) [0; 1; 2; 3; 4] = [None; Some 0%nat; Some 1%nat; Some 2%nat; None] /\
  map (get_group_id (ids 1%nat)) [0; 1] = [Some 0%nat; None].
Proof. vm_compute. split; reflexivity. Qed.
