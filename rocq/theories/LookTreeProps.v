(** C93: channels by name in groups with member channels. *)
From Coq Require Import Lia String.
From Verif Require Import Base XmlModel XmlProofs MetaModel MetaProofs3 BusLogModel LookModel LookSpec LookProps LookTreeModel.
Local Open Scope N_scope.
Local Open Scope list_scope.

Lemma place_map : forall A B (g : A -> B) f l, find_place f (map g l) = find_place (fun x => f (g x)) l.
Proof.
  induction l as [|x l IH]; [reflexivity|]. cbn [map find_place]. destruct (f (g x)); [reflexivity|]. rewrite IH. reflexivity.
Qed.

(** A channel is [top] or in [top] at any depth. *)
Inductive inside : cn -> cn -> Prop :=
| inside_self : forall c, inside c c
| inside_member : forall c h cx m, In (CSub m) cx -> inside c m -> inside c (mkCn h cx).

(** Channels() has the channels of the group and their members at any depth, and no others. *)
Theorem C93_members : forall l c, In c (channels_of l) <-> exists top, In top l /\ inside c top.
Proof.
  assert (F: forall c d, inside c d -> In c (all_channels d)).
  { intros c d H. induction H as [[h cx]|c h cx m I H IH]; [left; reflexivity|].
    right. apply in_flat_map. exists (CSub m). split; [exact I|exact IH]. }
  assert (B: forall d c, In c (all_channels d) -> inside c d).
  { induction d as [h cx IH] using cn_ind'. intros c [H|H]; [subst c; constructor|].
    apply in_flat_map in H. destruct H as ([a|m] & I & J); [contradiction|].
    apply (inside_member c h cx m I). exact (IH m I c J). }
  intros l c. unfold channels_of. rewrite in_flat_map. split; intros (t & I & J); exists t; split; auto.
Qed.
Print Assumptions C93_members.

(** CreateChannel in a group with members: the group's own channels stay as they are and at most one is added,
    and the names in Channels() and the returned place are those of C93_create_channel for the names of all
    channels and members. *)
Theorem C93_create_members : forall l name,
  let '(l', i) := create_channel4 l name in
  (exists new, l' = l ++ new /\ (List.length new <= 1)%nat) /\
  (map cn_name (channels_of l'), i) = create_channel (map cn_name (channels_of l)) name /\
  (exists c, nth_error (channels_of l') i = Some c /\ cn_name c = name) /\
  (l' = l <-> exists c, In c (channels_of l) /\ cn_name c = name).
Proof.
  intros l name. unfold create_channel4, create_channel. rewrite place_map, map_length.
  assert (EQ: forall c, beq (cn_name c) name = true <-> cn_name c = name) by (intros; apply beq_true).
  destruct (find_place _ (channels_of l)) as [i|] eqn:K.
  - apply (place_some _ _ _ EQ) in K. destruct K as [(c & X & E) _].
    split; [exists []; rewrite app_nil_r; split; [reflexivity|cbn; lia]|]. split; [reflexivity|].
    split; [exists c; auto|]. split; [intros _|reflexivity]. exists c. split; [eapply nth_error_In; exact X|exact E].
  - apply (place_none _ _ _ EQ) in K. set (new := mkCn _ []).
    assert (A: channels_of (l ++ [new]) = channels_of l ++ [new]) by (unfold channels_of; rewrite flat_map_app; reflexivity).
    split; [exists [new]; split; [reflexivity|cbn; lia]|].
    rewrite A, map_app. split; [reflexivity|]. split.
    + exists new. split; [|reflexivity]. rewrite nth_error_app2 by lia. rewrite Nat.sub_diag. reflexivity.
    + split.
      * intros H. apply (f_equal (@List.length cn)) in H. rewrite app_length in H. cbn in H. lia.
      * intros (c & I & E). rewrite Forall_forall in K. exfalso. exact (K c I E).
Qed.
Print Assumptions C93_create_members.

(** GetChannel in a group with members searches all channels and members. *)
Theorem C93_get_members : forall l name,
  (forall i, find_channel4 l name = Some i <-> first_at (fun c => part_of name (cn_name c)) (channels_of l) i) /\
  (find_channel4 l name = None <-> Forall (fun c => ~ part_of name (cn_name c)) (channels_of l)).
Proof.
  intros l name. split; [intros i; apply place_some|apply place_none]; intros c; apply contains_iff.
Qed.
Print Assumptions C93_get_members.

(** FINDING. CreateChannel returns a channel of the group itself: false. Members are searched as well
    (ichannelgroup.cpp:42-57 with cg4block.cpp:345-358), so with a member of that name, at any depth, the member is
    returned and the group gets no channel of the name. *)
Theorem C93_create_members_refuted : ~ forall l name,
  let '(l', i) := create_channel4 l name in exists c, nth_error (channels_of l') i = Some c /\ In c l'.
Proof.
  set (one := fun n cx => mkCn (bare_cnh 0 0 0 0 0 0 0 n) cx).
  intros H. specialize (H [one (lit "Frame"%string) [CSub (one (lit "ID"%string) [])]] (lit "ID"%string)).
  vm_compute in H. destruct H as (c & E & [I|[]]). rewrite <- I in E. discriminate E.
Qed.
Print Assumptions C93_create_members_refuted.

(** A frame with two members: a new channel is the last one, a member is found before it. *)
Example C93_members_witness :
  let one n cx := mkCn (bare_cnh 0 0 0 0 0 0 0 n) cx in
  let l := [one (lit "Frame"%string) [CSub (one (lit "ID"%string) [CSub (one (lit "Low"%string) [])]); CSub (one (lit "DLC"%string) [])]] in
  map cn_name (channels_of l) = [lit "Frame"%string; lit "ID"%string; lit "Low"%string; lit "DLC"%string] /\
  snd (create_channel4 l (lit "Speed"%string)) = 4%nat /\ create_channel4 l (lit "Low"%string) = (l, 2%nat) /\
  find_channel4 l (lit "L"%string) = Some 2%nat /\ find_channel4 l (lit "Speed"%string) = None.
Proof. vm_compute. repeat split. Qed.
