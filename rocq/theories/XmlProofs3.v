(** Proofs about XmlModel.v: what is seen of a tree of tags does not depend on the order of the
    attributes, nor on the white space that writing adds. *)
From Coq Require Import String Permutation.
From Verif Require Import Base BlockModel BlockSpec BlockProofs TextSpec XmlModel XmlSpec XmlProofs XmlProofs2.
Local Open Scope N_scope.
Local Open Scope list_scope.

(* ------------------------------------------------------------------ *)
(** ** Case *)

Lemma ieq_alike : forall a b, ieq a b = true <-> alike a b.
Proof. intros a b. unfold ieq. apply beq_true. Qed.
Lemma ieq_false : forall a b, ~ alike a b -> ieq a b = false.
Proof. intros a b H. apply Bool.not_true_is_false. rewrite ieq_alike. exact H. Qed.
Lemma alike_refl : forall a, alike a a. Proof. reflexivity. Qed.
Lemma alike_sym : forall a b, alike a b -> alike b a. Proof. unfold alike. congruence. Qed.
Lemma alike_trans : forall a b c, alike a b -> alike b c -> alike a c. Proof. unfold alike. congruence. Qed.
Lemma ieq_left : forall a b c, alike a b -> ieq a c = ieq b c.
Proof. intros a b c H. unfold ieq. unfold alike in H. change small with lower in H. rewrite H. reflexivity. Qed.
Lemma ieq_right : forall a b c, alike a b -> ieq c a = ieq c b.
Proof. intros a b c H. unfold ieq. unfold alike in H. change small with lower in H. rewrite H. reflexivity. Qed.
Lemma alike_dec : forall a b, {alike a b} + {~ alike a b}.
Proof. intros. unfold alike. apply list_eq_dec, N.eq_dec. Qed.

Lemma small_colon : forall c, small c = 58 <-> c = 58.
Proof.
  intros c. unfold small. destruct ((65 <=? c) && (c <=? 90)) eqn:E; [|tauto].
  apply andb_prop in E. destruct E as [E1 E2]. apply N.leb_le in E1, E2. lia.
Qed.
Lemma alike_colon : forall a b, alike a b -> In 58 a -> In 58 b.
Proof.
  intros a b H I. apply (in_map small) in I. change (small 58) with 58 in I. rewrite H in I.
  apply in_map_iff in I. destruct I as (x & E & I). apply (proj1 (small_colon x)) in E. subst. exact I.
Qed.

Lemma no_colon : forall s, ~ In 58 s -> after_colon s = None.
Proof.
  induction s as [|c s IH]; intros H; [reflexivity|]. cbn [after_colon].
  rewrite (proj2 (N.eqb_neq c 58)) by (intros ->; apply H; left; reflexivity).
  apply IH. intros I. apply H. right. exact I.
Qed.

Lemma is_tag_plain : forall t n, ~ In 58 (x_tag n) -> is_tag t n = ieq t (x_tag n).
Proof. intros t n H. unfold is_tag. rewrite no_colon by auto. apply Bool.orb_false_r. Qed.

Lemma is_tag_left : forall a b n, alike a b -> is_tag a n = is_tag b n.
Proof.
  intros a b n H. unfold is_tag. rewrite (ieq_left a b) by auto. destruct (after_colon (x_tag n)); [|reflexivity].
  rewrite (ieq_left a b) by auto. reflexivity.
Qed.

(* ------------------------------------------------------------------ *)
(** ** Attributes *)

Definition keys (l : list (list N * list N)) : list (list N) := map (fun a => map small (fst a)) l.

(** Tags without name space, and keys that differ not only in case. *)
Inductive tidy : xnode -> Prop :=
| tidy_level : forall t a v ks, ~ In 58 t -> NoDup (keys a) -> Forall tidy ks -> tidy (XNode t a v ks).

Definition lookup (k : list N) (n : xnode) : option (list N) :=
  match find (fun '(a, _) => ieq a k) (x_attrs n) with
  | Some (_, v) => Some (trim v)
  | None => None
  end.

Lemma existsb_perm : forall {A} (p : A -> bool) l l', Permutation l l' -> existsb p l = existsb p l'.
Proof.
  intros A p l l' H. apply Bool.eq_iff_eq_true. rewrite !existsb_exists.
  split; intros (x & I & E); exists x; (split; [|exact E]).
  - eapply Permutation_in; eauto.
  - eapply Permutation_in; [apply Permutation_sym; exact H|exact I].
Qed.

Lemma find_key_none : forall k l, find (fun '(a, _) => ieq a k) l = None <-> ~ In (map small k) (keys l).
Proof.
  intros k l. induction l as [|[a b] l IH].
  - cbn. split; auto.
  - cbn [find keys map fst]. destruct (ieq a k) eqn:E.
    + split; [discriminate|]. intros H. exfalso. apply H. left. apply ieq_alike in E. exact E.
    + rewrite IH. fold (keys l). split.
      * intros H [I|I]; [|auto]. apply Bool.diff_true_false. rewrite <- E. symmetry. apply ieq_alike. exact I.
      * intros H I. apply H. right. exact I.
Qed.

Lemma find_key_some : forall k l x, NoDup (keys l) ->
  (find (fun '(a, _) => ieq a k) l = Some x <-> In x l /\ alike (fst x) k).
Proof.
  intros k l x. induction l as [|[a b] l IH]; intros ND.
  - cbn. split; [discriminate|tauto].
  - cbn [keys map fst] in ND. inversion ND as [|? ? NI ND']; subst. fold (keys l) in *. cbn [find].
    destruct (ieq a k) eqn:E.
    + apply ieq_alike in E. split.
      * intros H. assert (x = (a, b)) as -> by congruence. split; [left; reflexivity|exact E].
      * intros [[I|I] A]; [congruence|]. exfalso. apply NI. unfold keys. apply in_map_iff. exists x. split; auto.
        unfold alike in *. congruence.
    + rewrite IH by auto. split.
      * intros [I A]. split; [right; exact I|exact A].
      * intros [[I|I] A]; [|auto]. subst x. exfalso. cbn [fst] in A. apply ieq_alike in A. congruence.
Qed.

Lemma keys_perm : forall l l', Permutation l l' -> Permutation (keys l) (keys l').
Proof. intros. apply Permutation_map. auto. Qed.

Lemma find_key_perm : forall k l l', NoDup (keys l) -> Permutation l l' ->
  find (fun '(a, _) => ieq a k) l = find (fun '(a, _) => ieq a k) l'.
Proof.
  intros k l l' ND P. assert (ND' : NoDup (keys l')) by (eapply Permutation_NoDup; [apply keys_perm; eauto|auto]).
  destruct (find _ l) as [x|] eqn:E.
  - symmetry. apply find_key_some; auto. apply find_key_some in E; auto. destruct E as [I A].
    split; auto. eapply Permutation_in; eauto.
  - symmetry. apply find_key_none. apply find_key_none in E. intros I. apply E.
    eapply Permutation_in; [|exact I]. apply Permutation_sym, keys_perm. auto.
Qed.

Lemma attribute_lookup : forall order k n, any_order order -> NoDup (keys (x_attrs n)) ->
  attribute order k n = lookup k n.
Proof.
  intros order k n OR ND. unfold attribute, lookup.
  rewrite <- (find_key_perm k (x_attrs n) (order (x_attrs n))); auto.
Qed.

(* ------------------------------------------------------------------ *)
(** ** The same tree *)

Lemma same_tag : forall n n', same n n' -> x_tag n = x_tag n'.
Proof. intros n n' H. inversion H; reflexivity. Qed.
Lemma same_attrs : forall n n', same n n' -> Permutation (x_attrs n) (x_attrs n').
Proof. intros n n' H. inversion H; subst; auto. Qed.
Lemma same_kids : forall n n', same n n' -> Forall2 same (x_kids n) (x_kids n').
Proof. intros n n' H. inversion H; subst; cbn; auto. Qed.

Lemma same_is_tag : forall t n n', same n n' -> is_tag t n = is_tag t n'.
Proof. intros t n n' H. unfold is_tag. rewrite (same_tag n n' H). reflexivity. Qed.
Lemma same_is_attr : forall k v n n', same n n' -> is_attr k v n = is_attr k v n'.
Proof. intros k v n n' H. unfold is_attr. apply existsb_perm, same_attrs. auto. Qed.

Definition both (r : option xnode) (r' : option xnode) : Prop :=
  match r, r' with
  | Some n, Some n' => same n n'
  | None, None => True
  | _, _ => False
  end.
Lemma find_same : forall p ks ks', (forall n n', same n n' -> p n = p n') -> Forall2 same ks ks' ->
  both (find p ks) (find p ks').
Proof.
  intros p ks ks' H. induction 1 as [|k k' ks ks' S F IH]; [exact Logic.I|]. cbn [find].
  rewrite <- (H k k' S). destruct (p k); [exact S|exact IH].
Qed.
Lemma get_node_same : forall t n n', same n n' -> both (get_node t n) (get_node t n').
Proof. intros t n n' H. apply find_same; [apply same_is_tag|apply same_kids; auto]. Qed.
Lemma get_named_same : forall t k v n n', same n n' -> both (get_named t k v n) (get_named t k v n').
Proof.
  intros t k v n n' H. apply find_same; [|apply same_kids; auto]. intros a b S.
  rewrite (same_is_tag t a b S), (same_is_attr k v a b S). reflexivity.
Qed.

(** The value of a tag without children. *)
Definition vtext (n : xnode) : list N := match x_kids n with [] => trim (x_value n) | _ => [] end.

Lemma ltrim_all : forall w, Forall (fun c => is_space c = true) w -> ltrim w = [].
Proof. induction 1 as [|c w H F IH]; [reflexivity|]. cbn [ltrim]. rewrite H. exact IH. Qed.
Lemma trim_blank : forall w, blank_text w -> trim w = [].
Proof.
  intros w H. assert (F : Forall (fun c => is_space c = true) w).
  { eapply Forall_impl; [|exact H]. cbv beta. intros c [-> | ->]; reflexivity. }
  unfold trim. rewrite ltrim_all by auto. reflexivity.
Qed.

Lemma value_same : forall n n', same n n' -> value_text n' = vtext n.
Proof.
  intros n n' H. inversion H as [|? ? ? ? ? ks ks' NE ? ? ?]; subst; unfold value_text, vtext; cbn.
  - reflexivity.
  - destruct ks; [congruence|]. apply trim_blank. auto.
Qed.
Lemma vtext_same : forall n n', same n n' -> vtext n' = vtext n.
Proof.
  intros n n' H. inversion H as [|? ? ? ? ? ks ks' NE ? ? F]; subst; unfold vtext; cbn; [reflexivity|].
  destruct ks; [congruence|]. inversion F; subst. reflexivity.
Qed.

Lemma forall2_impl_forall : forall {A} (R : A -> A -> Prop) (P : A -> Prop) ks ks',
  Forall (fun k => forall k', R k k' -> P k -> P k') ks -> Forall2 R ks ks' -> Forall P ks -> Forall P ks'.
Proof.
  intros A R P ks ks' H F. revert H. induction F as [|k k' ks ks' S F IH]; intros H G; [constructor|].
  inversion H; subst. inversion G; subst. constructor; auto.
Qed.

Lemma tidy_same : forall n n', same n n' -> tidy n -> tidy n'.
Proof.
  induction n as [t a v ks IH] using xnode_ind2. intros n' S T. inversion T; subst.
  assert (ND' : forall a', Permutation a a' -> NoDup (keys a'))
    by (intros a' P; eapply Permutation_NoDup; [apply keys_perm; eauto|auto]).
  inversion S; subst; constructor; auto.
  eapply forall2_impl_forall; [exact IH| |]; eauto.
Qed.

Lemma blank_ok : forall w, blank_text w -> text_ok w.
Proof.
  intros w H. exists w. split; [|symmetry; apply utf8_text_blank; auto].
  eapply Forall_impl; [|exact H]. cbv beta. intros c D. unfold xml_cp. lia.
Qed.

Lemma node_ok_same : forall n n', same n n' -> node_ok n -> node_ok n'.
Proof.
  induction n as [t a v ks IH] using xnode_ind2. intros n' S T. inversion T; subst.
  assert (ND' : forall a', Permutation a a' -> NoDup (map fst a'))
    by (intros a' P; eapply Permutation_NoDup; [apply Permutation_map; eauto|auto]).
  assert (F' : forall a', Permutation a a' -> Forall (fun x => name_ok (fst x) /\ line_ok (snd x)) a')
    by (intros a' P; eapply Permutation_Forall; eauto).
  inversion S; subst; constructor; auto.
  - apply blank_ok. auto.
  - eapply forall2_impl_forall; [exact IH| |]; eauto.
Qed.

(* ------------------------------------------------------------------ *)
(** ** Properties as they are seen *)

Definition look_text (k : list N) (n : xnode) : list N := match lookup k n with Some v => v | None => [] end.
Definition view_base (n : xnode) : ebase :=
  mkE (look_text (lit "name") n) (look_text (lit "desc") n) (look_text (lit "unit") n)
    (look_text (lit "unit_ref") n) (look_text (lit "type") n) (look_text (lit "xml:lang") n)
    (vtext n) (match lookup (lit "ro") n with Some v => read_bool v | None => false end)
    (match lookup (lit "ci") n with Some v => read_int v | None => (-1)%Z end).
Fixpoint view_etag (n : xnode) : etag :=
  match n with
  | XNode _ _ _ kids => ETag (view_base n) (concat (map (fun c => if is_etag c then [view_etag c] else []) kids))
  end.

Lemma lookup_same : forall k n n', same n n' -> tidy n -> lookup k n' = lookup k n.
Proof.
  intros k n n' S T. unfold lookup. inversion T; subst. cbn [x_attrs].
  rewrite (find_key_perm k a (x_attrs n')); auto. apply same_attrs in S. exact S.
Qed.

Lemma fetch_view : forall order n n', any_order order -> same n n' -> tidy n -> fetch_etag order n' = view_etag n.
Proof.
  intros order n n' OR. revert n'.
  induction n as [t a v ks IH] using xnode_ind2. intros n' S T.
  pose proof (tidy_same _ _ S T) as T'. inversion T as [? ? ? ? N1 N2 N3]; subst.
  destruct n' as [t' a' v' ks']. inversion T' as [? ? ? ? M1 M2 M3]; subst.
  cbn [fetch_etag view_etag]. f_equal.
  - unfold fetch_base, view_base, attr_text, attr_bool, attr_int, look_text.
    rewrite !attribute_lookup by auto. rewrite !(lookup_same _ _ _ S T).
    rewrite (value_same _ _ S). reflexivity.
  - apply same_kids in S. cbn [x_kids] in S. clear - IH S N3 OR.
    induction S as [|k k' ks ks' S F IH2]; [reflexivity|].
    inversion IH; subst. inversion N3; subst. cbn [map concat]. rewrite IH2 by auto. f_equal.
    unfold is_etag. rewrite <- !(same_is_tag _ _ _ S). destruct (_ || _); [|reflexivity].
    f_equal. auto.
Qed.

Lemma view_same : forall n n', same n n' -> tidy n -> view_etag n' = view_etag n.
Proof.
  induction n as [t a v ks IH] using xnode_ind2. intros n' S T.
  inversion T as [? ? ? ? N1 N2 N3]; subst. destruct n' as [t' a' v' ks'].
  cbn [view_etag]. f_equal.
  - unfold view_base, look_text. rewrite !(lookup_same _ _ _ S T). rewrite (vtext_same _ _ S). reflexivity.
  - apply same_kids in S. cbn [x_kids] in S. clear - IH S N3.
    induction S as [|k k' ks ks' S F IH2]; [reflexivity|].
    inversion IH; subst. inversion N3; subst. cbn [map concat]. rewrite IH2 by auto. f_equal.
    unfold is_etag. rewrite <- !(same_is_tag _ _ _ S). destruct (_ || _); [|reflexivity].
    f_equal. auto.
Qed.
