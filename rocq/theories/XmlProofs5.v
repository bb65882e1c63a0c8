(** Proofs about XmlModel.v: a property that is set, among the others. *)
From Coq Require Import String Permutation DecimalN.
From Verif Require Import Base BlockModel BlockSpec BlockProofs TextSpec XmlModel XmlSpec XmlProofs XmlProofs2 XmlProofs3 XmlProofs4.
Local Open Scope N_scope.
Local Open Scope list_scope.

Definition named (t name : list N) (c : xnode) : bool := is_tag t c && is_attr k_name name c.
Definition cfind (t name : list N) (ks : list xnode) : option xnode := find (named t name) ks.

(* ------------------------------------------------------------------ *)
(** ** Attributes *)

Lemma is_attr_other : forall k x v n, ieq k k_name = false -> is_attr k_name v (set_attr k x n) = is_attr k_name v n.
Proof.
  intros k x v n H. unfold is_attr, set_attr. cbn [x_attrs]. destruct (existsb _ (x_attrs n)); [reflexivity|].
  rewrite existsb_app. cbn [existsb]. rewrite H. cbn [andb orb]. apply Bool.orb_false_r.
Qed.
Lemma is_attr_text : forall k x v n, ieq k k_name = false -> is_attr k_name v (set_text k x n) = is_attr k_name v n.
Proof. intros k x v n H. unfold set_text. destruct x; [reflexivity|]. apply is_attr_other. auto. Qed.
Lemma is_attr_ci : forall x v n, is_attr k_name v (set_ci x n) = is_attr k_name v n.
Proof. intros x v n. unfold set_ci. destruct (0 <=? x)%Z; [|reflexivity]. apply is_attr_other. reflexivity. Qed.
Lemma is_attr_ro : forall x v n, is_attr k_name v (set_ro x n) = is_attr k_name v n.
Proof. intros x v n. unfold set_ro. destruct x; [|reflexivity]. apply is_attr_other. reflexivity. Qed.

Lemma set_text_tag : forall k v n, x_tag (set_text k v n) = x_tag n. Proof. intros k [|c v] n; reflexivity. Qed.
Lemma set_text_kids : forall k v n, x_kids (set_text k v n) = x_kids n. Proof. intros k [|c v] n; reflexivity. Qed.
Lemma set_text_value : forall k v n, x_value (set_text k v n) = x_value n. Proof. intros k [|c v] n; reflexivity. Qed.
Lemma set_ci_tag : forall v n, x_tag (set_ci v n) = x_tag n. Proof. intros v n. unfold set_ci. destruct (0 <=? v)%Z; reflexivity. Qed.
Lemma set_ci_kids : forall v n, x_kids (set_ci v n) = x_kids n. Proof. intros v n. unfold set_ci. destruct (0 <=? v)%Z; reflexivity. Qed.
Lemma set_ci_value : forall v n, x_value (set_ci v n) = x_value n. Proof. intros v n. unfold set_ci. destruct (0 <=? v)%Z; reflexivity. Qed.
Lemma set_ro_tag : forall v n, x_tag (set_ro v n) = x_tag n. Proof. intros [] n; reflexivity. Qed.
Lemma set_ro_kids : forall v n, x_kids (set_ro v n) = x_kids n. Proof. intros [] n; reflexivity. Qed.

Lemma put_leaf_tag : forall b n, x_tag (put_leaf b n) = x_tag n.
Proof. intros b n. unfold put_leaf. cbn [set_value x_tag]. rewrite !set_text_tag, set_ro_tag, !set_text_tag, set_ci_tag, set_text_tag. reflexivity. Qed.
Lemma put_leaf_kids : forall b n, x_kids (put_leaf b n) = x_kids n.
Proof. intros b n. unfold put_leaf. cbn [set_value x_kids]. rewrite !set_text_kids, set_ro_kids, !set_text_kids, set_ci_kids, set_text_kids. reflexivity. Qed.
Lemma put_leaf_value : forall b n, x_value (put_leaf b n) = e_value b.
Proof. reflexivity. Qed.
Lemma put_leaf_name : forall b v n, is_attr k_name v (put_leaf b n) = is_attr k_name v n.
Proof.
  intros b v n. unfold put_leaf.
  assert (SV : forall x y, is_attr k_name v (set_value x y) = is_attr k_name v y) by reflexivity. rewrite SV.
  rewrite !is_attr_text by reflexivity. rewrite is_attr_ro, !is_attr_text by reflexivity.
  rewrite is_attr_ci, is_attr_text by reflexivity. reflexivity.
Qed.

(** Setting properties of a tree changes the children only. *)
Lemma insert_shape : forall e n, x_tag (insert_etag e n) = x_tag n /\ x_attrs (insert_etag e n) = x_attrs n /\
  x_value (insert_etag e n) = x_value n.
Proof.
  intros [b tree] n. cbn [insert_etag]. destruct (e_name b); [auto|]. destruct tree; unfold edit_named; auto.
Qed.
Lemma inserts_shape : forall es n, let r := fold_left (fun n t => insert_etag t n) es n in
  x_tag r = x_tag n /\ x_attrs r = x_attrs n /\ x_value r = x_value n.
Proof.
  induction es as [|e es IH]; intros n; [auto|]. cbn [fold_left]. destruct (IH (insert_etag e n)) as (A & B & C).
  destruct (insert_shape e n) as (A' & B' & C'). cbv zeta. rewrite A, B, C, A', B', C'. auto.
Qed.

Definition put_tree (b : ebase) (tree : list etag) (n : xnode) : xnode :=
  fold_left (fun n t => insert_etag t n) tree (set_ci (e_ci b) (set_text (lit "desc") (e_desc b) n)).
Lemma put_tree_tag : forall b tree n, x_tag (put_tree b tree n) = x_tag n.
Proof.
  intros b tree n. unfold put_tree.
  destruct (inserts_shape tree (set_ci (e_ci b) (set_text (lit "desc") (e_desc b) n))) as (A & _ & _).
  rewrite A, set_ci_tag, set_text_tag. reflexivity.
Qed.
Lemma put_tree_name : forall b tree v n, is_attr k_name v (put_tree b tree n) = is_attr k_name v n.
Proof.
  intros b tree v n. unfold put_tree, is_attr.
  destruct (inserts_shape tree (set_ci (e_ci b) (set_text (lit "desc") (e_desc b) n))) as (_ & A & _).
  rewrite A. change (is_attr k_name v (set_ci (e_ci b) (set_text (lit "desc") (e_desc b) n)) = is_attr k_name v n).
  rewrite is_attr_ci, is_attr_text by reflexivity. reflexivity.
Qed.

(** The change that a property makes, and the tag it is made in. *)
Definition e_tag (e : etag) : list N := match e_tree e with [] => t_e | _ => t_tree end.
Definition put_e (e : etag) (n : xnode) : xnode :=
  match e_tree e with [] => put_leaf (e_base e) n | _ => put_tree (e_base e) (e_tree e) n end.
Definition fresh_e (e : etag) : xnode := set_attr k_name (e_name (e_base e)) (new_node (e_tag e)).
Definition node_of (e : etag) : xnode := put_e e (fresh_e e).

Lemma insert_named : forall e root, e_name (e_base e) <> [] ->
  insert_etag e root = set_kids (edit_first (named (e_tag e) (e_name (e_base e))) (fresh_e e) (put_e e) (x_kids root)) root.
Proof.
  intros [b tree] root H. cbn [e_base] in H. cbn [insert_etag]. destruct (e_name b) as [|c nm] eqn:EN; [congruence|].
  rewrite <- EN. clear c nm EN H. destruct tree as [|t tree]; reflexivity.
Qed.
Lemma insert_unnamed : forall e root, e_name (e_base e) = [] -> insert_etag e root = root.
Proof. intros [b tree] root H. cbn [e_base] in H. cbn [insert_etag]. rewrite H. reflexivity. Qed.

Lemma put_e_tag : forall e n, x_tag (put_e e n) = x_tag n.
Proof. intros e n. unfold put_e. destruct (e_tree e); [apply put_leaf_tag|apply put_tree_tag]. Qed.
Lemma put_e_name : forall e v n, is_attr k_name v (put_e e n) = is_attr k_name v n.
Proof. intros e v n. unfold put_e. destruct (e_tree e); [apply put_leaf_name|apply put_tree_name]. Qed.
Lemma put_e_named : forall e t v n, named t v (put_e e n) = named t v n.
Proof. intros e t v n. unfold named, is_tag. rewrite put_e_tag, put_e_name. reflexivity. Qed.

Lemma e_tag_cases : forall e, e_tag e = t_e \/ e_tag e = t_tree.
Proof. intros e. unfold e_tag. destruct (e_tree e); auto. Qed.
Lemma fresh_e_tag : forall e, x_tag (fresh_e e) = e_tag e.
Proof. intros e. destruct (e_tag_cases e) as [E|E]; unfold fresh_e; rewrite E; reflexivity. Qed.
Lemma fresh_e_name : forall e v, is_attr k_name v (fresh_e e) = ieq (e_name (e_base e)) v.
Proof. intros e v. unfold fresh_e. destruct (e_tag_cases e) as [E|E]; rewrite E; cbn; apply Bool.orb_false_r. Qed.

Lemma named_fresh : forall e, named (e_tag e) (e_name (e_base e)) (fresh_e e) = true.
Proof.
  intros e. unfold named. rewrite fresh_e_name. unfold is_tag. rewrite fresh_e_tag.
  rewrite (proj2 (ieq_alike _ _) (alike_refl _)), (proj2 (ieq_alike _ _) (alike_refl _)). reflexivity.
Qed.

Lemma named_alike : forall t a b c, alike a b -> named t a c = named t b c.
Proof.
  intros t a b c H. unfold named. f_equal. unfold is_attr. generalize (x_attrs c). intros l.
  induction l as [|[x y] l IH]; [reflexivity|]. cbn [existsb]. rewrite IH, (ieq_right a b y H). reflexivity.
Qed.

Lemma own_alike_name : forall k, In k own_keys -> alike k k_name -> k = k_name.
Proof.
  intros k I A. unfold alike in A. rewrite (own_small k I) in A. rewrite A. reflexivity.
Qed.

Lemma one_name : forall v1 v2 n, good n -> is_attr k_name v1 n = true -> is_attr k_name v2 n = true -> alike v1 v2.
Proof.
  intros v1 v2 n G H1 H2. inversion G as [t a v ks _ _ ND F _ _]; subst. unfold is_attr in *. cbn [x_attrs] in *.
  apply existsb_exists in H1, H2. destruct H1 as ([a1 b1] & I1 & E1). destruct H2 as ([a2 b2] & I2 & E2).
  apply andb_prop in E1, E2. destruct E1 as [A1 B1]. destruct E2 as [A2 B2].
  apply ieq_alike in A1, A2, B1, B2. rewrite Forall_forall in F.
  pose proof (proj1 (F _ I1)) as O1. pose proof (proj1 (F _ I2)) as O2. cbn [fst] in O1, O2.
  apply own_alike_name in A1; auto. apply own_alike_name in A2; auto. subst a1 a2.
  assert (b1 = b2) as ->.
  { clear - ND I1 I2. induction a as [|[x y] a IH]; [contradiction|]. cbn [map fst] in ND.
    inversion ND as [|? ? NI ND']; subst. destruct I1 as [I1|I1], I2 as [I2|I2].
    - congruence.
    - exfalso. apply NI. apply in_map_iff. exists (k_name, b2). split; [cbn [fst]; congruence|auto].
    - exfalso. apply NI. apply in_map_iff. exists (k_name, b1). split; [cbn [fst]; congruence|auto].
    - auto. }
  unfold alike in *. congruence.
Qed.

Lemma e_not_tree : forall n, good n -> is_tag t_e n = true -> is_tag t_tree n = true -> False.
Proof.
  intros n G H1 H2. rewrite is_tag_plain in H1, H2 by (apply good_colon; auto).
  apply ieq_alike in H1, H2. assert (A : alike t_e t_tree) by (unfold alike in *; congruence).
  discriminate A.
Qed.

(* ------------------------------------------------------------------ *)
(** ** One property among the others *)

Lemma insert_other : forall t name e root, good root -> ~ alike name (e_name (e_base e)) ->
  cfind t name (x_kids (insert_etag e root)) = cfind t name (x_kids root).
Proof.
  intros t name e root G NA. destruct (list_eq_dec N.eq_dec (e_name (e_base e)) []) as [E|E].
  { rewrite insert_unnamed by auto. reflexivity. }
  rewrite insert_named by auto. cbn [set_kids x_kids]. unfold cfind. apply find_edit_miss.
  - eapply Forall_impl; [|apply good_kids; exact G]. cbv beta. intros k GK NK.
    rewrite put_e_named. assert (X : named t name k = false); [|auto].
    unfold named in *. apply andb_prop in NK. destruct NK as [_ NK].
    destruct (is_attr k_name name k) eqn:EA; [|apply Bool.andb_false_r]. exfalso. apply NA.
    eapply one_name; eauto.
  - rewrite put_e_named. unfold named. rewrite fresh_e_name, ieq_false; [apply Bool.andb_false_r|].
    intros A. apply NA, alike_sym. exact A.
Qed.

(** A property that is no tree does not change the trees. *)
Lemma insert_leaf_trees : forall name e root, good root -> e_tree e = [] ->
  cfind t_tree name (x_kids (insert_etag e root)) = cfind t_tree name (x_kids root).
Proof.
  intros name e root G LF. destruct (list_eq_dec N.eq_dec (e_name (e_base e)) []) as [E|E].
  { rewrite insert_unnamed by auto. reflexivity. }
  rewrite insert_named by auto. cbn [set_kids x_kids]. unfold cfind.
  assert (ET : e_tag e = t_e) by (unfold e_tag; rewrite LF; reflexivity). apply find_edit_miss.
  - eapply Forall_impl; [|apply good_kids; exact G]. cbv beta. intros k GK NK.
    rewrite put_e_named. assert (X : named t_tree name k = false); [|auto].
    unfold named in *. apply andb_prop in NK. destruct NK as [NK _]. rewrite ET in NK.
    destruct (is_tag t_tree k) eqn:EA; [|reflexivity]. exfalso. eapply e_not_tree; eauto.
  - rewrite put_e_named. unfold named, is_tag. rewrite fresh_e_tag, ET. reflexivity.
Qed.

Lemma insert_leaf_hit : forall name b root, good root -> e_name b <> [] -> alike name (e_name b) ->
  exists k, (k = fresh_e (ETag b []) \/ In k (x_kids root) /\ is_tag t_e k = true) /\
    cfind t_e name (x_kids (insert_etag (ETag b []) root)) = Some (put_leaf b k).
Proof.
  intros name b root G NE A. rewrite insert_named by auto. cbn [set_kids x_kids e_base].
  unfold cfind. rewrite (find_ext (named t_e name) (named t_e (e_name b))) by (intros; apply named_alike; auto).
  change (e_tag (ETag b [])) with t_e.
  rewrite find_edit_hit.
  - change (put_e (ETag b [])) with (put_leaf b).
    destruct (find (named t_e (e_name b)) (x_kids root)) as [k|] eqn:EF.
    + exists k. split; [right|reflexivity]. apply find_some in EF. destruct EF as [I N]. split; auto.
      unfold named in N. apply andb_prop in N. apply N.
    + exists (fresh_e (ETag b [])). auto.
  - intros k H. rewrite put_e_named. auto.
  - exact (named_fresh (ETag b [])).
Qed.

Lemma insert_fresh : forall e root, e_name (e_base e) <> [] ->
  cfind (e_tag e) (e_name (e_base e)) (x_kids root) = None ->
  insert_etag e root = set_kids (x_kids root ++ [node_of e]) root.
Proof.
  intros e root NE H. rewrite insert_named by auto. rewrite edit_first_none by exact H. reflexivity.
Qed.

Lemma node_of_named : forall e t v, named t v (node_of e) = is_tag t (fresh_e e) && ieq (e_name (e_base e)) v.
Proof. intros e t v. unfold node_of. rewrite put_e_named. unfold named. rewrite fresh_e_name. reflexivity. Qed.

(* ------------------------------------------------------------------ *)
(** ** What is seen of a new property *)

Lemma find_app_key : forall (p : list N * list N -> bool) l1 l2, find p (l1 ++ l2) = match find p l1 with Some x => Some x | None => find p l2 end.
Proof. intros p l1 l2. induction l1 as [|x l1 IH]; [reflexivity|]. cbn [app find]. destruct (p x); auto. Qed.

Lemma lookup_other : forall k k' v n, ieq k' k = false -> lookup k (set_attr k' v n) = lookup k n.
Proof.
  intros k k' v n H. unfold lookup, set_attr. cbn [x_attrs]. destruct (existsb _ (x_attrs n)); [reflexivity|].
  rewrite find_app_key. cbn [find]. rewrite H. destruct (find _ (x_attrs n)); reflexivity.
Qed.
Lemma lookup_new : forall k v n, lookup k n = None -> lookup k (set_attr k v n) = Some (trim v).
Proof.
  intros k v n H. unfold lookup, set_attr in *. cbn [x_attrs].
  destruct (find (fun '(a, _) => ieq a k) (x_attrs n)) as [[a b]|] eqn:E; [discriminate|].
  destruct (existsb (fun '(a, _) => beq a k) (x_attrs n)) eqn:EX.
  - exfalso. apply existsb_exists in EX. destruct EX as ([a b] & I & EB). apply beq_true in EB. subst a.
    apply find_none with (x := (k, b)) in E; auto. cbn in E.
    rewrite (proj2 (ieq_alike k k) (alike_refl k)) in E. discriminate.
  - rewrite find_app_key, E. cbn [find]. rewrite (proj2 (ieq_alike k k) (alike_refl k)). reflexivity.
Qed.
Lemma lookup_text_other : forall k k' v n, ieq k' k = false -> lookup k (set_text k' v n) = lookup k n.
Proof. intros k k' v n H. unfold set_text. destruct v; [reflexivity|]. apply lookup_other. auto. Qed.
Lemma look_text_new : forall k v n, lookup k n = None -> look_text k (set_text k v n) = trim v.
Proof.
  intros k v n H. unfold look_text, set_text. destruct v as [|c v]; [rewrite H; reflexivity|].
  rewrite lookup_new by auto. reflexivity.
Qed.
Lemma lookup_ci_other : forall k v n, ieq (lit "ci") k = false -> lookup k (set_ci v n) = lookup k n.
Proof. intros k v n H. unfold set_ci. destruct (0 <=? v)%Z; [|reflexivity]. apply lookup_other. auto. Qed.
Lemma lookup_ro_other : forall k v n, ieq (lit "ro") k = false -> lookup k (set_ro v n) = lookup k n.
Proof. intros k v n H. unfold set_ro. destruct v; [|reflexivity]. apply lookup_other. auto. Qed.

Ltac peel := repeat first
  [ rewrite lookup_text_other by reflexivity | rewrite lookup_ci_other by reflexivity | rewrite lookup_ro_other by reflexivity ].

Lemma look_of : forall k n n', lookup k n = lookup k n' -> look_text k n = look_text k n'.
Proof. intros k n n' H. unfold look_text. rewrite H. reflexivity. Qed.
Lemma lookup_value : forall k v n, lookup k (set_value v n) = lookup k n. Proof. reflexivity. Qed.

Definition bare (n : xnode) (m : list N) : Prop :=
  x_attrs n = [(k_name, m)] /\ x_kids n = [] /\ x_value n = [].
Lemma fresh_bare : forall e, bare (fresh_e e) (e_name (e_base e)).
Proof. intros e. unfold bare, fresh_e. destruct (e_tag_cases e) as [E|E]; rewrite E; repeat split. Qed.
Lemma bare_none : forall k n m, bare n m -> ieq k_name k = false -> lookup k n = None.
Proof. intros k n m (A & _ & _) H. unfold lookup. rewrite A. cbn [find]. rewrite H. reflexivity. Qed.
Lemma bare_name : forall n m, bare n m -> lookup k_name n = Some (trim m).
Proof. intros n m (A & _ & _). unfold lookup. rewrite A. reflexivity. Qed.

Lemma ci_back : forall ci n, lookup (lit "ci") n = None ->
  match lookup (lit "ci") (set_ci ci n) with Some v => read_int v | None => (-1)%Z end = kept_ci ci.
Proof.
  intros ci n H. unfold set_ci, kept_ci. destruct (0 <=? ci)%Z eqn:E.
  - rewrite lookup_new by auto. rewrite int_trim, read_int_text.
    apply Z.leb_le in E. rewrite (proj2 (Z.ltb_ge ci 0)) by lia. reflexivity.
  - rewrite H. apply Z.leb_gt in E. rewrite (proj2 (Z.ltb_lt ci 0)) by lia. reflexivity.
Qed.

Lemma view_put_leaf : forall b n, bare n (e_name b) -> view_base (put_leaf b n) = kept_leaf b.
Proof.
  intros b n B. pose proof B as (BA & BK & BV). unfold view_base, kept_leaf. f_equal.
  - unfold put_leaf, look_text. rewrite lookup_value. peel. fold k_name. rewrite (bare_name n _ B). reflexivity.
  - unfold put_leaf. rewrite (look_of _ _ (set_text (lit "desc") (e_desc b) n)).
    + apply look_text_new. eapply bare_none; eauto.
    + rewrite lookup_value. peel. reflexivity.
  - unfold put_leaf.
    match goal with |- look_text _ (set_value _ (set_text _ _ ?x)) = _ => rewrite (look_of _ _ x) end.
    + apply look_text_new. peel. eapply bare_none; eauto.
    + rewrite lookup_value. peel. reflexivity.
  - unfold put_leaf.
    match goal with |- look_text _ (set_value _ ?x) = _ => rewrite (look_of _ _ x) end.
    + apply look_text_new. peel. eapply bare_none; eauto.
    + rewrite lookup_value. reflexivity.
  - unfold put_leaf.
    match goal with |- context [set_text (lit "type") (e_type b) ?x] =>
      rewrite (look_of _ _ (set_text (lit "type") (e_type b) x)) end.
    + apply look_text_new. peel. eapply bare_none; eauto.
    + rewrite lookup_value. peel. reflexivity.
  - unfold put_leaf.
    match goal with |- context [set_text (lit "xml:lang") (e_lang b) ?x] =>
      rewrite (look_of _ _ (set_text (lit "xml:lang") (e_lang b) x)) end.
    + apply look_text_new. peel. eapply bare_none; eauto.
    + rewrite lookup_value. peel. reflexivity.
  - unfold vtext. rewrite put_leaf_kids, put_leaf_value, BK. reflexivity.
  - unfold put_leaf. rewrite lookup_value. do 2 (rewrite lookup_text_other by reflexivity).
    destruct (e_ro b); unfold set_ro.
    + rewrite lookup_new; [reflexivity|]. peel. eapply bare_none; eauto.
    + peel. rewrite (bare_none (lit "ro") n _ B) by reflexivity. reflexivity.
  - unfold put_leaf. rewrite lookup_value. do 2 (rewrite lookup_text_other by reflexivity).
    rewrite lookup_ro_other by reflexivity. do 2 (rewrite lookup_text_other by reflexivity).
    apply ci_back. peel. eapply bare_none; eauto.
Qed.

Lemma view_put_tree : forall b tree n, bare n (e_name b) -> view_base (put_tree b tree n) = kept_node b.
Proof.
  intros b tree n B. pose proof B as (BA & BK & BV). unfold put_tree.
  set (n0 := set_ci (e_ci b) (set_text (lit "desc") (e_desc b) n)).
  destruct (inserts_shape tree n0) as (_ & A & V).
  assert (L : forall k, lookup k (fold_left (fun n t => insert_etag t n) tree n0) = lookup k n0)
    by (intros k; unfold lookup; rewrite A; reflexivity).
  assert (LN : forall k, ieq (lit "ci") k = false -> ieq (lit "desc") k = false -> ieq k_name k = false -> lookup k n0 = None).
  { intros k K1 K2 K3. unfold n0. rewrite lookup_ci_other, lookup_text_other by auto. eapply bare_none; eauto. }
  unfold view_base, kept_node. f_equal; try (unfold look_text; rewrite L; rewrite LN by reflexivity; reflexivity).
  - unfold look_text. rewrite L. unfold n0. peel. fold k_name. rewrite (bare_name n _ B). reflexivity.
  - unfold look_text. rewrite L. fold (look_text (lit "desc") n0). unfold n0.
    rewrite (look_of _ _ (set_text (lit "desc") (e_desc b) n)) by (peel; reflexivity).
    apply look_text_new. eapply bare_none; eauto.
  - unfold vtext. destruct (x_kids (fold_left _ _ _)); [|reflexivity]. rewrite V. unfold n0.
    rewrite set_ci_value, set_text_value, BV. reflexivity.
  - rewrite L. unfold n0. apply ci_back. peel. eapply bare_none; eauto.
Qed.

(** The children of a new tree. *)
Definition named_of (es : list etag) : list etag := filter has_name es.
Lemma has_name_iff : forall e, has_name e = true <-> e_name (e_base e) <> [].
Proof. intros e. unfold has_name. destruct (e_name (e_base e)); split; congruence. Qed.

Lemma inserts_fresh : forall es n,
  NoDup (map (fun e => map small (e_name (e_base e))) es) ->
  (forall e t, In e es -> cfind t (e_name (e_base e)) (x_kids n) = None) ->
  x_kids (fold_left (fun n t => insert_etag t n) es n) = x_kids n ++ map node_of (named_of es).
Proof.
  induction es as [|e es IH]; intros n ND C.
  - cbn. rewrite app_nil_r. reflexivity.
  - cbn [map] in ND. inversion ND as [|? ? NI ND']; subst. cbn [fold_left named_of filter].
    destruct (has_name e) eqn:HN.
    + apply has_name_iff in HN. rewrite insert_fresh by (auto; apply C; left; reflexivity).
      rewrite IH; auto.
      * cbn [set_kids x_kids map]. rewrite <- app_assoc. reflexivity.
      * intros e2 t I. cbn [set_kids x_kids]. unfold cfind.
        specialize (C e2 t (or_intror I)). unfold cfind in C.
        assert (FA : forall p l1 (x : xnode), find p l1 = None -> p x = false -> find p (l1 ++ [x]) = None).
        { clear. intros p l1 x. induction l1 as [|y l1 IH]; cbn [app find]; [intros _ ->; reflexivity|].
          destruct (p y); [discriminate|auto]. }
        apply FA; [exact C|]. rewrite node_of_named, ieq_false; [apply Bool.andb_false_r|].
        intros A. apply NI. apply in_map_iff. exists e2. split; auto.
    + assert (E : e_name (e_base e) = []) by (unfold has_name in HN; destruct (e_name (e_base e)); [reflexivity|discriminate]).
      rewrite insert_unnamed by auto. apply IH; auto. intros e2 t I. apply C. right. exact I.
Qed.

Lemma is_etag_node : forall e, is_etag (node_of e) = true.
Proof.
  intros e. unfold is_etag, is_tag, node_of. rewrite put_e_tag, fresh_e_tag.
  destruct (e_tag_cases e) as [E|E]; rewrite E; reflexivity.
Qed.

Lemma view_unfold : forall n, view_etag n = ETag (view_base n) (concat (map (fun c => if is_etag c then [view_etag c] else []) (x_kids n))).
Proof. intros [t a v ks]. reflexivity. Qed.

Lemma view_node_of : forall e, names_differ e -> view_etag (node_of e) = kept e.
Proof.
  induction e as [b tree IH] using etag_ind2. intros D. inversion D as [? ? ND DF]; subst.
  rewrite view_unfold. destruct tree as [|t tree].
  - cbn [kept]. f_equal.
    + exact (view_put_leaf b _ (fresh_bare (ETag b []))).
    + unfold node_of, put_e. cbn [e_tree e_base]. rewrite put_leaf_kids. reflexivity.
  - set (tr := t :: tree) in *.
    assert (NO : node_of (ETag b tr) = put_tree b tr (fresh_e (ETag b tr))) by reflexivity.
    assert (KE : kept (ETag b tr) = ETag (kept_node b) (concat (map (fun t => if has_name t then [kept t] else []) tr)))
      by reflexivity.
    rewrite NO, KE. pose proof (fresh_bare (ETag b tr)) as FB. f_equal.
    + apply (view_put_tree b tr _ FB).
    + unfold put_tree. rewrite inserts_fresh; auto.
      * destruct FB as (_ & FK & _). rewrite set_ci_kids, set_text_kids, FK. cbn [app].
        clear - IH DF. induction IH as [|e es H F IH2]; [reflexivity|]. inversion DF; subst.
        cbn [named_of filter map concat]. fold (named_of es). destruct (has_name e) eqn:HN.
        -- cbn [map concat]. rewrite is_etag_node, H by auto. cbn [app]. f_equal. auto.
        -- cbn [app]. auto.
      * intros e t0 _. destruct FB as (_ & FK & _). rewrite set_ci_kids, set_text_kids, FK. reflexivity.
Qed.
