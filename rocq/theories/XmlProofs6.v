(** Proofs about XmlModel.v: the properties after any calls. *)
From Coq Require Import String Permutation DecimalN.
From Verif Require Import Base BlockModel BlockSpec BlockProofs TextSpec XmlModel XmlSpec XmlProofs XmlProofs2 XmlProofs3 XmlProofs4 XmlProofs5.
Local Open Scope N_scope.
Local Open Scope list_scope.

(** What is seen of a tree of tags. *)
Definition sview (t : list N) (n : xnode) : list N := match get_node t n with Some c => vtext c | None => [] end.
Definition commons (n : xnode) : list xnode := match get_node t_common n with Some c => x_kids c | None => [] end.
Definition cview (name : list N) (ks : list xnode) : etag :=
  match cfind t_tree name ks, cfind t_e name ks with
  | Some t, _ => view_etag t
  | None, Some t => view_etag t
  | None, None => no_etag
  end.
Definition eview (name : list N) (ks : list xnode) : list N :=
  match cfind t_e name ks with Some k => vtext k | None => [] end.

Definition mds (n : xnode) : Prop :=
  good n /\ Forall (fun k => is_tag t_common k = true \/ x_kids k = []) (x_kids n) /\
  Forall (fun k => is_tag t_e k = true -> x_kids k = []) (commons n).

Lemma same_no_kids : forall n n', same n n' -> x_kids n = [] -> x_kids n' = [].
Proof. intros n n' S H. apply same_kids in S. rewrite H in S. inversion S. reflexivity. Qed.

Lemma commons_same : forall n n', same n n' -> Forall2 same (commons n) (commons n').
Proof.
  intros n n' S. unfold commons. pose proof (get_node_same t_common n n' S) as B.
  destruct (get_node t_common n), (get_node t_common n'); cbn in B; try contradiction; [|constructor].
  apply same_kids. exact B.
Qed.

Lemma mds_same : forall n n', same n n' -> mds n -> mds n'.
Proof.
  intros n n' S (G & K & E). split; [eapply good_same; eauto|]. split.
  - apply (forall2_impl_forall same (fun k => is_tag t_common k = true \/ x_kids k = []) (x_kids n) (x_kids n')).
    + rewrite Forall_forall. intros a _ b Sab [H|H]; [left; rewrite <- (same_is_tag _ _ _ Sab); auto|right; eapply same_no_kids; eauto].
    + apply same_kids. exact S.
    + exact K.
  - apply (forall2_impl_forall same (fun k => is_tag t_e k = true -> x_kids k = []) (commons n) (commons n')).
    + rewrite Forall_forall. intros a _ b Sab H T. eapply same_no_kids; eauto. apply H. rewrite (same_is_tag _ _ _ Sab). exact T.
    + apply commons_same. exact S.
    + exact E.
Qed.

Lemma sview_same : forall t n n', same n n' -> sview t n' = sview t n.
Proof.
  intros t n n' S. unfold sview. pose proof (get_node_same t n n' S) as B.
  destruct (get_node t n), (get_node t n'); cbn in B; try contradiction; [|reflexivity]. apply vtext_same. exact B.
Qed.

Lemma commons_good : forall n, good n -> Forall good (commons n).
Proof.
  intros n G. unfold commons. destruct (get_node t_common n) as [c|] eqn:E; [|constructor].
  apply find_some in E. destruct E as [I _]. apply good_kids. apply good_kids in G. rewrite Forall_forall in G. auto.
Qed.

Lemma cfind_same : forall t name ks ks', Forall2 same ks ks' -> both (cfind t name ks) (cfind t name ks').
Proof.
  intros t name ks ks' F. apply find_same; auto. intros n n' S. unfold named.
  rewrite (same_is_tag _ _ _ S), (same_is_attr _ _ _ _ S). reflexivity.
Qed.
Lemma cfind_good : forall t name ks k, Forall good ks -> cfind t name ks = Some k -> good k.
Proof. intros t name ks k F E. apply find_some in E. rewrite Forall_forall in F. apply F, E. Qed.

Lemma cview_same : forall name n n', same n n' -> good n -> cview name (commons n') = cview name (commons n).
Proof.
  intros name n n' S G. pose proof (commons_same n n' S) as F. pose proof (commons_good n G) as GC. unfold cview.
  pose proof (cfind_same t_tree name _ _ F) as B1. pose proof (cfind_same t_e name _ _ F) as B2.
  destruct (cfind t_tree name (commons n)) as [a|] eqn:E1, (cfind t_tree name (commons n')); cbn in B1; try contradiction.
  - apply view_same; auto. apply good_tidy. eapply cfind_good; eauto.
  - destruct (cfind t_e name (commons n)) as [a|] eqn:E2, (cfind t_e name (commons n')); cbn in B2; try contradiction; [|reflexivity].
    apply view_same; auto. apply good_tidy. eapply cfind_good; eauto.
Qed.
Lemma eview_same : forall name n n', same n n' -> eview name (commons n') = eview name (commons n).
Proof.
  intros name n n' S. pose proof (commons_same n n' S) as F. unfold eview.
  pose proof (cfind_same t_e name _ _ F) as B2.
  destruct (cfind t_e name (commons n)) as [a|] eqn:E2, (cfind t_e name (commons n')); cbn in B2; try contradiction; [|reflexivity].
  apply vtext_same; auto.
Qed.

(* ------------------------------------------------------------------ *)
(** ** The calls on a tree of tags *)

Definition op_tree (op : md_op) (n : xnode) : xnode :=
  match op with
  | SetString t v => edit_kid t (set_value v) n
  | SetCommon e => edit_kid t_common (insert_etag e) n
  end.

Lemma is_tag_excl : forall a b n, good n -> is_tag a n = true -> ~ alike a b -> is_tag b n = false.
Proof.
  intros a b n G H NA. rewrite is_tag_plain in * by (apply good_colon; auto). apply ieq_false.
  apply ieq_alike in H. intros A. apply NA. unfold alike in *. congruence.
Qed.

Lemma new_tag : forall t, name_ok t -> x_tag (new_node t) = t.
Proof. intros t H. cbn [new_node x_tag]. apply name_trim. exact H. Qed.
Lemma is_tag_new : forall t t', name_ok t' -> ~ In 58 t' -> is_tag t (new_node t') = ieq t t'.
Proof. intros t t' H NC. rewrite is_tag_plain; rewrite new_tag; auto. Qed.

Lemma common_name : name_ok t_common /\ ~ In 58 t_common.
Proof. split; [apply name_okb_ok; reflexivity|apply lit_no_colon; reflexivity]. Qed.

Lemma edit_other : forall t t' f n, good n -> name_ok t' -> ~ In 58 t' -> ~ alike t t' ->
  (forall k, x_tag (f k) = x_tag k) -> get_node t (edit_kid t' f n) = get_node t n.
Proof.
  intros t t' f n G N1 N2 NA HF. unfold get_node, edit_kid. cbn [set_kids x_kids].
  assert (IT : forall k, is_tag t (f k) = is_tag t k) by (intros k; unfold is_tag; rewrite HF; reflexivity).
  apply find_edit_miss.
  - eapply Forall_impl; [|apply good_kids; exact G]. cbv beta. intros k GK HK. rewrite IT.
    assert (X : is_tag t k = false); [|auto]. eapply is_tag_excl; eauto. intros A. apply NA. apply alike_sym. exact A.
  - rewrite IT, is_tag_new by auto. apply ieq_false. exact NA.
Qed.
Lemma edit_hit : forall t t' f n, name_ok t' -> ~ In 58 t' -> alike t t' ->
  (forall k, x_tag (f k) = x_tag k) ->
  get_node t (edit_kid t' f n) = Some (f (match get_node t n with Some k => k | None => new_node t' end)).
Proof.
  intros t t' f n N1 N2 A HF. unfold get_node, edit_kid. cbn [set_kids x_kids].
  rewrite (find_ext (is_tag t) (is_tag t')) by (intros; apply is_tag_left; auto).
  rewrite (find_ext (is_tag t) (is_tag t') (x_kids n)) by (intros; apply is_tag_left; auto).
  apply find_edit_hit.
  - intros k H. unfold is_tag in *. rewrite HF. exact H.
  - rewrite is_tag_new by auto. apply ieq_alike, alike_refl.
Qed.

Lemma set_value_tag : forall v k, x_tag (set_value v k) = x_tag k. Proof. reflexivity. Qed.
Lemma insert_tag : forall e k, x_tag (insert_etag e k) = x_tag k. Proof. intros e k. apply insert_shape. Qed.

Lemma string_same : forall t t' v n, mds n -> tag_name t' -> alike t t' -> sview t (op_tree (SetString t' v) n) = trim v.
Proof.
  intros t t' v n (G & K & _) (N1 & N2 & N3) A. unfold sview. cbn [op_tree].
  rewrite (edit_hit t t') by (auto using set_value_tag).
  unfold vtext. cbn [set_value x_kids x_value].
  assert (X : x_kids match get_node t n with Some k => k | None => new_node t' end = []); [|rewrite X; reflexivity].
  destruct (get_node t n) as [k|] eqn:E; [|reflexivity]. apply find_some in E. destruct E as [I T].
  rewrite Forall_forall in K. destruct (K k I) as [H|H]; auto. exfalso.
  apply good_kids in G. rewrite Forall_forall in G. specialize (G k I).
  assert (F : is_tag t_common k = false); [|congruence].
  eapply is_tag_excl; [exact G|exact T|]. intros X. apply N3. eapply alike_trans; [apply alike_sym; exact A|exact X].
Qed.
Lemma string_other : forall t t' v n, mds n -> tag_name t' -> ~ alike t t' -> sview t (op_tree (SetString t' v) n) = sview t n.
Proof.
  intros t t' v n (G & _) (N1 & N2 & _) NA. unfold sview. cbn [op_tree]. rewrite edit_other by (auto using set_value_tag). reflexivity.
Qed.
Lemma string_commons : forall t v n, mds n -> tag_name t -> commons (op_tree (SetString t v) n) = commons n.
Proof.
  intros t v n (G & _) (N1 & N2 & N3). unfold commons. cbn [op_tree]. rewrite edit_other; auto using set_value_tag.
  intros A. apply N3. apply alike_sym. exact A.
Qed.
Lemma common_string : forall t e n, mds n -> tag_name t -> sview t (op_tree (SetCommon e) n) = sview t n.
Proof.
  intros t e n (G & _) (_ & _ & N3). unfold sview. cbn [op_tree].
  rewrite edit_other; auto using insert_tag; apply common_name.
Qed.
Lemma common_commons : forall e n, mds n -> exists c, good c /\ x_kids c = commons n /\
  commons (op_tree (SetCommon e) n) = x_kids (insert_etag e c).
Proof.
  intros e n (G & _). unfold commons at 2. cbn [op_tree]. destruct common_name as [N1 N2].
  rewrite (edit_hit t_common t_common) by (auto using alike_refl, insert_tag).
  exists (match get_node t_common n with Some k => k | None => new_node t_common end). split; [|split; [|reflexivity]].
  - destruct (get_node t_common n) as [c|] eqn:E; [|apply good_new; auto].
    apply find_some in E. destruct E as [I _]. apply good_kids in G. rewrite Forall_forall in G. auto.
  - unfold commons. destruct (get_node t_common n); reflexivity.
Qed.

Lemma mds_op : forall op n, md_op_ok op -> mds n -> mds (op_tree op n).
Proof.
  intros [t v|e] n OK M.
  - destruct OK as [TN TV]. pose proof M as (G & K & E). split; [|split].
    + cbn [op_tree]. unfold edit_kid. apply good_set_kids; auto. apply edit_first_forall.
      * intros k _ GK. apply good_set_value; auto.
      * apply good_set_value; auto. apply good_new; apply TN.
      * apply good_kids. auto.
    + cbn [op_tree]. unfold edit_kid. cbn [set_kids x_kids]. apply edit_first_forall; auto.
    + rewrite string_commons by auto. exact E.
  - cbn [md_op_ok] in OK. pose proof M as (G & K & E). split; [|split].
    + cbn [op_tree]. unfold edit_kid. apply good_set_kids; auto. apply edit_first_forall.
      * intros k _ GK. apply good_insert; auto.
      * apply good_insert; auto. apply good_new; apply common_name.
      * apply good_kids. auto.
    + cbn [op_tree]. unfold edit_kid. cbn [set_kids x_kids]. apply edit_first_forall; auto.
      * intros k T _. left. unfold is_tag in *. rewrite insert_tag. exact T.
      * left. unfold is_tag. rewrite insert_tag. reflexivity.
    + destruct (common_commons e n M) as (c & GC & KC & ->).
      destruct (list_eq_dec N.eq_dec (e_name (e_base e)) []) as [EN|EN].
      { rewrite insert_unnamed by auto. rewrite KC. exact E. }
      rewrite insert_named by auto. cbn [set_kids x_kids].
      assert (GK : Forall (fun k => good k /\ (is_tag t_e k = true -> x_kids k = [])) (x_kids c)).
      { rewrite Forall_forall. intros k I. split; [|rewrite Forall_forall in E; apply E; rewrite <- KC; auto].
        apply good_kids in GC. rewrite Forall_forall in GC. auto. }
      assert (P : Forall (fun k => is_tag t_e k = true -> x_kids k = [])
        (edit_first (named (e_tag e) (e_name (e_base e))) (fresh_e e) (put_e e) (x_kids c))); [|exact P].
      clear - GK. induction GK as [|k ks [GK1 GK2] F IH]; cbn [edit_first].
      * constructor; [|constructor]. intros T. unfold is_tag in T. rewrite put_e_tag in T.
        unfold put_e, fresh_e, e_tag in *. destruct (e_tree e); [|discriminate T]. rewrite put_leaf_kids. reflexivity.
      * destruct (named (e_tag e) (e_name (e_base e)) k) eqn:NK; constructor; auto.
        -- intros T. unfold is_tag in T. rewrite put_e_tag in T. fold (is_tag t_e k) in T.
           unfold named in NK. apply andb_prop in NK. destruct NK as [NK _].
           unfold put_e, e_tag in *. destruct (e_tree e); [rewrite put_leaf_kids; auto|].
           exfalso. eapply e_not_tree; eauto.
        -- eapply Forall_impl; [|exact F]. cbv beta. intros x [_ H]. exact H.
Qed.

Lemma common_other : forall t name e n, mds n -> ~ alike name (e_name (e_base e)) ->
  cfind t name (commons (op_tree (SetCommon e) n)) = cfind t name (commons n).
Proof.
  intros t name e n M NA. destruct (common_commons e n M) as (c & GC & <- & ->). apply insert_other; auto.
Qed.
Lemma common_leaf_trees : forall name e n, mds n -> e_tree e = [] ->
  cfind t_tree name (commons (op_tree (SetCommon e) n)) = cfind t_tree name (commons n).
Proof.
  intros name e n M LF. destruct (common_commons e n M) as (c & GC & <- & ->). apply insert_leaf_trees; auto.
Qed.
Lemma common_leaf_hit : forall name b n, mds n -> e_name b <> [] -> alike name (e_name b) ->
  exists k, x_kids k = [] /\ cfind t_e name (commons (op_tree (SetCommon (ETag b [])) n)) = Some (put_leaf b k).
Proof.
  intros name b n M NE A. destruct (common_commons (ETag b []) n M) as (c & GC & KC & ->).
  destruct (insert_leaf_hit name b c GC NE A) as (k & HK & ->). exists k. split; [|reflexivity].
  destruct HK as [->|[I T]]; [reflexivity|]. destruct M as (_ & _ & E). rewrite Forall_forall in E.
  apply E; auto. rewrite <- KC. auto.
Qed.
Lemma common_fresh : forall e n, mds n -> e_name (e_base e) <> [] ->
  cfind (e_tag e) (e_name (e_base e)) (commons n) = None ->
  commons (op_tree (SetCommon e) n) = commons n ++ [node_of e].
Proof.
  intros e n M NE H. destruct (common_commons e n M) as (c & GC & KC & ->). rewrite insert_fresh; auto.
  - cbn [set_kids x_kids]. rewrite KC. reflexivity.
  - rewrite KC. exact H.
Qed.

(* ------------------------------------------------------------------ *)
(** ** The calls on the text *)

Section Runs.
Context (order : list (list N * list N) -> list (list N * list N)) (OR : any_order order).

Lemma parse_mds : forall n, mds n -> exists n', parse_string (write order 0 n) = (Some n', true) /\ same n n' /\ mds n'.
Proof.
  intros n M. destruct (parse_written order OR n (good_ok n (proj1 M))) as (n' & P & S).
  exists n'. split; [exact P|]. split; [exact S|]. eapply mds_same; eauto.
Qed.
Lemma parse_mds_trim : forall n, mds n ->
  exists n', parse_string (trim (write order 0 n)) = (Some n', true) /\ same n n' /\ mds n'.
Proof.
  intros n M. destruct (parse_trimmed order OR n (good_ok n (proj1 M))) as (n' & P & S).
  exists n'. split; [exact P|]. split; [exact S|]. eapply mds_same; eauto.
Qed.

Lemma retag : forall n, set_tag (x_tag n) n = n. Proof. intros [t a v ks]. reflexivity. Qed.

Lemma step_tree : forall op n, md_op_ok op -> mds n ->
  exists n', same n n' /\ mds n' /\ md_step order (write order 0 n) op = write order 0 (op_tree op n').
Proof.
  intros op n OK M. destruct (parse_mds n M) as (n' & P & S & M'). exists n'. split; [exact S|]. split; [exact M'|].
  destruct op as [t v|e]; cbn [md_step].
  - unfold set_string. rewrite P. reflexivity.
  - unfold set_common, set_commons. rewrite P. cbn [fst root_name fold_left]. rewrite retag. reflexivity.
Qed.

Lemma get_string_view : forall t n, mds n -> get_string t (write order 0 n) = sview t n.
Proof.
  intros t n M. destruct (parse_mds n M) as (n' & P & S & M'). unfold get_string. rewrite P. unfold sview.
  pose proof (get_node_same t n n' S) as B.
  destruct (get_node t n), (get_node t n'); cbn in B; try contradiction; [|reflexivity]. apply value_same. exact B.
Qed.
Lemma get_common_view : forall name n, mds n -> get_common order name (write order 0 n) = cview name (commons n).
Proof.
  intros name n M. destruct (parse_mds n M) as (n' & P & S & M'). unfold get_common. rewrite P. cbn [fst].
  fold t_common t_tree t_e k_name. unfold cview, commons.
  pose proof (get_node_same t_common n n' S) as B.
  destruct (get_node t_common n) as [c|] eqn:EC, (get_node t_common n') as [c'|]; cbn in B; try contradiction; [|reflexivity].
  assert (GC : good c).
  { destruct M as (G & _). apply find_some in EC. apply good_kids in G. rewrite Forall_forall in G. apply G, EC. }
  unfold get_named. change (fun c0 => is_tag t_tree c0 && is_attr k_name name c0) with (named t_tree name).
  change (fun c0 => is_tag t_e c0 && is_attr k_name name c0) with (named t_e name).
  pose proof (cfind_same t_tree name _ _ (same_kids _ _ B)) as B1.
  pose proof (cfind_same t_e name _ _ (same_kids _ _ B)) as B2. unfold cfind in *.
  destruct (find (named t_tree name) (x_kids c)) as [k|] eqn:E1, (find (named t_tree name) (x_kids c')); cbn in B1; try contradiction.
  - apply fetch_view; auto. apply good_tidy. eapply cfind_good; [apply good_kids; exact GC|exact E1].
  - destruct (find (named t_e name) (x_kids c)) as [k|] eqn:E2, (find (named t_e name) (x_kids c')); cbn in B2; try contradiction; [|reflexivity].
    apply fetch_view; auto. apply good_tidy. eapply cfind_good; [apply good_kids; exact GC|exact E2].
Qed.

(** An empty comment with a root. *)
Definition empty_md (root : list N) : xnode := edit_kid (lit "TX") (fun n => n) (new_node root).
Lemma tx_name : tag_name (lit "TX").
Proof.
  split; [apply name_okb_ok; reflexivity|]. split; [apply lit_no_colon; reflexivity|]. discriminate.
Qed.
Lemma empty_mds : forall root, name_ok root -> ~ In 58 root -> mds (empty_md root).
Proof.
  intros root N1 N2. assert (C : commons (empty_md root) = []) by reflexivity. split; [|split].
  - unfold empty_md, edit_kid. apply good_set_kids; [|apply good_new; auto].
    cbn [new_node x_kids edit_first]. constructor; [|constructor]. apply good_new; apply tx_name.
  - unfold empty_md, edit_kid. cbn [new_node x_kids edit_first set_kids]. constructor; [|constructor]. right. reflexivity.
  - rewrite C. constructor.
Qed.
Lemma empty_sview : forall t root, sview t (empty_md root) = [].
Proof.
  intros t root. unfold sview, get_node, empty_md, edit_kid. cbn [new_node x_kids edit_first set_kids find].
  destruct (is_tag t _); reflexivity.
Qed.

Lemma run_mds : forall root ops, name_ok root -> ~ In 58 root -> Forall md_op_ok ops ->
  exists n, mds n /\ md_run order root ops = write order 0 n.
Proof.
  intros root ops N1 N2 F. induction ops as [|op ops IH] using rev_ind.
  - exists (empty_md root). split; [apply empty_mds; auto|reflexivity].
  - apply Forall_app in F. destruct F as [F1 F2]. inversion F2; subst.
    destruct (IH F1) as (n & M & R). unfold md_run in *. rewrite fold_left_app. cbn [fold_left]. rewrite R.
    destruct (step_tree op n) as (n' & S & M' & E); auto. exists (op_tree op n'). split; [apply mds_op; auto|exact E].
Qed.

Lemma snoc_inj : forall {A} (a b : list A) x y, a ++ [x] = b ++ [y] -> a = b /\ x = y.
Proof. intros A a b x y H. apply app_inj_tail in H. exact H. Qed.

Lemma run_string : forall root t ops v, name_ok root -> ~ In 58 root -> tag_name t -> Forall md_op_ok ops ->
  last_string t ops v -> exists n, mds n /\ md_run order root ops = write order 0 n /\ sview t n = trim v.
Proof.
  intros root t ops v N1 N2 TN F L. induction L as [|ops t' v A|ops op v L IH NO].
  - exists (empty_md root). split; [apply empty_mds; auto|]. split; [reflexivity|]. rewrite empty_sview. reflexivity.
  - apply Forall_app in F. destruct F as [F1 F2]. inversion F2 as [|? ? OK _]; subst.
    destruct (run_mds root ops N1 N2 F1) as (n & M & R). unfold md_run in *. rewrite fold_left_app. cbn [fold_left]. rewrite R.
    destruct (step_tree _ n OK M) as (n' & S & M' & E). eexists. split; [apply mds_op; [exact OK|exact M']|].
    split; [exact E|]. apply string_same; auto. apply OK.
  - apply Forall_app in F. destruct F as [F1 F2]. inversion F2 as [|? ? OK _]; subst.
    destruct (IH F1) as (n & M & R & V). unfold md_run in *. rewrite fold_left_app. cbn [fold_left]. rewrite R.
    destruct (step_tree _ n OK M) as (n' & S & M' & E). eexists. split; [apply mds_op; [exact OK|exact M']|].
    split; [exact E|]. rewrite <- V, <- (sview_same t n n' S). destruct op as [t' v'|e].
    + apply string_other; auto. apply OK.
    + apply common_string; auto.
Qed.

Lemma empty_commons : forall root, commons (empty_md root) = []. Proof. reflexivity. Qed.

(** The value of a property that is no tree. *)
Lemma run_common : forall root name ops v, name_ok root -> ~ In 58 root -> name <> [] -> Forall md_op_ok ops ->
  never_tree name ops -> last_common name ops v ->
  exists n, mds n /\ md_run order root ops = write order 0 n /\
    cfind t_tree name (commons n) = None /\ eview name (commons n) = trim v.
Proof.
  intros root name ops v N1 N2 NN F NT L.
  assert (TR : forall ops, Forall md_op_ok ops -> never_tree name ops ->
    exists n, mds n /\ md_run order root ops = write order 0 n /\ cfind t_tree name (commons n) = None).
  { clear - OR N1 N2. intros ops F NT. induction ops as [|op ops IH] using rev_ind.
    - exists (empty_md root). split; [apply empty_mds; auto|]. rewrite empty_commons. repeat split.
    - apply Forall_app in F. destruct F as [F1 F2]. inversion F2 as [|? ? OK _]; subst.
      destruct (IH F1) as (n & M & R & V).
      { intros e I. apply NT. apply in_or_app. auto. }
      unfold md_run in *. rewrite fold_left_app. cbn [fold_left]. rewrite R.
      destruct (step_tree _ n OK M) as (n' & S & M' & E). eexists. split; [apply mds_op; [exact OK|exact M']|].
      split; [exact E|].
      assert (V' : cfind t_tree name (commons n') = None).
      { pose proof (cfind_same t_tree name _ _ (commons_same _ _ S)) as B. rewrite V in B.
        destruct (cfind t_tree name (commons n')); [contradiction|reflexivity]. }
      destruct op as [t' v'|e].
      + rewrite string_commons; auto. apply OK.
      + destruct (alike_dec name (e_name (e_base e))) as [A|A].
        * rewrite common_leaf_trees; auto. apply NT; auto. apply in_or_app. right. left. reflexivity.
        * rewrite common_other; auto. }
  induction L as [|ops b A|ops op v L IH NO].
  - exists (empty_md root). split; [apply empty_mds; auto|]. rewrite empty_commons. repeat split.
  - destruct (TR _ F NT) as (m & MM & RM & VM).
    apply Forall_app in F. destruct F as [F1 F2]. inversion F2 as [|? ? OK _]; subst.
    destruct (run_mds root ops N1 N2 F1) as (n & M & R). unfold md_run in *. rewrite fold_left_app in *. cbn [fold_left] in *.
    rewrite R in *. destruct (step_tree _ n OK M) as (n' & S & M' & E).
    destruct (list_eq_dec N.eq_dec (e_name b) []) as [EN|EN].
    { exfalso. unfold alike in A. rewrite EN in A. destruct name; [congruence|discriminate]. }
    destruct (TR ops F1) as (k & MK & RK & VK).
    { intros e I. apply NT. apply in_or_app. auto. }
    unfold md_run in RK. rewrite RK in R.
    exists (op_tree (SetCommon (ETag b [])) n'). split; [apply mds_op; auto|]. split; [exact E|]. split.
    + rewrite common_leaf_trees by auto.
      assert (W : write order 0 k = write order 0 n) by congruence.
      destruct (parse_mds k MK) as (k' & PK & SK & MK'). destruct (parse_mds n M) as (n2 & PN & SN & MN).
      rewrite W in PK. assert (EQ : k' = n2) by congruence. subst k'.
      pose proof (cfind_same t_tree name _ _ (commons_same _ _ SK)) as B. rewrite VK in B.
      pose proof (cfind_same t_tree name _ _ (commons_same _ _ SN)) as B2.
      pose proof (cfind_same t_tree name _ _ (commons_same _ _ S)) as B3.
      destruct (cfind t_tree name (commons n2)); [contradiction|].
      destruct (cfind t_tree name (commons n)); [contradiction|].
      destruct (cfind t_tree name (commons n')); [contradiction|]. reflexivity.
    + destruct (common_leaf_hit name b n' M' EN A) as (q & KQ & C). unfold eview. rewrite C.
      unfold vtext. rewrite put_leaf_kids, put_leaf_value, KQ. reflexivity.
  - apply Forall_app in F. destruct F as [F1 F2]. inversion F2 as [|? ? OK _]; subst.
    destruct (IH F1) as (n & M & R & T & V).
    { intros e I. apply NT. apply in_or_app. auto. }
    unfold md_run in *. rewrite fold_left_app. cbn [fold_left]. rewrite R.
    destruct (step_tree _ n OK M) as (n' & S & M' & E). eexists. split; [apply mds_op; [exact OK|exact M']|].
    split; [exact E|]. rewrite <- V, <- (eview_same name n n' S).
    assert (T' : cfind t_tree name (commons n') = None).
    { pose proof (cfind_same t_tree name _ _ (commons_same _ _ S)) as B. rewrite T in B.
      destruct (cfind t_tree name (commons n')); [contradiction|reflexivity]. }
    destruct op as [t' v'|e].
    + rewrite string_commons; [auto|auto|apply OK].
    + cbn [sets_common] in NO. unfold eview. rewrite !common_other by auto. auto.
Qed.
End Runs.
