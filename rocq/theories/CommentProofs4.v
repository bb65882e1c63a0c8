(** Proofs about typed comments, part 4: lists and trees of any depth. *)
From Coq Require Import String Permutation Sorting.Sorted Lia.
From Verif Require Import Base BlockModel TextSpec XmlModel XmlSpec XmlProofs XmlProofs2 XmlProofs3 XmlProofs4 XmlProofs5
  CommentModel CommentSpec CommentProofs CommentProofs2 CommentProofs3.
Local Open Scope N_scope.
Local Open Scope list_scope.

Lemma mlist_ind2 : forall P : mlist -> Prop,
  (forall s name desc props trees lists enums, Forall P trees -> Forall P lists -> P (MList s name desc props trees lists enums)) ->
  forall l, P l.
Proof.
  intros P H. fix IH 1. intros [s name desc props trees lists enums]. apply H.
  - induction trees as [|t r IHr]; constructor; auto.
  - induction lists as [|t r IHr]; constructor; auto.
Qed.

Definition kid_nodes (l : mlist) : list xnode :=
  map (fun p => prop_node (lit "e") p (p_value p)) (l_props l) ++ map (to_list (lit "tree")) (l_trees l) ++
  map (to_list (lit "list")) (l_lists l) ++ map enum_node (l_enums l).

Lemma to_props : forall ps, Forall prop_ok ps -> map (to_prop (lit "e")) ps = map (fun p => prop_node (lit "e") p (p_value p)) ps.
Proof.
  intros ps F. apply map_ext_in. intros p I. rewrite Forall_forall in F.
  rewrite to_prop_node; [reflexivity|apply name_lit; reflexivity|apply colon_lit; reflexivity|auto].
Qed.
Lemma to_enums : forall es, Forall enum_ok es -> map to_enum es = map enum_node es.
Proof. intros es F. apply map_ext_in. intros e I. rewrite Forall_forall in F. apply to_enum_node. auto. Qed.

Definition head_attrs (l : mlist) : list (list N * list N) := std_attrs (list_attrs (l_name l) (l_desc l)) (l_std l).

Lemma head_shape : forall tag s name desc, name_ok tag -> std_ok list_keys (list_attrs name desc) s -> line_ok name -> line_ok desc ->
  put_std s (set_text (lit "desc") desc (set_text (lit "name") name (new_node tag))) =
  XNode tag (std_attrs (list_attrs name desc) s) [] [].
Proof.
  intros tag s name desc NT SO LN LD. pose proof (own_list name desc LN LD) as OW.
  set (n := set_text (lit "desc") desc _).
  assert (SH : x_tag n = tag /\ x_value n = [] /\ x_kids n = [] /\ x_attrs n = list_attrs name desc).
  { subst n. rewrite !set_text_tag, !set_text_value, !set_text_kids, !set_text_shape. rewrite new_node_shape by auto.
    cbn [x_tag x_value x_kids x_attrs]. repeat split; auto. rewrite <- fold_left_app. apply (add_own (list_attrs name desc)).
    apply keys_fst, OW. }
  destruct SH as (S1 & S2 & S3 & S4). destruct (put_std_shape s n) as (A & B & C & _).
  pose proof (std_written _ _ _ n SO OW S4) as D.
  destruct (put_std s n) as [tg at_ vl kd]. cbn [x_tag x_value x_kids x_attrs] in *. congruence.
Qed.

Lemma to_list_tree : forall l, list_ok l -> to_list (lit "tree") l = XNode (lit "tree") (head_attrs l) [] (kid_nodes l).
Proof.
  intros l OK. inversion OK; subst. cbn [to_list]. change (beq (lit "tree") (lit "common_properties")) with false.
  change (beq (lit "tree") (lit "list")) with false. cbv iota zeta.
  rewrite head_shape; auto; [|apply name_lit; reflexivity]. rewrite to_props, to_enums by auto. reflexivity.
Qed.
Lemma to_list_list : forall l, list_ok l -> to_list (lit "list") l =
  XNode (lit "list") (head_attrs l) [] [XNode (lit "li") [] [] (kid_nodes l)].
Proof.
  intros l OK. inversion OK; subst. cbn [to_list]. change (beq (lit "list") (lit "common_properties")) with false.
  change (beq (lit "list") (lit "list")) with true. cbv iota zeta.
  rewrite head_shape; auto; [|apply name_lit; reflexivity]. rewrite to_props, to_enums by auto.
  rewrite new_node_shape by (apply name_lit; reflexivity). reflexivity.
Qed.
Lemma to_list_common : forall l, list_ok l -> to_list (lit "common_properties") l =
  XNode (lit "common_properties") [] [] (kid_nodes l).
Proof.
  intros l OK. inversion OK; subst. cbn [to_list]. change (beq (lit "common_properties") (lit "common_properties")) with true.
  change (beq (lit "common_properties") (lit "list")) with false. cbv iota zeta.
  rewrite to_props, to_enums by auto. rewrite new_node_shape by (apply name_lit; reflexivity). reflexivity.
Qed.

(** ** What is written can be held *)

Lemma plain_ok : forall tag ks, name_ok tag -> Forall node_ok ks -> node_ok (XNode tag [] [] ks).
Proof. intros tag ks NT F. apply tag_ok; auto; [apply NoDup_nil|apply text_nil]. Qed.
Lemma head_ok : forall tag l ks, name_ok tag -> list_ok l -> Forall node_ok ks -> node_ok (XNode tag (head_attrs l) [] ks).
Proof.
  intros tag l ks NT OK F. inversion OK; subst. unfold head_attrs. cbn [l_name l_desc l_std].
  assert (OW : own_ok list_keys (list_attrs name desc)) by (apply own_list; auto). constructor; auto.
  - apply keys_fst. eapply std_keys; eauto.
  - eapply std_fine; eauto.
  - apply text_nil.
Qed.
Lemma kids_ok : forall l, list_ok l -> Forall node_ok (kid_nodes l).
Proof.
  induction l as [s name desc props trees lists enums IT IL] using mlist_ind2. intros OK. inversion OK as [s0 name0 desc0 props0 trees0 lists0 enums0 SO LN TN LD NM PO TO LO EO]; subst.
  unfold kid_nodes. cbn [l_props l_trees l_lists l_enums]. rewrite !Forall_app. repeat split; apply Forall_forall; intros n I;
    apply in_map_iff in I; destruct I as (x & <- & I).
  - rewrite Forall_forall in PO. specialize (PO x I). apply prop_node_ok; auto; [apply name_lit; reflexivity|].
    destruct PO as (_ & _ & _ & _ & _ & _ & _ & TV). exact TV.
  - rewrite Forall_forall in TO, IT. rewrite to_list_tree by auto. apply head_ok; auto. apply name_lit; reflexivity.
  - rewrite Forall_forall in LO, IL. rewrite to_list_list by auto. apply head_ok; auto; [apply name_lit; reflexivity|].
    constructor; [|constructor]. apply plain_ok; auto. apply name_lit; reflexivity.
  - rewrite Forall_forall in EO. apply enum_node_ok. auto.
Qed.

(** ** Reading *)

Section Order.
Context (order : list (list N * list N) -> list (list N * list N)).

Definition read_li (r : option mlist) (li : xnode) : option mlist :=
  obind r (fun t => if is_tag (lit "li") li then obind (read_own order li t) (fun t => read_kids order li t) else Some t).
Definition step (r : option mlist) (k : xnode) : option mlist :=
  obind r (fun l =>
    if is_tag (lit "e") k then obind (from_prop order k) (fun p => Some (add_prop p l))
    else if is_tag (lit "tree") k then
      obind (read_own order k mlist0) (fun t => obind (read_kids order k t) (fun t => Some (add_tree t l)))
    else if is_tag (lit "list") k then
      obind (read_head order k mlist0) (fun t =>
        obind (fold_left read_li (x_kids k) (Some t)) (fun t => Some (add_list t l)))
    else if is_tag (lit "elist") k then obind (from_enum order k) (fun e => Some (add_enum e l))
    else Some l).
Lemma read_kids_step : forall n l, read_kids order n l = fold_left step (x_kids n) (Some l).
Proof.
  intros [t a v kids] l. cbn [read_kids x_kids]. generalize (Some l). induction kids as [|k r IH]; intros acc; [reflexivity|].
  cbn [fold_left]. rewrite IH. f_equal. unfold step. destruct acc as [x|]; [|reflexivity]. cbn [obind].
  destruct k as [t' a' v' ks]. reflexivity.
Qed.

Context (OR : any_order order).

Definition names_of (l : mlist) : list (list N) :=
  map p_name (l_props l) ++ map l_name (l_trees l) ++ map l_name (l_lists l) ++ map n_name (l_enums l).

Lemma is_dup_false : forall name l, name <> [] -> ~ In name (names_of l) -> is_dup name l = false.
Proof.
  intros name l NE NI. unfold is_dup, names_of in *. rewrite !in_app_iff in NI. rewrite beq_false by auto.
  assert (has_key p_name name (l_props l) = false) as -> by (apply has_key_false; tauto).
  assert (has_key l_name name (l_trees l) = false) as -> by (apply has_key_false; tauto).
  assert (has_key l_name name (l_lists l) = false) as -> by (apply has_key_false; tauto).
  assert (has_key n_name name (l_enums l) = false) as -> by (apply has_key_false; tauto). reflexivity.
Qed.

Lemma last_key : forall {A} (key : A -> list N) a x b, ascending (map key (a ++ [x]) ++ b) ->
  Forall (fun k => text_lt k (key x)) (map key a) /\ ~ In (key x) (map key a).
Proof.
  intros A key a x b AS. apply ascending_app in AS. destruct AS as (AS & _ & _). rewrite map_app in AS.
  apply ascending_app in AS. destruct AS as (_ & _ & LT). assert (F : Forall (fun k => text_lt k (key x)) (map key a)).
  { apply Forall_forall. intros k I. apply LT; auto. left. auto. }
  split; auto. intros I. rewrite Forall_forall in F. apply F in I. apply (lt_irrefl _ I).
Qed.

Lemma props_read : forall ps ks s nm d ps0, Forall2 same (map (fun p => prop_node (lit "e") p (p_value p)) ps) ks ->
  Forall prop_ok ps -> ascending (map p_name ps0 ++ map p_name ps) -> ~ In [] (map p_name ps) ->
  exists ps', fold_left step ks (Some (MList s nm d ps0 [] [] [])) = Some (MList s nm d (ps0 ++ ps') [] [] []) /\
    Forall2 kept_prop ps ps' /\ map p_name ps' = map p_name ps.
Proof.
  induction ps as [|p ps IH]; intros ks s nm d ps0 S F AS NE.
  - inversion S; subst. exists []. rewrite app_nil_r. split; [reflexivity|]. split; [constructor|reflexivity].
  - cbn [map] in S. inversion S as [|? k ? r S1 S2]; subst. inversion F; subst. cbn [fold_left step obind].
    assert (IE : is_tag (lit "e") k = true) by (rewrite <- (same_is_tag _ _ _ S1); reflexivity). rewrite IE.
    destruct (prop_read order OR (lit "e") p (p_value p) k) as (p' & FP & KP); auto; [apply colon_lit; reflexivity|].
    rewrite FP. cbn [obind]. change (ieq (lit "elist") (lit "e")) with false in KP. cbv iota in KP.
    assert (PN : p_name p' = p_name p) by (destruct KP as (_ & X & _); exact X).
    cbn [map In] in NE, AS.
    assert (AS' : ascending (map p_name (ps0 ++ [p']) ++ map p_name ps)).
    { rewrite map_app. cbn [map]. rewrite PN, <- app_assoc. exact AS. }
    destruct (last_key p_name ps0 p' _ AS') as (LT & NI). rewrite PN in NI.
    unfold add_prop. rewrite is_dup_false; rewrite ?PN.
    + cbn [l_std l_name l_desc l_props l_trees l_lists l_enums]. rewrite emplace_last by auto.
      destruct (IH r s nm d (ps0 ++ [p'])) as (ps' & FO & KS & MN); auto.
      exists (p' :: ps'). rewrite FO, <- app_assoc. split; [reflexivity|]. split; [constructor; auto|]. cbn [map]. congruence.
    + intros X. apply NE. left. auto.
    + unfold names_of. cbn [l_props l_trees l_lists l_enums map app]. rewrite app_nil_r. exact NI.
Qed.

Lemma enums_read : forall es ks s nm d ps ts ls es0, Forall2 same (map enum_node es) ks ->
  Forall enum_ok es -> ascending (map n_name es0 ++ map n_name es) -> ~ In [] (map n_name es) ->
  (forall n, In n (map n_name es) -> ~ In n (map p_name ps) /\ ~ In n (map l_name ts) /\ ~ In n (map l_name ls)) ->
  exists es', fold_left step ks (Some (MList s nm d ps ts ls es0)) = Some (MList s nm d ps ts ls (es0 ++ es')) /\
    Forall2 kept_enum es es'.
Proof.
  induction es as [|e es IH]; intros ks s nm d ps ts ls es0 S F AS NE DJ.
  - inversion S; subst. exists []. rewrite app_nil_r. split; [reflexivity|constructor].
  - cbn [map] in S. inversion S as [|? k ? r S1 S2]; subst. inversion F; subst. cbn [fold_left step obind].
    assert (I1 : is_tag (lit "e") k = false) by (rewrite <- (same_is_tag _ _ _ S1); reflexivity).
    assert (I2 : is_tag (lit "tree") k = false) by (rewrite <- (same_is_tag _ _ _ S1); reflexivity).
    assert (I3 : is_tag (lit "list") k = false) by (rewrite <- (same_is_tag _ _ _ S1); reflexivity).
    assert (I4 : is_tag (lit "elist") k = true) by (rewrite <- (same_is_tag _ _ _ S1); reflexivity).
    rewrite I1, I2, I3, I4.
    destruct (enum_read order OR e k) as (e' & FE & KE); auto. rewrite FE. cbn [obind].
    assert (PN : n_name e' = n_name e) by (destruct KE as ((_ & X & _) & _); exact X).
    cbn [map In] in NE, AS, DJ.
    assert (AS' : ascending (map n_name (es0 ++ [e']) ++ map n_name es)).
    { rewrite map_app. cbn [map]. rewrite PN, <- app_assoc. exact AS. }
    destruct (last_key n_name es0 e' _ AS') as (LT & NI). rewrite PN in NI.
    unfold add_enum. rewrite is_dup_false; rewrite ?PN.
    + cbn [l_std l_name l_desc l_props l_trees l_lists l_enums]. rewrite emplace_last by auto.
      destruct (IH r s nm d ps ts ls (es0 ++ [e'])) as (es' & FO & KS); auto.
      exists (e' :: es'). rewrite FO, <- app_assoc. split; [reflexivity|]. constructor; auto.
    + intros X. apply NE. left. auto.
    + unfold names_of. cbn [l_props l_trees l_lists l_enums]. rewrite !in_app_iff. destruct (DJ (n_name e)) as (A & B & C); auto. tauto.
Qed.

Definition tree_back (t : mlist) : Prop := forall n', same (to_list (lit "tree") t) n' ->
  exists t', obind (read_own order n' mlist0) (fun t => read_kids order n' t) = Some t' /\ kept_list t t'.
Definition list_back (t : mlist) : Prop := forall n', same (to_list (lit "list") t) n' ->
  exists t', obind (read_head order n' mlist0) (fun t => fold_left read_li (x_kids n') (Some t)) = Some t' /\ kept_list t t'.

Lemma kept_name : forall t t', kept_list t t' -> l_name t' = l_name t.
Proof. intros t t' K. inversion K; subst. reflexivity. Qed.

Lemma tag_of : forall tag l, name_ok tag -> x_tag (to_list tag l) = tag.
Proof.
  intros tag [s name desc props trees lists enums] NT. cbn [to_list].
  set (n := if beq tag (lit "common_properties") then _ else _).
  assert (x_tag n = tag).
  { subst n. destruct (beq tag _); [rewrite new_node_shape by auto; reflexivity|].
    destruct (put_std_shape s (set_text (lit "desc") desc (set_text (lit "name") name (new_node tag)))) as (A & _). rewrite A.
    rewrite !set_text_tag, new_node_shape by auto. reflexivity. }
  destruct (beq tag (lit "list")); exact H.
Qed.

Lemma tag_test : forall t n tag, x_tag n = tag -> ~ In 58 tag -> is_tag t n = ieq t tag.
Proof. intros t n tag <- NC. apply is_tag_plain. exact NC. Qed.

Lemma trees_read : forall ts ks s nm d ps ts0, Forall2 same (map (to_list (lit "tree")) ts) ks ->
  Forall tree_back ts -> ascending (map l_name ts0 ++ map l_name ts) ->
  exists ts', fold_left step ks (Some (MList s nm d ps ts0 [] [])) = Some (MList s nm d ps (ts0 ++ ts') [] []) /\
    Forall2 kept_list ts ts' /\ map l_name ts' = map l_name ts.
Proof.
  induction ts as [|t ts IH]; intros ks s nm d ps ts0 S F AS.
  - inversion S; subst. exists []. rewrite app_nil_r. split; [reflexivity|]. split; [constructor|reflexivity].
  - cbn [map] in S. inversion S as [|? k ? r S1 S2]; subst. inversion F; subst. cbn [fold_left step obind].
    assert (TG : x_tag k = lit "tree") by (rewrite <- (same_tag _ _ S1); apply tag_of, name_lit; reflexivity).
    assert (NC : ~ In 58 (lit "tree")) by (apply colon_lit; reflexivity).
    rewrite (tag_test (lit "e") k _ TG NC), (tag_test (lit "tree") k _ TG NC).
    change (ieq (lit "e") (lit "tree")) with false. change (ieq (lit "tree") (lit "tree")) with true. cbv iota.
    destruct (H1 k S1) as (t' & FT & KT). destruct (read_own order k mlist0) as [t0|]; [|discriminate]. cbn [obind] in FT |- *.
    rewrite FT. cbn [obind]. pose proof (kept_name _ _ KT) as PN. cbn [map] in AS.
    assert (AS' : ascending (map l_name (ts0 ++ [t']) ++ map l_name ts)).
    { rewrite map_app. cbn [map]. rewrite PN, <- app_assoc. exact AS. }
    destruct (last_key l_name ts0 t' _ AS') as (LT & NI). unfold add_tree.
    cbn [l_std l_name l_desc l_props l_trees l_lists l_enums].
    assert (has_key l_name (l_name t') ts0 = false) as -> by (apply has_key_false; exact NI).
    rewrite emplace_last by auto.
    destruct (IH r s nm d ps (ts0 ++ [t'])) as (ts' & FO & KS & MN); auto.
    exists (t' :: ts'). rewrite FO, <- app_assoc. split; [reflexivity|]. split; [constructor; auto|]. cbn [map]. congruence.
Qed.

Lemma lists_read : forall ls ks s nm d ps ts ls0, Forall2 same (map (to_list (lit "list")) ls) ks ->
  Forall list_back ls -> ascending (map l_name ls0 ++ map l_name ls) -> ~ In [] (map l_name ls) ->
  (forall n, In n (map l_name ls) -> ~ In n (map p_name ps) /\ ~ In n (map l_name ts)) ->
  exists ls', fold_left step ks (Some (MList s nm d ps ts ls0 [])) = Some (MList s nm d ps ts (ls0 ++ ls') []) /\
    Forall2 kept_list ls ls' /\ map l_name ls' = map l_name ls.
Proof.
  induction ls as [|t ls IH]; intros ks s nm d ps ts ls0 S F AS NE DJ.
  - inversion S; subst. exists []. rewrite app_nil_r. split; [reflexivity|]. split; [constructor|reflexivity].
  - cbn [map] in S. inversion S as [|? k ? r S1 S2]; subst. inversion F; subst. cbn [fold_left step obind].
    assert (TG : x_tag k = lit "list") by (rewrite <- (same_tag _ _ S1); apply tag_of, name_lit; reflexivity).
    assert (NC : ~ In 58 (lit "list")) by (apply colon_lit; reflexivity).
    rewrite (tag_test (lit "e") k _ TG NC), (tag_test (lit "tree") k _ TG NC), (tag_test (lit "list") k _ TG NC).
    change (ieq (lit "e") (lit "list")) with false. change (ieq (lit "tree") (lit "list")) with false.
    change (ieq (lit "list") (lit "list")) with true. cbv iota.
    destruct (H1 k S1) as (t' & FT & KT). destruct (read_head order k mlist0) as [t0|]; [|discriminate]. cbn [obind] in FT |- *.
    rewrite FT. cbn [obind]. pose proof (kept_name _ _ KT) as PN. cbn [map In] in AS, NE, DJ.
    assert (AS' : ascending (map l_name (ls0 ++ [t']) ++ map l_name ls)).
    { rewrite map_app. cbn [map]. rewrite PN, <- app_assoc. exact AS. }
    destruct (last_key l_name ls0 t' _ AS') as (LT & NI). rewrite PN in NI. unfold add_list.
    rewrite is_dup_false; rewrite ?PN.
    + cbn [l_std l_name l_desc l_props l_trees l_lists l_enums]. rewrite emplace_last by auto.
      destruct (IH r s nm d ps ts (ls0 ++ [t'])) as (ls' & FO & KS & MN); auto.
      exists (t' :: ls'). rewrite FO, <- app_assoc. split; [reflexivity|]. split; [constructor; auto|]. cbn [map]. congruence.
    + intros X. apply NE. left. auto.
    + unfold names_of. cbn [l_props l_trees l_lists l_enums map]. rewrite !in_app_iff. destruct (DJ (l_name t)) as (A & B); auto. cbn [In]. tauto.
Qed.

Lemma kids_read : forall l ks s nm d, list_ok l -> Forall tree_back (l_trees l) -> Forall list_back (l_lists l) ->
  Forall2 same (kid_nodes l) ks ->
  exists ps ts ls es, fold_left step ks (Some (MList s nm d [] [] [] [])) = Some (MList s nm d ps ts ls es) /\
    Forall2 kept_prop (l_props l) ps /\ Forall2 kept_list (l_trees l) ts /\ Forall2 kept_list (l_lists l) ls /\
    Forall2 kept_enum (l_enums l) es.
Proof.
  intros l ks s nm d OK TB LB S. inversion OK as [s0 name desc props trees lists enums SO LN TN LD NM PO TO LO EO]; subst.
  cbn [l_props l_trees l_lists l_enums] in *. unfold kid_nodes in S. cbn [l_props l_trees l_lists l_enums] in S.
  apply Forall2_app_inv_l in S. destruct S as (k1 & k234 & S1 & S & ->).
  apply Forall2_app_inv_l in S. destruct S as (k2 & k34 & S2 & S & ->).
  apply Forall2_app_inv_l in S. destruct S as (k3 & k4 & S3 & S4 & ->).
  destruct NM as (A1 & A2 & A3 & A4 & N1 & N3 & N4 & D3 & D4).
  destruct (props_read props k1 s nm d [] S1 PO A1 N1) as (ps & F1 & K1 & M1).
  destruct (trees_read trees k2 s nm d ps [] S2 TB A2) as (ts & F2 & K2 & M2).
  destruct (lists_read lists k3 s nm d ps ts [] S3 LB A3 N3) as (ls & F3 & K3 & M3).
  { rewrite M1, M2. exact D3. }
  destruct (enums_read enums k4 s nm d ps ts ls [] S4 EO A4 N4) as (es & F4 & K4).
  { rewrite M1, M2, M3. exact D4. }
  exists ps, ts, ls, es. rewrite !fold_left_app. cbn [app] in *. rewrite F1, F2, F3, F4. auto.
Qed.

Lemma head_read : forall l tag v ks n', list_ok l -> same (XNode tag (head_attrs l) v ks) n' ->
  exists s', read_head order n' mlist0 = Some (MList s' (l_name l) (trim (l_desc l)) [] [] [] []) /\
    kept_std (list_attrs (l_name l) (l_desc l)) (l_std l) s'.
Proof.
  intros l tag v ks n' OK S. inversion OK as [s0 name desc props trees lists enums SO LN TN LD NM PO TO LO EO]; subst.
  unfold head_attrs in S. cbn [l_name l_desc l_std] in *. pose proof (own_list name desc LN LD) as OW. pose proof list_vocab as VO.
  destruct (std_read order OR list_keys (list_attrs name desc) s0 _ n' SO OW S eq_refl) as (s' & F & K).
  exists s'. split; [|exact K]. unfold read_head. cbn [l_std mlist0]. change (l_std mlist0) with std0. rewrite F. cbn [obind].
  assert (TR : forall k, In k list_keys -> attr_text order k n' = found (find (fun '(a, _) => ieq a k) (list_attrs name desc))).
  { intros k IK. eapply text_read; eauto. }
  rewrite !TR by (cbn; auto). unfold list_attrs. rewrite !find_app_key.
  rewrite (find_text_other "desc" (lit "name")) by reflexivity. rewrite (find_text_other "name" (lit "desc")) by reflexivity.
  pose proof (found_text "name" name) as X. pose proof (found_text "desc" desc) as Y. unfold tight in TN. rewrite TN in X.
  change (l_props mlist0) with (@nil mprop). change (l_trees mlist0) with (@nil mlist).
  change (l_lists mlist0) with (@nil mlist). change (l_enums mlist0) with (@nil menum).
  rewrite Y. f_equal. f_equal. destruct (find _ (text_attr "name" name)) as [[]|]; exact X.
Qed.

Lemma lists_back : forall l, list_ok l -> tree_back l /\ list_back l.
Proof.
  induction l as [s name desc props trees lists enums IT IL] using mlist_ind2. intros OK.
  assert (TB : Forall tree_back trees).
  { inversion OK as [s0 name0 desc0 props0 trees0 lists0 enums0 SO LN TN LD NM PO TO LO EO]; subst. apply Forall_forall. intros t I. rewrite Forall_forall in IT, TO. apply IT; auto. }
  assert (LB : Forall list_back lists).
  { inversion OK as [s0 name0 desc0 props0 trees0 lists0 enums0 SO LN TN LD NM PO TO LO EO]; subst. apply Forall_forall. intros t I. rewrite Forall_forall in IL, LO. apply IL; auto. }
  clear IT IL. set (l := MList s name desc props trees lists enums) in *.
  split; intros n' S.
  - rewrite to_list_tree in S by auto. destruct (head_read l _ _ _ n' OK S) as (s' & F & K).
    pose proof (same_tag _ _ S) as T. cbn [x_tag] in T. unfold read_own. rewrite <- T.
    change (beq (lit "tree") (lit "common_properties") || beq (lit "tree") (lit "li")) with false. cbv iota. rewrite F. cbn [obind].
    rewrite read_kids_step. pose proof (same_kids _ _ S) as SK. cbn [x_kids] in SK.
    destruct (kids_read l (x_kids n') s' (l_name l) (trim (l_desc l)) OK TB LB SK) as (ps & ts & ls & es & FO & K1 & K2 & K3 & K4).
    eexists. split; [exact FO|]. constructor; auto.
  - rewrite to_list_list in S by auto. destruct (head_read l _ _ _ n' OK S) as (s' & F & K). rewrite F. cbn [obind].
    pose proof (same_kids _ _ S) as SK. cbn [x_kids] in SK. inversion SK as [|? li ? r S1 S2]; subst. inversion S2; subst.
    cbn [fold_left]. unfold read_li. cbn [obind]. pose proof (same_tag _ _ S1) as T. cbn [x_tag] in T.
    assert (NC : ~ In 58 (lit "li")) by (apply colon_lit; reflexivity).
    rewrite (tag_test (lit "li") li _ (eq_sym T) NC). change (ieq (lit "li") (lit "li")) with true. cbv iota.
    unfold read_own. rewrite <- T. change (beq (lit "li") (lit "common_properties") || beq (lit "li") (lit "li")) with true. cbv iota.
    cbn [obind]. rewrite read_kids_step. pose proof (same_kids _ _ S1) as SK1. cbn [x_kids] in SK1.
    destruct (kids_read l (x_kids li) s' (l_name l) (trim (l_desc l)) OK TB LB SK1) as (ps & ts & ls & es & FO & K1 & K2 & K3 & K4).
    eexists. split; [exact FO|]. constructor; auto.
Qed.

(** The common properties. *)
Lemma kept_std0 : kept_std [] std0 std0.
Proof. split; [reflexivity|]. split; [reflexivity|]. split; [apply SSorted_nil|]. intros k v. cbn. tauto. Qed.
Lemma common_read : forall l n', list_ok l -> l_std l = std0 -> l_name l = [] -> l_desc l = [] ->
  same (to_list (lit "common_properties") l) n' -> exists l', from_list order n' mlist0 = Some l' /\ kept_list l l'.
Proof.
  intros l n' OK SE NE DE S. rewrite to_list_common in S by auto. pose proof (same_tag _ _ S) as T. cbn [x_tag] in T.
  unfold from_list, read_own. rewrite <- T.
  change (beq (lit "common_properties") (lit "common_properties") || beq (lit "common_properties") (lit "li")) with true. cbv iota.
  cbn [obind]. rewrite read_kids_step. pose proof (same_kids _ _ S) as SK. cbn [x_kids] in SK.
  assert (TB : Forall tree_back (l_trees l)).
  { inversion OK as [s0 name0 desc0 props0 trees0 lists0 enums0 SO LN TN LD NM PO TO LO EO]; subst. apply Forall_forall. intros t I. cbn [l_trees] in I. apply lists_back. rewrite Forall_forall in TO. auto. }
  assert (LB : Forall list_back (l_lists l)).
  { inversion OK as [s0 name0 desc0 props0 trees0 lists0 enums0 SO LN TN LD NM PO TO LO EO]; subst. apply Forall_forall. intros t I. cbn [l_lists] in I. apply lists_back. rewrite Forall_forall in LO. auto. }
  destruct (kids_read l (x_kids n') std0 [] [] OK TB LB SK) as (ps & ts & ls & es & FO & K1 & K2 & K3 & K4).
  exists (MList std0 [] [] ps ts ls es). split; [exact FO|]. destruct l as [s name desc props trees lists enums].
  cbn [l_std l_name l_desc l_props l_trees l_lists l_enums] in *. subst. apply (kept_level std0 std0 [] []); auto. exact kept_std0.
Qed.

End Order.
