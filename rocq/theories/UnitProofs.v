(** Proofs about the unit specification in the header's comment. *)
From Coq Require Import String Permutation Sorting.Sorted Lia.
From Verif Require Import Base BlockModel BlockProofs TextSpec XmlModel XmlSpec XmlProofs XmlProofs2 XmlProofs3 XmlProofs4 XmlProofs5
  CommentModel CommentSpec CommentProofs CommentProofs2 CommentProofs3 CommentProofs4 CommentProofs5 NoteModel NoteSpec NoteProofs NoteProofs2 NoteProofs3 NoteProofs4
  MethModel MethSpec MethProofs MethProofs2 UnitModel UnitSpec.
Local Open Scope N_scope.
Local Open Scope list_scope.

(** ** Maps *)
Lemma ascending_before : forall (a : list (list N)) x b, ascending (a ++ x :: b) -> Forall (fun k => text_lt k x) a.
Proof.
  unfold ascending. induction a as [|y a IH]; intros x b S; [constructor|]. cbn [app] in S. inversion S as [|? ? S1 F]; subst.
  constructor; [|eapply IH; exact S1]. rewrite Forall_forall in F. apply F. apply in_or_app. right. left. reflexivity.
Qed.
Lemma emplace_all_in : forall {A} (key : A -> list N) l acc, ascending (map key (acc ++ l)) ->
  fold_left (fun m x => emplace key x m) l acc = acc ++ l.
Proof.
  intros A key. induction l as [|x l IH]; intros acc S; [rewrite app_nil_r; reflexivity|]. cbn [fold_left].
  rewrite emplace_last.
  - rewrite IH; rewrite <- app_assoc; [reflexivity|exact S].
  - rewrite map_app in S. cbn [map] in S. eapply ascending_before. exact S.
Qed.
Lemma named_all_in : forall {A} (key : A -> list N) l, ascending (map key l) -> ~ In [] (map key l) ->
  fold_left (fun m x => add_named key x m) l [] = l.
Proof.
  intros A key l S NE. transitivity (fold_left (fun m x => emplace key x m) l []); [|exact (emplace_all_in key l [] S)].
  clear S. generalize (@nil A). induction l as [|x l IH]; intros acc; [reflexivity|]. cbn [map In] in NE. cbn [fold_left].
  rewrite IH by tauto. f_equal. unfold add_named. destruct (key x) eqn:E; [exfalso; apply NE; left; reflexivity|reflexivity].
Qed.
Lemma keys_kept : forall {A} (key : A -> list N) (R : A -> A -> Prop) l l', (forall a b, R a b -> key b = key a) -> Forall2 R l l' -> map key l' = map key l.
Proof. intros A key R l l' H F. induction F as [|a b l l' K F IH]; [reflexivity|]. cbn [map]. rewrite IH, (H _ _ K). reflexivity. Qed.

(** ** Tags with attributes *)
Lemma attr_shape : forall tag key v, name_ok tag -> set_attr key v (new_node tag) = XNode tag [(key, v)] [] [].
Proof. intros tag key v NT. rewrite new_node_shape by exact NT. reflexivity. Qed.
Lemma attr_node_ok : forall tag key v ks, name_ok tag -> name_ok key -> line_ok v -> Forall node_ok ks -> node_ok (XNode tag [(key, v)] [] ks).
Proof.
  intros tag key v ks NT NK LO F. constructor; [exact NT| | |exists []; split; [constructor|reflexivity]|exact F].
  - constructor; [intros []|constructor].
  - constructor; [|constructor]. split; [exact NK|exact LO].
Qed.
Lemma all_ok : forall {A} (f : A -> xnode) (P : A -> Prop) l, (forall a, P a -> node_ok (f a)) -> Forall P l -> Forall node_ok (map f l).
Proof. intros A f P l H F. induction F; constructor; auto. Qed.
Lemma to_all_ok : forall {A} tag (f : A -> xnode) (P : A -> Prop) l, name_ok tag -> (forall a, P a -> node_ok (f a)) -> Forall P l ->
  Forall node_ok (to_all tag f l).
Proof.
  intros A tag f P l NT H F. unfold to_all. destruct l; [constructor|]. constructor; [|constructor]. apply inner_ok; [exact NT|].
  eapply all_ok; [exact H|exact F].
Qed.
Lemma all_case : forall {A} tag (f : A -> xnode) l ks, name_ok tag -> Forall2 same (to_all tag f l) ks ->
  ks = [] /\ l = [] \/ exists k, ks = [k] /\ x_tag k = tag /\ Forall2 same (map f l) (x_kids k).
Proof.
  intros A tag f l ks NT S. unfold to_all in S. destruct l; [left; inversion S; auto|]. right.
  destruct (one_back _ _ S) as (k & -> & SK). apply inner_back in SK; [|exact NT]. destruct SK. eauto.
Qed.

Section Order.
Context (order : list (list N * list N) -> list (list N * list N)) (OR : any_order order).

Lemma ref_back : forall tag v k, name_ok tag -> same (ref_node tag v) k -> x_tag k = tag /\ ref_of order k = trim v.
Proof.
  intros tag v k NT S. unfold ref_node in S. rewrite attr_shape in S by exact NT. split; [rewrite <- (same_tag _ _ S); reflexivity|].
  unfold ref_of. rewrite (one_attr order OR _ _ (lit "ID-REF") v S eq_refl). rewrite (value_same _ _ S). unfold vtext. cbn [x_kids x_value].
  destruct (trim v); reflexivity.
Qed.
Lemma ref_node_ok : forall tag v, name_ok tag -> line_ok v -> node_ok (ref_node tag v).
Proof. intros tag v NT LO. unfold ref_node. rewrite attr_shape by exact NT. apply attr_node_ok; auto. plain_tag. Qed.
Lemma text_ref : forall tag t ks, name_ok tag -> Forall2 same (to_text tag t) ks ->
  ks = [] /\ t = [] \/ exists k, ks = [k] /\ x_tag k = tag /\ value_text k = trim t /\ ref_of order k = trim t.
Proof.
  intros tag t ks NT S. unfold to_text in S. destruct t; [left; inversion S; auto|]. right.
  destruct (one_back _ _ S) as (k & -> & SK). destruct (leaf_back _ _ _ NT SK) as (T & V). exists k. split; [reflexivity|]. split; [exact T|].
  split; [exact V|]. unfold ref_of. rewrite leaf_shape in SK by exact NT. rewrite (no_attr order OR _ _ (lit "ID-REF") SK eq_refl). exact V.
Qed.

(** ** Names *)
Definition detail_only (k : xnode) : Prop := kind "ho:SHORT-NAME" k \/ kind "ho:LONG-NAME" k \/ kind "ho:DESC" k.
Lemma to_det_ok : forall d, det_ok d -> Forall node_ok (to_det d).
Proof.
  intros d (A & B & C). unfold to_det. rewrite !Forall_app. split; [apply text_nodes_ok; auto; plain_tag|]. split; apply desc_nodes; auto; plain_tag.
Qed.
Lemma det_kinds : forall d ks, det_ok d -> Forall2 same (to_det d) ks -> Forall detail_only ks.
Proof.
  intros d ks (_ & LO & DO) S. unfold to_det in S. rewrite !to_strs_tag in S by (auto; plain_tag).
  apply Forall2_app_inv_l in S. destruct S as (k1 & r1 & S1 & S & ->). apply Forall2_app_inv_l in S. destruct S as (k2 & k3 & S2 & S3 & ->).
  apply strs_kinds in S2, S3. rewrite !Forall_app. unfold detail_only. split; [|split].
  - destruct (text_case (lit "ho:SHORT-NAME") _ _ ltac:(plain_tag) S1) as [(-> & _)|(k & -> & T & _)]; [constructor|]. constructor; [left; exact T|constructor].
  - eapply Forall_impl; [|exact S2]. cbv beta. auto.
  - eapply Forall_impl; [|exact S3]. cbv beta. auto.
Qed.
Lemma strs_all : forall tag l ks, Forall str_ok l -> Forall2 same (map (str_node tag) l) ks -> Forall2 kept_str l (map (fun k => from_str order k mstr0) ks).
Proof.
  intros tag l. induction l as [|x l IH]; intros ks F S; [inversion S; constructor|]. destruct ks as [|k ks]; [inversion S|].
  cbn [map] in S. apply f2_cons in S. destruct S as (S1 & S2). inversion F; subst. cbn [map]. constructor; [|apply IH; auto].
  apply (str_read order OR tag); auto.
Qed.
Lemma det_read : forall d ks, det_ok d -> Forall2 same (to_det d) ks -> kept_det d (fold_left (det_kid order) ks det0).
Proof.
  intros d ks (SO & LO & DO) S. unfold to_det in S. rewrite !to_strs_tag in S by (auto; plain_tag).
  apply Forall2_app_inv_l in S. destruct S as (k1 & r1 & S1 & S & ->). apply Forall2_app_inv_l in S. destruct S as (k2 & k3 & S2 & S3 & ->).
  pose proof (strs_kinds _ _ _ S2) as T2. pose proof (strs_kinds _ _ _ S3) as T3. unfold strs in S2, S3.
  apply strs_all in S2; [|apply filter_ok; exact LO]. apply strs_all in S3; [|apply filter_ok; exact DO].
  assert (R1 : fold_left (det_kid order) k1 det0 = mkDet (trim (dt_short d)) [] []).
  { destruct (text_case (lit "ho:SHORT-NAME") _ _ ltac:(plain_tag) S1) as [(-> & ->)|(k & -> & T & V)]; [reflexivity|].
    cbn [fold_left]. unfold det_kid. htags T k. rewrite V. reflexivity. }
  assert (R2 : forall ks, Forall (kind "ho:LONG-NAME") ks -> forall s l e, fold_left (det_kid order) ks (mkDet s l e) = mkDet s (l ++ map (fun k => from_str order k mstr0) ks) e).
  { induction 1 as [|k ks' T F IH]; intros s l e; [rewrite app_nil_r; reflexivity|]. cbn [fold_left].
    assert (E : det_kid order (mkDet s l e) k = mkDet s (l ++ [from_str order k mstr0]) e).
    { unfold kind in T. unfold det_kid. htags T k. reflexivity. }
    rewrite E, IH. rewrite <- app_assoc. reflexivity. }
  assert (R3 : forall ks, Forall (kind "ho:DESC") ks -> forall s l e, fold_left (det_kid order) ks (mkDet s l e) = mkDet s l (e ++ map (fun k => from_str order k mstr0) ks)).
  { induction 1 as [|k ks' T F IH]; intros s l e; [rewrite app_nil_r; reflexivity|]. cbn [fold_left].
    assert (E : det_kid order (mkDet s l e) k = mkDet s l (e ++ [from_str order k mstr0])).
    { unfold kind in T. unfold det_kid. htags T k. reflexivity. }
    rewrite E, IH. rewrite <- app_assoc. reflexivity. }
  rewrite !fold_left_app, R1, (R2 _ T2), (R3 _ T3). cbn [app]. split; [reflexivity|]. split; [exact S2|exact S3].
Qed.

(** ** Revisions *)
Lemma co_node_ok : forall c, co_ok c -> node_ok (to_co c).
Proof.
  intros c (A & B & C). unfold to_co. apply inner_ok; [plain_tag|]. rewrite !Forall_app. split; [|split]; apply text_nodes_ok; auto; plain_tag.
Qed.
Lemma mo_node_ok : forall m, mo_ok m -> node_ok (to_mo m).
Proof.
  intros m (A & B). unfold to_mo. apply inner_ok; [plain_tag|]. constructor; [apply leaf_ok; auto; plain_tag|apply text_nodes_ok; auto; plain_tag].
Qed.
Lemma co_read : forall c k, co_ok c -> same (to_co c) k -> is_tag (lit "COMPANY-REVISION-INFO") k = true /\ kept_co c (from_co order k).
Proof.
  intros c k _ S. unfold to_co in S. apply inner_back in S; [|plain_tag]. destruct S as (T & S). split.
  - rewrite (tag_at _ _ _ T). vm_compute. reflexivity.
  - apply Forall2_app_inv_l in S. destruct S as (k1 & r1 & S1 & S & E). apply Forall2_app_inv_l in S. destruct S as (k2 & k3 & S2 & S3 & ->).
    unfold kept_co, from_co, prop, get_node. rewrite E. clear E T k.
    apply text_ref in S1; [|plain_tag]. apply text_ref in S2; [|plain_tag]. apply text_ref in S3; [|plain_tag].
    destruct S1 as [(-> & ->)|(a & -> & TA & VA & RA)], S2 as [(-> & ->)|(b & -> & TB & VB & RB)], S3 as [(-> & ->)|(d & -> & TD & VD & RD)];
      cbn [app find]; try htags TA a; try htags TB b; try htags TD d; rewrite ?VA, ?VB, ?VD, ?RA, ?RB, ?RD; reflexivity.
Qed.
Lemma mo_read : forall m k, mo_ok m -> same (to_mo m) k -> is_tag (lit "MODIFICATION") k = true /\ kept_mo m (from_mo k).
Proof.
  intros m k _ S. unfold to_mo in S. apply inner_back in S; [|plain_tag]. destruct S as (T & S). split.
  - rewrite (tag_at _ _ _ T). vm_compute. reflexivity.
  - unfold kept_mo, from_mo, prop, get_node. destruct (x_kids k) as [|a k2]; [inversion S|]. apply f2_cons in S. destruct S as (S1 & S2).
    apply leaf_back in S1; [|plain_tag]. destruct S1 as (TA & VA). apply text_ref in S2; [|plain_tag].
    destruct S2 as [(-> & ->)|(b & -> & TB & VB & RB)]; cbn [find]; htags TA a; try htags TB b; rewrite ?VA, ?VB; reflexivity.
Qed.
Lemma to_rev_ok : forall r, rev_ok r -> node_ok (to_rev r).
Proof.
  intros r (A & B & C & D & E & F). unfold to_rev. apply inner_ok; [plain_tag|]. rewrite !Forall_app. split; [|split; [|split; [|split; [|split]]]].
  - destruct (rv_member r) as [|x m]; [constructor|]. constructor; [|constructor]. apply ref_node_ok; auto. plain_tag.
  - apply text_nodes_ok; auto; plain_tag.
  - apply text_nodes_ok; auto; plain_tag.
  - apply text_nodes_ok; auto; plain_tag.
  - eapply to_all_ok; [plain_tag|exact co_node_ok|exact E].
  - eapply to_all_ok; [plain_tag|exact mo_node_ok|exact F].
Qed.
Lemma rev_read : forall r k, rev_ok r -> same (to_rev r) k -> is_tag (lit "DOC-REVISION") k = true /\ kept_rev r (from_rev order k).
Proof.
  intros r k (MO & _ & _ & _ & CO & MD) S. unfold to_rev in S. apply inner_back in S; [|plain_tag]. destruct S as (T & S). split.
  { rewrite (tag_at _ _ _ T). vm_compute. reflexivity. }
  unfold from_rev, rev0.
  apply Forall2_app_inv_l in S. destruct S as (k1 & r1 & S1 & S & ->).
  apply Forall2_app_inv_l in S. destruct S as (k2 & r2 & S2 & S & ->).
  apply Forall2_app_inv_l in S. destruct S as (k3 & r3 & S3 & S & ->).
  apply Forall2_app_inv_l in S. destruct S as (k4 & r4 & S4 & S & ->).
  apply Forall2_app_inv_l in S. destruct S as (k5 & k6 & S5 & S6 & ->).
  rewrite !fold_left_app.
  assert (R1 : fold_left (rev_kid order) k1 (mkRv [] [] [] [] [] []) = mkRv (trim (rv_member r)) [] [] [] [] []).
  { destruct (rv_member r) as [|x m]; [inversion S1; subst; reflexivity|]. destruct (one_back _ _ S1) as (a & -> & SA).
    apply ref_back in SA; [|plain_tag]. destruct SA as (TA & RA). cbn [fold_left]. unfold rev_kid. htags TA a. rewrite RA. reflexivity. }
  assert (R2 : forall m s d cs ms, fold_left (rev_kid order) k2 (mkRv m [] s d cs ms) = mkRv m (trim (rv_label r)) s d cs ms).
  { intros. destruct (text_case (lit "ho:REVISION-LABEL") _ _ ltac:(plain_tag) S2) as [(-> & ->)|(a & -> & TA & VA)]; [reflexivity|].
    cbn [fold_left]. unfold rev_kid. htags TA a. rewrite VA. reflexivity. }
  assert (R3 : forall m l d cs ms, fold_left (rev_kid order) k3 (mkRv m l [] d cs ms) = mkRv m l (trim (rv_state r)) d cs ms).
  { intros. destruct (text_case (lit "ho:STATE") _ _ ltac:(plain_tag) S3) as [(-> & ->)|(a & -> & TA & VA)]; [reflexivity|].
    cbn [fold_left]. unfold rev_kid. htags TA a. rewrite VA. reflexivity. }
  assert (R4 : forall m l s cs ms, fold_left (rev_kid order) k4 (mkRv m l s [] cs ms) = mkRv m l s (trim (rv_date r)) cs ms).
  { intros. destruct (text_case (lit "ho:DATE") _ _ ltac:(plain_tag) S4) as [(-> & ->)|(a & -> & TA & VA)]; [reflexivity|].
    cbn [fold_left]. unfold rev_kid. htags TA a. rewrite VA. reflexivity. }
  assert (R5 : exists cs, Forall2 kept_co (rv_cos r) cs /\ forall m l s d ms, fold_left (rev_kid order) k5 (mkRv m l s d [] ms) = mkRv m l s d cs ms).
  { destruct (all_case (lit "ho:COMPANY-REVISION-INFOS") _ _ _ ltac:(plain_tag) S5) as [(-> & ->)|(a & -> & TA & KA)]; [exists []; split; [constructor|reflexivity]|].
    eexists. split; [eapply all_in; [exact co_read|exact CO|exact KA]|]. intros. cbn [fold_left]. unfold rev_kid. htags TA a. reflexivity. }
  assert (R6 : exists ms, Forall2 kept_mo (rv_mods r) ms /\ forall m l s d cs, fold_left (rev_kid order) k6 (mkRv m l s d cs []) = mkRv m l s d cs ms).
  { destruct (all_case (lit "ho:MODIFICATIONS") _ _ _ ltac:(plain_tag) S6) as [(-> & ->)|(a & -> & TA & KA)]; [exists []; split; [constructor|reflexivity]|].
    eexists. split; [eapply all_in; [exact mo_read|exact MD|exact KA]|]. intros. cbn [fold_left]. unfold rev_kid. htags TA a. reflexivity. }
  destruct R5 as (cs & KC & R5). destruct R6 as (ms & KM & R6). rewrite R1, R2, R3, R4, R5, R6.
  unfold kept_rev. cbn [rv_member rv_label rv_state rv_date rv_cos rv_mods]. auto 10.
Qed.
Lemma admin_ok : forall l, Forall rev_ok l -> Forall node_ok (to_admin l).
Proof.
  intros l F. unfold to_admin. destruct l as [|r l]; [constructor|]. constructor; [|constructor]. apply inner_ok; [plain_tag|].
  constructor; [|constructor]. apply inner_ok; [plain_tag|]. eapply all_ok; [exact to_rev_ok|exact F].
Qed.
Lemma admin_case : forall l ks, Forall rev_ok l -> Forall2 same (to_admin l) ks ->
  ks = [] /\ l = [] \/ exists k, ks = [k] /\ x_tag k = lit "ho:ADMIN-DATA" /\ Forall2 kept_rev l (fold_left (admin_kid order) (x_kids k) []).
Proof.
  intros l ks F S. unfold to_admin in S. destruct l as [|r l]; [left; inversion S; auto|]. right.
  destruct (one_back _ _ S) as (k & -> & SK). apply inner_back in SK; [|plain_tag]. destruct SK as (T & KK). exists k. split; [reflexivity|].
  split; [exact T|]. destruct (one_back _ _ KK) as (a & -> & SA). apply inner_back in SA; [|plain_tag]. destruct SA as (TA & KA).
  cbn [fold_left]. unfold admin_kid. htags TA a. cbn [app]. eapply all_in; [exact rev_read|exact F|exact KA].
Qed.

(** ** Groups *)
Lemma ucat_enum : forall t, t <= 1 -> enum_ok 0 ucat_texts t.
Proof.
  intros t LE. assert (C : t = 0 \/ t = 1) by lia.
  destruct C as [->| ->]; (split; [apply line_lit; reflexivity|]); eexists; eexists; (split; [vm_compute; reflexivity|vm_compute; reflexivity]).
Qed.
Lemma to_group_ok : forall g, group_ok g -> node_ok (to_group g).
Proof.
  intros g (DO & _ & CO & LO & _). unfold to_group. apply inner_ok; [plain_tag|]. rewrite !Forall_app. split; [|split].
  - apply to_det_ok. exact DO.
  - constructor; [|constructor]. apply leaf_ok; [plain_tag|]. apply MethProofs.line_text. apply (ucat_enum _ CO).
  - eapply to_all_ok; [plain_tag| |exact LO]. intros. apply ref_node_ok; auto. plain_tag.
Qed.
Lemma refs_read : forall l k, Forall tight l -> Forall2 same (map (ref_node (lit "ho:UNIT-REF")) l) (x_kids k) ->
  map (ref_of order) (filter (is_tag (lit "UNIT-REF")) (x_kids k)) = l.
Proof.
  intros l k F S.
  assert (G : Forall2 (fun a b => b = a) l (map (ref_of order) (filter (is_tag (lit "UNIT-REF")) (x_kids k)))).
  { eapply (all_in (ref_node (lit "ho:UNIT-REF")) tight (lit "UNIT-REF") (ref_of order)); [|exact F|exact S].
    intros a b TA SA. apply ref_back in SA; [|plain_tag]. destruct SA as (T & R). split; [rewrite (tag_at _ _ _ T); vm_compute; reflexivity|].
    rewrite R. exact TA. }
  clear - G. induction G as [|a b l l' -> G IH]; [reflexivity|]. rewrite IH. reflexivity.
Qed.
Lemma group_read : forall g k, group_ok g -> same (to_group g) k -> is_tag (lit "UNITGROUP") k = true /\ kept_group g (from_group order k).
Proof.
  intros g k (DO & TS & CO & LO & TR & AS) S. unfold to_group in S. apply inner_back in S; [|plain_tag]. destruct S as (T & S). split.
  { rewrite (tag_at _ _ _ T). vm_compute. reflexivity. }
  unfold from_group, from_det.
  apply Forall2_app_inv_l in S. destruct S as (k1 & r1 & S1 & S & ->). cbn [app] in S. destruct r1 as [|k2 k3]; [inversion S|].
  apply f2_cons in S. destruct S as (S2 & S3). pose proof (det_kinds _ _ DO S1) as T1.
  apply leaf_back in S2; [|plain_tag]. destruct S2 as (T2 & V2). apply all_case in S3; [|plain_tag].
  assert (D : kept_det (gr_det g) (fold_left (det_kid order) (k1 ++ k2 :: k3) det0)).
  { rewrite fold_left_app. pose proof (det_read _ _ DO S1) as K. set (d := fold_left _ k1 det0) in *. cbn [fold_left].
    assert (E2 : det_kid order d k2 = d) by (unfold det_kid; htags T2 k2; reflexivity). rewrite E2.
    destruct S3 as [(-> & _)|(a & -> & TA & _)]; [exact K|]. cbn [fold_left].
    assert (E3 : det_kid order d a = d) by (unfold det_kid; htags TA a; reflexivity). rewrite E3. exact K. }
  set (d := fold_left (det_kid order) (k1 ++ k2 :: k3) det0) in *. rewrite fold_left_app.
  assert (E1 : fold_left (group_kid order) k1 (mkGr d 0 []) = mkGr d 0 []).
  { apply (skip_plain _ detail_only); [|exact T1]. intros c x [X|[X|X]]; unfold kind in X; unfold group_kid; htags X x; reflexivity. }
  rewrite E1. cbn [fold_left].
  assert (E2 : group_kid order (mkGr d 0 []) k2 = mkGr d (gr_cat g) []).
  { unfold group_kid. htags T2 k2. rewrite V2. cbn [gr_det gr_refs]. destruct (ucat_enum _ CO) as (_ & c & r & -> & ->). reflexivity. }
  rewrite E2.
  assert (E3 : fold_left (group_kid order) k3 (mkGr d (gr_cat g) []) = mkGr d (gr_cat g) (gr_refs g)).
  { destruct S3 as [(-> & ->)|(a & -> & TA & KA)]; [reflexivity|]. cbn [fold_left]. unfold group_kid. htags TA a. cbn [gr_det gr_cat gr_refs].
    rewrite (refs_read _ _ TR KA). rewrite (emplace_all_in (fun x => x) (gr_refs g) []); [reflexivity|]. cbn [app]. rewrite map_id. exact AS. }
  rewrite E3. split; [exact D|]. split; reflexivity.
Qed.

Section Doubles.
Context (print : N -> list N) (scan : list N -> N).

(** ** Dimensions *)
Lemma exp_ok : forall tag d, name_ok tag -> number_ok print d -> Forall node_ok (to_exp print tag d).
Proof. intros tag d NT NO. unfold to_exp. destruct (is_zero d); [constructor|]. constructor; [|constructor]. apply leaf_ok; auto. Qed.
Lemma exp_case : forall tag d ks, name_ok tag -> Forall2 same (to_exp print tag d) ks ->
  ks = [] /\ kept_exp print scan d = 0 \/ exists k, ks = [k] /\ x_tag k = tag /\ value_num scan k = kept_exp print scan d.
Proof.
  intros tag d ks NT S. unfold to_exp in S. unfold kept_exp. change (null d) with (is_zero d). destruct (is_zero d); [left; inversion S; auto|]. right.
  destruct (one_back _ _ S) as (k & -> & SK). apply leaf_back in SK; [|exact NT]. destruct SK as (T & V). exists k. split; [reflexivity|].
  split; [exact T|]. unfold value_num. rewrite V. reflexivity.
Qed.
Lemma dim_shape : forall d, to_dim print d = XNode (lit "ho:PHYSICAL-DIMENSION") [(lit "ID", dm_id d)] [] (x_kids (to_dim print d)).
Proof. intros d. unfold to_dim. rewrite attr_shape by plain_tag. reflexivity. Qed.
Lemma to_dim_ok : forall d, dim_ok print d -> node_ok (to_dim print d).
Proof.
  intros d (LO & _ & DO & A & B & C & D & E & F & G). rewrite dim_shape. apply attr_node_ok; [plain_tag|plain_tag|exact LO|].
  unfold to_dim. cbn [x_kids set_kids]. rewrite !Forall_app. split; [apply to_det_ok; exact DO|].
  repeat (split; [apply exp_ok; [plain_tag|assumption]|]). apply exp_ok; [plain_tag|assumption].
Qed.
Lemma det_skip_dim : forall ks d, Forall detail_only ks -> fold_left (dim_kid scan order) ks d = d.
Proof. intros ks d F. apply (skip_plain _ detail_only); [|exact F]. intros [] k [T|[T|T]]; unfold kind in T; unfold dim_kid; htags T k; reflexivity. Qed.
Lemma dim_read : forall d k, dim_ok print d -> same (to_dim print d) k ->
  is_tag (lit "PHYSICAL-DIMENSION") k = true /\ kept_dim print scan d (from_dim scan order k).
Proof.
  intros d k (LO & TI & DO & _) S. rewrite dim_shape in S. split.
  { rewrite (tag_at _ (lit "ho:PHYSICAL-DIMENSION")) by (rewrite <- (same_tag _ _ S); reflexivity). vm_compute. reflexivity. }
  unfold from_dim. rewrite (one_attr order OR _ _ (lit "ID") (dm_id d) S eq_refl). rewrite TI.
  apply same_kids in S. cbn [x_kids] in S. unfold to_dim in S. cbn [x_kids set_kids] in S.
  apply Forall2_app_inv_l in S. destruct S as (k0 & r0 & S0 & S & ->). apply det_kinds in S0; [|exact DO].
  apply Forall2_app_inv_l in S. destruct S as (k1 & r1 & S1 & S & ->). apply exp_case in S1; [|plain_tag].
  apply Forall2_app_inv_l in S. destruct S as (k2 & r2 & S2 & S & ->). apply exp_case in S2; [|plain_tag].
  apply Forall2_app_inv_l in S. destruct S as (k3 & r3 & S3 & S & ->). apply exp_case in S3; [|plain_tag].
  apply Forall2_app_inv_l in S. destruct S as (k4 & r4 & S4 & S & ->). apply exp_case in S4; [|plain_tag].
  apply Forall2_app_inv_l in S. destruct S as (k5 & r5 & S5 & S & ->). apply exp_case in S5; [|plain_tag].
  apply Forall2_app_inv_l in S. destruct S as (k6 & k7 & S6 & S7 & ->). apply exp_case in S6; [|plain_tag]. apply exp_case in S7; [|plain_tag].
  rewrite !fold_left_app, (det_skip_dim k0) by exact S0.
  assert (R1 : forall i e m t c h o u, fold_left (dim_kid scan order) k1 (mkDim i e 0 m t c h o u) = mkDim i e (kept_exp print scan (dm_len d)) m t c h o u).
  { intros. destruct S1 as [(-> & E)|(a & -> & T & E)]; [rewrite E; reflexivity|]. cbn [fold_left]. unfold dim_kid. htags T a. rewrite E. reflexivity. }
  assert (R2 : forall i e l t c h o u, fold_left (dim_kid scan order) k2 (mkDim i e l 0 t c h o u) = mkDim i e l (kept_exp print scan (dm_mass d)) t c h o u).
  { intros. destruct S2 as [(-> & E)|(a & -> & T & E)]; [rewrite E; reflexivity|]. cbn [fold_left]. unfold dim_kid. htags T a. rewrite E. reflexivity. }
  assert (R3 : forall i e l m c h o u, fold_left (dim_kid scan order) k3 (mkDim i e l m 0 c h o u) = mkDim i e l m (kept_exp print scan (dm_time d)) c h o u).
  { intros. destruct S3 as [(-> & E)|(a & -> & T & E)]; [rewrite E; reflexivity|]. cbn [fold_left]. unfold dim_kid. htags T a. rewrite E. reflexivity. }
  assert (R4 : forall i e l m t h o u, fold_left (dim_kid scan order) k4 (mkDim i e l m t 0 h o u) = mkDim i e l m t (kept_exp print scan (dm_cur d)) h o u).
  { intros. destruct S4 as [(-> & E)|(a & -> & T & E)]; [rewrite E; reflexivity|]. cbn [fold_left]. unfold dim_kid. htags T a. rewrite E. reflexivity. }
  assert (R5 : forall i e l m t c o u, fold_left (dim_kid scan order) k5 (mkDim i e l m t c 0 o u) = mkDim i e l m t c (kept_exp print scan (dm_temp d)) o u).
  { intros. destruct S5 as [(-> & E)|(a & -> & T & E)]; [rewrite E; reflexivity|]. cbn [fold_left]. unfold dim_kid. htags T a. rewrite E. reflexivity. }
  assert (R6 : forall x, fold_left (dim_kid scan order) k6 x = x).
  { intros []. destruct S6 as [(-> & E)|(a & -> & T & E)]; [reflexivity|]. cbn [fold_left]. unfold dim_kid. htags T a. reflexivity. }
  assert (R7 : forall x, fold_left (dim_kid scan order) k7 x = x).
  { intros []. destruct S7 as [(-> & E)|(a & -> & T & E)]; [reflexivity|]. cbn [fold_left]. unfold dim_kid. htags T a. reflexivity. }
  rewrite R1, R2, R3, R4, R5, R6, R7. reflexivity.
Qed.

(** ** Units *)
Lemma unit_shape : forall u, to_unit print u = XNode (lit "ho:UNIT") [(lit "ID", un_id u)] [] (x_kids (to_unit print u)).
Proof. intros u. unfold to_unit. rewrite attr_shape by plain_tag. reflexivity. Qed.
Lemma stored_plain : forall u, negb (un_factor u =? one) || negb (is_zero (un_offset u)) = negb (plain u).
Proof. intros u. unfold plain. change (null (un_offset u)) with (is_zero (un_offset u)). change 0x3FF0000000000000 with one. destruct (un_factor u =? one), (is_zero (un_offset u)); reflexivity. Qed.
Lemma to_unit_ok : forall u, hunit_ok print u -> node_ok (to_unit print u).
Proof.
  intros u (LO & _ & DO & A & B & C & D). rewrite unit_shape. apply attr_node_ok; [plain_tag|plain_tag|exact LO|].
  unfold to_unit. cbn [x_kids set_kids]. rewrite !Forall_app. split; [apply to_det_ok; exact DO|].
  split; [apply text_nodes_ok; auto; plain_tag|]. split; [|apply text_nodes_ok; auto; plain_tag].
  destruct (_ || _); [|constructor]. constructor; [apply leaf_ok; auto; plain_tag|]. constructor; [apply leaf_ok; auto; plain_tag|constructor].
Qed.
Lemma unit_read : forall u k, hunit_ok print u -> same (to_unit print u) k ->
  is_tag (lit "UNIT") k = true /\ kept_hunit print scan u (from_unit scan order k).
Proof.
  intros u k (LO & TI & DO & _) S. rewrite unit_shape in S. split.
  { rewrite (tag_at _ (lit "ho:UNIT")) by (rewrite <- (same_tag _ _ S); reflexivity). vm_compute. reflexivity. }
  unfold from_unit. rewrite (one_attr order OR _ _ (lit "ID") (un_id u) S eq_refl). rewrite TI.
  apply same_kids in S. cbn [x_kids] in S. unfold to_unit in S. cbn [x_kids set_kids] in S. rewrite stored_plain in S.
  apply Forall2_app_inv_l in S. destruct S as (k0 & r0 & S0 & S & ->). apply det_kinds in S0; [|exact DO].
  apply Forall2_app_inv_l in S. destruct S as (k1 & r1 & S1 & S & ->). apply text_ref in S1; [|plain_tag].
  apply Forall2_app_inv_l in S. destruct S as (k2 & k3 & S2 & S3 & ->). apply text_ref in S3; [|plain_tag].
  rewrite !fold_left_app.
  assert (R0 : forall x, fold_left (unit_kid scan order) k0 x = x).
  { intros x. apply (skip_plain _ detail_only); [|exact S0]. intros [] a [T|[T|T]]; unfold kind in T; unfold unit_kid; htags T a; reflexivity. }
  assert (R1 : forall i e f o d, fold_left (unit_kid scan order) k1 (mkUn i e [] f o d) = mkUn i e (trim (un_display u)) f o d).
  { intros. destruct S1 as [(-> & ->)|(a & -> & T & E & _)]; [reflexivity|]. cbn [fold_left]. unfold unit_kid. htags T a. rewrite E. reflexivity. }
  assert (R2 : forall i e n d, fold_left (unit_kid scan order) k2 (mkUn i e n one 0 d) =
    mkUn i e n (if plain u then one else again print scan (un_factor u)) (if plain u then 0 else again print scan (un_offset u)) d).
  { intros. destruct (plain u); cbn [negb] in S2; [inversion S2; subst; reflexivity|]. destruct k2 as [|a k2]; [inversion S2|].
    apply f2_cons in S2. destruct S2 as (SA & S2). destruct (one_back _ _ S2) as (b & -> & SB).
    apply leaf_back in SA; [|plain_tag]. destruct SA as (TA & VA). apply leaf_back in SB; [|plain_tag]. destruct SB as (TB & VB).
    cbn [fold_left]. unfold unit_kid at 2. htags TA a. unfold unit_kid. htags TB b. unfold value_num. rewrite VA, VB. reflexivity. }
  assert (R3 : forall i e n f o, fold_left (unit_kid scan order) k3 (mkUn i e n f o []) = mkUn i e n f o (trim (un_dim u))).
  { intros. destruct S3 as [(-> & ->)|(a & -> & T & _ & E)]; [reflexivity|]. cbn [fold_left]. unfold unit_kid. htags T a. rewrite E. reflexivity. }
  rewrite R0, R1, R2, R3. reflexivity.
Qed.

(** ** Unit specifications *)
Lemma inactive_spec : forall p, sp_active p = false <-> p = spec0.
Proof.
  intros [r d g u]. unfold sp_active, spec0. cbn [sp_revs sp_dims sp_groups sp_units]. split.
  - destruct r, d, g, u; cbn; intros; try discriminate. reflexivity.
  - intros E. assert (r = [] /\ d = [] /\ g = [] /\ u = []) as (-> & -> & -> & ->) by (repeat split; congruence). reflexivity.
Qed.
Lemma spec_nodes_ok : forall p, spec_ok print p -> Forall node_ok (to_spec print p).
Proof.
  intros p (A & B & C & D & _). unfold to_spec. destruct (sp_active p); [|constructor]. constructor; [|constructor]. apply inner_ok; [plain_tag|].
  rewrite !Forall_app. split; [apply admin_ok; exact A|]. split; [|split].
  - eapply to_all_ok; [plain_tag|exact to_dim_ok|exact B].
  - eapply to_all_ok; [plain_tag|exact to_group_ok|exact C].
  - eapply to_all_ok; [plain_tag|exact to_unit_ok|exact D].
Qed.
Lemma members : forall {A} (key : A -> list N) (f : A -> xnode) (P : A -> Prop) tag g (R : A -> A -> Prop) l ks,
  (forall a k, P a -> same (f a) k -> is_tag tag k = true /\ R a (g k)) -> (forall a b, P a -> R a b -> key b = key a) ->
  Forall P l -> map_ok key l -> Forall2 same (map f l) ks ->
  Forall2 R l (fold_left (fun m x => add_named key x m) (map g (filter (is_tag tag) ks)) []).
Proof.
  intros A key f P tag g R l ks RD KE F (AS & NE) S. pose proof (all_in f P tag g R RD l ks F S) as K.
  assert (E : map key (map g (filter (is_tag tag) ks)) = map key l).
  { clear - K KE F. induction K as [|a b l l' H K IH]; [reflexivity|]. inversion F; subst. cbn [map]. rewrite IH by auto. rewrite (KE _ _ H2 H). reflexivity. }
  rewrite named_all_in; [exact K|rewrite E; exact AS|rewrite E; exact NE].
Qed.
Lemma spec_read : forall p ks, spec_ok print p -> Forall2 same (to_spec print p) ks -> Forall (kind "ho:UNIT-SPEC") ks /\
  kept_spec print scan p (fold_left (hdu_kid scan order) ks spec0).
Proof.
  intros p ks (RO & DO & GO & UO & DM & GM & UM) S. unfold to_spec in S. destruct (sp_active p) eqn:A.
  - destruct (one_back _ _ S) as (k & -> & SK). apply inner_back in SK; [|plain_tag]. destruct SK as (T & KK). split; [constructor; [exact T|constructor]|].
    cbn [fold_left]. unfold hdu_kid. htags T k. unfold from_spec, spec0.
    apply Forall2_app_inv_l in KK. destruct KK as (k1 & r1 & S1 & KK & ->).
    apply Forall2_app_inv_l in KK. destruct KK as (k2 & r2 & S2 & KK & ->).
    apply Forall2_app_inv_l in KK. destruct KK as (k3 & k4 & S3 & S4 & ->).
    rewrite !fold_left_app.
    assert (R1 : exists rs, Forall2 kept_rev (sp_revs p) rs /\ forall ds gs us, fold_left (spec_kid scan order) k1 (mkSp [] ds gs us) = mkSp rs ds gs us).
    { destruct (admin_case _ _ RO S1) as [(-> & ->)|(a & -> & TA & KA)]; [exists []; split; [constructor|reflexivity]|].
      eexists. split; [exact KA|]. intros. cbn [fold_left]. unfold spec_kid. htags TA a. reflexivity. }
    assert (R2 : exists ds, Forall2 (kept_dim print scan) (sp_dims p) ds /\ forall rs gs us, fold_left (spec_kid scan order) k2 (mkSp rs [] gs us) = mkSp rs ds gs us).
    { destruct (all_case (lit "ho:PHYSICAL-DIMENSIONS") _ _ _ ltac:(plain_tag) S2) as [(-> & ->)|(a & -> & TA & KA)]; [exists []; split; [constructor|reflexivity]|].
      eexists. split; [eapply (members dm_id); [exact dim_read| |exact DO|exact DM|exact KA]|].
      - intros x y _ ->. reflexivity.
      - intros. cbn [fold_left]. unfold spec_kid. htags TA a. reflexivity. }
    assert (R3 : exists gs, Forall2 kept_group (sp_groups p) gs /\ forall rs ds us, fold_left (spec_kid scan order) k3 (mkSp rs ds [] us) = mkSp rs ds gs us).
    { destruct (all_case (lit "ho:UNITGROUPS") _ _ _ ltac:(plain_tag) S3) as [(-> & ->)|(a & -> & TA & KA)]; [exists []; split; [constructor|reflexivity]|].
      eexists. split; [eapply (members gr_name); [exact group_read| |exact GO|exact GM|exact KA]|].
      - intros x y (_ & TI & _) ((E & _) & _). unfold gr_name. rewrite E. exact TI.
      - intros. cbn [fold_left]. unfold spec_kid. htags TA a. reflexivity. }
    assert (R4 : exists us, Forall2 (kept_hunit print scan) (sp_units p) us /\ forall rs ds gs, fold_left (spec_kid scan order) k4 (mkSp rs ds gs []) = mkSp rs ds gs us).
    { destruct (all_case (lit "ho:UNITS") _ _ _ ltac:(plain_tag) S4) as [(-> & ->)|(a & -> & TA & KA)]; [exists []; split; [constructor|reflexivity]|].
      eexists. split; [eapply (members un_id); [exact unit_read| |exact UO|exact UM|exact KA]|].
      - intros x y _ ->. reflexivity.
      - intros. cbn [fold_left]. unfold spec_kid. htags TA a. reflexivity. }
    destruct R1 as (rs & K1 & R1). destruct R2 as (ds & K2 & R2). destruct R3 as (gs & K3 & R3). destruct R4 as (us & K4 & R4).
    rewrite R1, R2, R3, R4. unfold kept_spec. cbn [sp_revs sp_dims sp_groups sp_units]. auto.
  - inversion S; subst. split; [constructor|]. apply inactive_spec in A. subst p. cbn [fold_left]. unfold kept_spec, spec0. cbn [sp_revs sp_dims sp_groups sp_units].
    auto.
Qed.

(** ** Comments *)
Definition hdu_attrs (c : hducom) : list (list N * list N) :=
  if sp_active (hu_spec c) then [(lit "xmlns:ho", lit "http://www.asam.net/xml")] else [].
Lemma to_hdu_shape : forall c, hdc_ok (hu_hd c) ->
  to_hdu print c = XNode (lit "HDcomment") (hdu_attrs c) [] (hd_head (hu_hd c) ++ to_spec print (hu_spec c) ++ to_common (hd_md (hu_hd c))).
Proof.
  intros c OK. unfold to_hdu, root, hdu_attrs. change (lit "HD" ++ lit "comment") with (lit "HDcomment"). rewrite new_node_shape by plain_tag.
  unfold hdu_kids. rewrite to_hd_shape by exact OK. destruct (sp_active (hu_spec c)); reflexivity.
Qed.
Lemma hd_kinds : forall c ks, Forall2 same (hd_head c) ks -> Forall (fun k => kind "TX" k \/ kind "time_source" k \/ kind "constants" k) ks.
Proof.
  intros c ks S. unfold hd_head in S. apply Forall2_app_inv_l in S. destruct S as (k1 & r1 & S1 & S & ->).
  apply Forall2_app_inv_l in S. destruct S as (k2 & k3 & S2 & S3 & ->). rewrite !Forall_app. unfold kind. split; [|split].
  - destruct (one_back _ _ S1) as (a & -> & SA). constructor; [|constructor]. left. rewrite <- (same_tag _ _ SA). reflexivity.
  - unfold opt_nodes in S2. destruct (has_text _); [|inversion S2; constructor]. destruct (one_back _ _ S2) as (a & -> & SA). constructor; [|constructor].
    right; left. rewrite <- (same_tag _ _ SA). reflexivity.
  - unfold consts_nodes in S3. destruct (hd_consts c); [inversion S3; constructor|]. destruct (one_back _ _ S3) as (a & -> & SA). constructor; [|constructor].
    right; right. rewrite <- (same_tag _ _ SA). reflexivity.
Qed.
Lemma hdu_back : forall c s, hdu_ok print c -> text_of order (to_hdu print c) s ->
  exists c', from_text (from_hdu scan order) describe_hdu s hducom0 = Some c' /\ kept_hdu print scan c c'.
Proof.
  intros c s (HO & SO) TX. rewrite to_hdu_shape in TX by exact HO.
  assert (NO : node_ok (XNode (lit "HDcomment") (hdu_attrs c) [] (hd_head (hu_hd c) ++ to_spec print (hu_spec c) ++ to_common (hd_md (hu_hd c))))).
  { constructor; [plain_tag| | |exists []; split; [constructor|reflexivity]|].
    - unfold hdu_attrs. destruct (sp_active _); [|constructor]. constructor; [intros []|constructor].
    - unfold hdu_attrs. destruct (sp_active _); [|constructor]. constructor; [|constructor]. split; [apply name_lit; reflexivity|apply line_lit; reflexivity].
    - rewrite !Forall_app. split; [apply hd_head_ok; exact HO|]. split; [apply spec_nodes_ok; exact SO|apply common_ok; apply HO]. }
  destruct (from_text_node (from_hdu scan order) describe_hdu order _ s hducom0 OR NO TX) as (n' & E & S). rewrite E. clear E TX NO.
  apply same_kids in S. cbn [x_kids] in S. apply Forall2_app_inv_l in S. destruct S as (k1 & r1 & S1 & S & EK).
  apply Forall2_app_inv_l in S. destruct S as (k2 & k3 & S2 & S3 & ->).
  pose proof (hd_kinds _ _ S1) as T1. destruct (spec_read _ _ SO S2) as (T2 & K2). pose proof (common_kinds _ _ S3) as T3.
  destruct (hd_read order OR (hu_hd c) (XNode [] [] [] (k1 ++ k3)) HO) as (h & FH & KH).
  { cbn [x_kids]. apply Forall2_app; assumption. }
  assert (FE : from_hd order n' hdc0 = Some h).
  { rewrite <- FH. unfold from_hd, from_md. cbn [x_kids]. rewrite EK. rewrite !fold_left_app.
    match goal with |- context [fold_left ?f k2 ?a] => assert (W : forall x, fold_left f k2 x = x) end.
    { apply (skip_plain _ (kind "ho:UNIT-SPEC")); [|exact T2]. intros [x|] k T; unfold kind in T; cbn [obind]; [htags T k|]; reflexivity. }
    rewrite W. match goal with |- obind ?a _ = obind ?a _ => destruct a as [m|]; cbn [obind]; [|reflexivity] end. f_equal. rewrite ?fold_left_app.
    assert (W2 : forall x, fold_left (read_hd order) k2 x = x).
    { apply (skip_plain _ (kind "ho:UNIT-SPEC")); [|exact T2]. intros x k T; unfold kind in T; unfold read_hd; htags T k; reflexivity. }
    rewrite W2. reflexivity. }
  unfold from_hdu. cbn [hu_hd hu_spec hducom0]. rewrite FE. cbn [obind]. eexists. split; [reflexivity|]. split; [exact KH|]. cbn [hu_spec].
  rewrite EK, !fold_left_app.
  assert (W1 : forall x, fold_left (hdu_kid scan order) k1 x = x).
  { apply (skip_plain _ (fun k => kind "TX" k \/ kind "time_source" k \/ kind "constants" k)); [|exact T1].
    intros x k [T|[T|T]]; unfold kind in T; unfold hdu_kid; htags T k; reflexivity. }
  assert (W3 : forall x, fold_left (hdu_kid scan order) k3 x = x).
  { apply (skip_plain _ (fun k => x_tag k = lit "common_properties")); [|exact T3]. intros x k T; unfold hdu_kid; htags T k; reflexivity. }
  rewrite W1, W3. exact K2.
Qed.

End Doubles.
End Order.

(** ** Calls *)
Lemma emplace_there : forall {A} (key : A -> list N) x l, ascending (map key l) -> In (key x) (map key l) -> emplace key x l = l.
Proof.
  intros A key x l. unfold ascending. induction l as [|y l IH]; intros S I; [contradiction|]. cbn [map] in S, I. inversion S as [|? ? S1 F]; subst.
  cbn [emplace]. destruct I as [I|I].
  - rewrite I, sless_false by apply lt_irrefl. reflexivity.
  - rewrite Forall_forall in F. pose proof (F _ I) as L. rewrite sless_false by (intros G; apply (lt_irrefl (key x)); eapply lt_trans; eauto).
    pose proof (proj2 (sless_lt _ _) L) as L'. rewrite L', IH by auto. reflexivity.
Qed.
Definition added {A} (name : A -> list N) (xs : list A) : list A := fold_left (fun l x => add_named name x l) xs [].
Lemma added_all : forall {A} (name : A -> list N) xs, map_ok name (added name xs) /\
  (forall x, In x (added name xs) <-> first_of name xs x) /\
  (forall n, In n (map name (added name xs)) <-> n <> [] /\ In n (map name xs)).
Proof.
  intros A name. induction xs as [|x xs IH] using rev_ind.
  - split; [split; [constructor|intros []]|]. split.
    + intros x. split; [intros []|]. intros (a & b & E & _). destruct a; discriminate.
    + intros n. cbn. tauto.
  - destruct IH as ((AS & NE) & I1 & I2). unfold added in *. rewrite fold_left_app. cbn [fold_left]. set (l := fold_left _ xs []) in *.
    assert (OLD : forall y, first_of name (xs ++ [x]) y <-> first_of name xs y \/ y = x /\ name x <> [] /\ ~ In (name x) (map name xs)).
    { intros y. split.
      - intros (a & b & E & N1 & N2). destruct b as [|z b] using rev_ind.
        + apply app_inj_tail in E. destruct E as (-> & ->). right. auto.
        + clear IHb. left. exists a, b. split; [|auto]. change (a ++ y :: b ++ [z]) with (a ++ (y :: b) ++ [z]) in E. rewrite app_assoc in E.
          apply app_inj_tail in E. apply E.
      - intros [(a & b & -> & N1 & N2)|(-> & N1 & N2)].
        + exists a, (b ++ [x]). split; [rewrite <- app_assoc; reflexivity|auto].
        + exists xs, []. auto. }
    unfold add_named. destruct (name x) as [|c r] eqn:EN.
    + split; [split; auto|]. split.
      * intros y. rewrite OLD, I1. intuition congruence.
      * intros n. rewrite I2, map_app, in_app_iff. cbn [map In]. rewrite EN. intuition congruence.
    + rewrite <- EN in *. assert (NX : name x <> []) by congruence. destruct (in_dec (list_eq_dec N.eq_dec) (name x) (map name l)) as [IN|NI].
      * rewrite emplace_there by auto. split; [split; auto|]. apply I2 in IN. destruct IN as (_ & IN). split.
        -- intros y. rewrite OLD, I1. intuition congruence.
        -- intros n. rewrite I2, map_app, in_app_iff. cbn [map In]. intuition congruence.
      * split; [split|split].
        -- apply emplace_ascending. exact AS.
        -- intros I. apply emplace_keys in I; [|exact NI]. destruct I as [I|I]; [congruence|contradiction].
        -- intros y. rewrite emplace_in by exact NI. rewrite OLD, I1. rewrite I2 in NI. intuition congruence.
        -- intros n. rewrite emplace_keys by exact NI. rewrite I2, map_app, in_app_iff. cbn [map In]. intuition congruence.
Qed.
Lemma calls_state : forall ops, fold_left do_scall ops spec0 =
  mkSp (revs_of ops) (added dm_id (dims_of ops)) (added gr_name (groups_of ops)) (added un_id (units_of ops)).
Proof.
  induction ops as [|c ops IH] using rev_ind; [reflexivity|]. rewrite fold_left_app, IH. unfold revs_of, dims_of, groups_of, units_of.
  rewrite !map_app, !concat_app. cbn [fold_left map concat]. unfold added.
  destruct c; cbn [app]; rewrite ?app_nil_r, ?fold_left_app; reflexivity.
Qed.
Lemma kept_in : forall {A B} (R : A -> B -> Prop) l l', Forall2 R l l' ->
  (forall a, In a l -> exists b, In b l' /\ R a b) /\ (forall b, In b l' -> exists a, In a l /\ R a b).
Proof.
  intros A B R l l' F. induction F as [|a b l l' K F IH]; [split; intros ? []|]. destruct IH as (I1 & I2). split; intros x [->|I]; eauto with datatypes.
  - destruct (I1 x I) as (y & J & RY). eauto with datatypes.
  - destruct (I2 x I) as (y & J & RY). eauto with datatypes.
Qed.
Lemma kept_impl : forall {A B} (R Q : A -> B -> Prop) l l', (forall a b, R a b -> Q a b) -> Forall2 R l l' -> Forall2 Q l l'.
Proof. intros A B R Q l l' H F. induction F; constructor; auto. Qed.
Lemma firsts_ok : forall {A} (P : A -> Prop) name xs, Forall P xs -> Forall P (added name xs).
Proof.
  intros A P name xs F. apply Forall_forall. intros x I. apply added_all in I. destruct I as (a & b & -> & _). apply Forall_app in F. destruct F as (_ & F).
  inversion F; subst. assumption.
Qed.
Lemma of_ok : forall {B} print (P : B -> Prop) (f : scall -> list B) ops, (forall c, scall_ok print c -> Forall P (f c)) -> Forall (scall_ok print) ops ->
  Forall P (concat (map f ops)).
Proof. intros B print P f ops H F. induction F; [constructor|]. cbn [map concat]. apply Forall_app. auto. Qed.
Lemma calls_ok : forall print ops, Forall (scall_ok print) ops -> spec_ok print (fold_left do_scall ops spec0).
Proof.
  intros print ops F. rewrite calls_state. unfold spec_ok. cbn [sp_revs sp_dims sp_groups sp_units].
  split; [apply (of_ok print); [intros []|]; cbn; auto|].
  split; [apply firsts_ok, (of_ok print); [intros []|]; cbn; auto|].
  split; [apply firsts_ok, (of_ok print); [intros []|]; cbn; auto|].
  split; [apply firsts_ok, (of_ok print); [intros []|]; cbn; auto|].
  split; [apply added_all|]. split; [exact (proj1 (added_all gr_name (groups_of ops)))|apply added_all].
Qed.
