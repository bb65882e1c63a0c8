(** Proofs about typed comments, part 5: comments and calls. *)
From Coq Require Import String Permutation Sorting.Sorted Lia.
From Verif Require Import Base BlockModel TextSpec XmlModel XmlSpec XmlProofs XmlProofs2 XmlProofs3 XmlProofs4 XmlProofs5
  CommentModel CommentSpec CommentProofs CommentProofs2 CommentProofs3 CommentProofs4.
Local Open Scope N_scope.
Local Open Scope list_scope.

Lemma f2_cons : forall {A B} (R : A -> B -> Prop) x y l m, Forall2 R (x :: l) (y :: m) -> R x y /\ Forall2 R l m.
Proof. intros A B R x y l m F. inversion F; auto. Qed.

(** ** Any text of a node *)

Lemma text_parse : forall order n s, any_order order -> node_ok n -> text_of order n s ->
  exists n', parse_string s = (Some n', true) /\ same n n'.
Proof.
  intros order n s OR OK [->| ->]; [apply parse_written|apply parse_trimmed]; auto.
Qed.
Lemma root_head : forall order n s, node_ok n -> text_of order n s -> exists r, s = 60 :: r.
Proof.
  intros order n s OK TX. assert (W : exists r, write_string order (Some n) = 60 :: r).
  { destruct n as [t a v ks]. cbn [write_string write]. change (indent 0) with (@nil N). cbn [app]. eauto. }
  destruct W as (r & W). destruct TX as [->| ->]; [eauto|]. rewrite W. unfold trim. cbn [ltrim].
  change (is_space 60) with false. cbv iota. unfold rtrim. cbn [rev].
  assert (X : forall l, exists l', ltrim (l ++ [60]) = l' ++ [60]).
  { induction l as [|c l IH]; [exists []; reflexivity|]. cbn [app ltrim]. destruct (is_space c); [exact IH|]. exists (c :: l). reflexivity. }
  destruct (X (rev r)) as (l' & E). rewrite E, rev_app_distr. cbn. eauto.
Qed.
Lemma from_text_node : forall {A} (from : xnode -> A -> option A) describe order n s c, any_order order -> node_ok n -> text_of order n s ->
  exists n', from_text from describe s c = from n' c /\ same n n'.
Proof.
  intros A from describe order n s c OR OK TX. destruct (text_parse order n s OR OK TX) as (n' & P & S).
  destruct (root_head order n s OK TX) as (r & E). exists n'. split; auto. subst s. cbn [from_text].
  change (negb (60 =? 60)) with false. cbv iota. rewrite P. reflexivity.
Qed.

Lemma same_root : forall block ks n', name_ok (block ++ lit "comment") -> same (root block ks) n' -> Forall2 same ks (x_kids n').
Proof.
  intros block ks n' NB S. pose proof (same_kids _ _ S) as K. unfold root in K. cbn [set_kids x_kids] in K. exact K.
Qed.
Lemma root_ok : forall block ks, name_ok (block ++ lit "comment") -> Forall node_ok ks -> node_ok (root block ks).
Proof. intros block ks NB F. unfold root. rewrite new_node_shape by auto. cbn [set_kids x_tag x_attrs x_value]. apply plain_ok; auto. Qed.

(** ** The parts of a comment *)

Definition opt_nodes (tag : list N) (t : mstr) : list xnode := if has_text t then [str_node tag t] else [].
Lemma to_str_opt : forall tag t, name_ok tag -> tag <> lit "linker_name" -> tag <> lit "TX" -> str_ok t -> to_str tag t = opt_nodes tag t.
Proof.
  intros tag t NT NL NX OK. rewrite to_str_node by auto. rewrite (beq_false tag) by auto. unfold opt_nodes, has_text.
  destruct (t_text t); [reflexivity|]. rewrite beq_false by discriminate. reflexivity.
Qed.
Lemma to_tx : forall t, str_ok t -> to_str (lit "TX") t = [str_node (lit "TX") t].
Proof.
  intros t OK. rewrite to_str_node; auto; [|apply name_lit; reflexivity|vm_compute; discriminate].
  rewrite beq_refl, Bool.orb_true_r. reflexivity.
Qed.
Lemma opt_ok : forall tag t, name_ok tag -> str_ok t -> Forall node_ok (opt_nodes tag t).
Proof. intros tag t NT OK. unfold opt_nodes. destruct (has_text t); constructor; [|constructor]. apply str_node_ok; auto. Qed.
Lemma common_ok : forall c, comment_ok c -> Forall node_ok (to_common c).
Proof.
  intros c (_ & LO & _). unfold to_common. destruct (l_active _); constructor; [|constructor]. rewrite to_list_common by auto.
  apply plain_ok; [apply name_lit; reflexivity|]. apply kids_ok. auto.
Qed.

Section Order.
Context (order : list (list N * list N) -> list (list N * list N)) (OR : any_order order).

Definition md_step (r : option comment) (k : xnode) : option comment :=
  obind r (fun c =>
    if is_tag (lit "TX") k then Some (mkC (from_str order k (c_tx c)) (c_common c))
    else if is_tag (lit "common_properties") k then
      obind (from_list order k (c_common c)) (fun l => Some (mkC (c_tx c) l))
    else Some c).

(** A tag that the reading of the base class skips. *)
Definition skipped (k : xnode) : Prop := is_tag (lit "TX") k = false /\ is_tag (lit "common_properties") k = false.
Lemma skip_all : forall ks c, Forall skipped ks -> fold_left md_step ks (Some c) = Some c.
Proof.
  induction ks as [|k ks IH]; intros c F; [reflexivity|]. inversion F as [|? ? (A & B) F']; subst. cbn [fold_left md_step obind].
  rewrite A, B. apply IH. auto.
Qed.

Lemma inactive : forall l, list_ok l -> l_std l = std0 -> l_name l = [] -> l_desc l = [] -> l_active l = false -> l = mlist0.
Proof.
  intros [s name desc props trees lists enums] OK SE NE DE A. cbn [l_std l_name l_desc] in *. subst. unfold l_active in A.
  cbn [l_name l_desc l_props l_trees l_lists l_enums] in A. cbn in A. destruct props, trees, lists, enums; try discriminate. reflexivity.
Qed.
Lemma common_step : forall c ks t, comment_ok c -> Forall2 same (to_common c) ks ->
  exists l', fold_left md_step ks (Some (mkC t mlist0)) = Some (mkC t l') /\ kept_list (c_common c) l'.
Proof.
  intros c ks t (_ & LO & SE & NE & DE) S. unfold to_common in S. destruct (l_active (c_common c)) eqn:A.
  - inversion S as [|? k ? r S1 S2]; subst. inversion S2; subst. cbn [fold_left md_step obind].
    assert (TG : x_tag k = lit "common_properties") by (rewrite <- (same_tag _ _ S1); apply tag_of, name_lit; reflexivity).
    assert (NC : ~ In 58 (lit "common_properties")) by (apply colon_lit; reflexivity).
    rewrite (tag_test (lit "TX") k _ TG NC), (tag_test (lit "common_properties") k _ TG NC).
    change (ieq (lit "TX") (lit "common_properties")) with false. rewrite ieq_refl. cbn [c_common c_tx].
    destruct (common_read order OR (c_common c) k LO SE NE DE S1) as (l' & F & K). rewrite F. cbn [obind]. eauto.
  - inversion S; subst. exists mlist0. split; [reflexivity|]. rewrite (inactive _ LO SE NE DE A).
    apply (kept_level std0 std0 [] []); try constructor; auto; try reflexivity; apply kept_std0.
Qed.

Lemma md_read_parts : forall c k1 mid k3, comment_ok c -> same (str_node (lit "TX") (c_tx c)) k1 -> Forall skipped mid ->
  Forall2 same (to_common c) k3 ->
  exists c', fold_left md_step (k1 :: mid ++ k3) (Some comment0) = Some c' /\ kept_comment c c'.
Proof.
  intros c k1 mid k3 OK S1 SK S3. cbn [fold_left]. unfold md_step at 2. cbn [obind].
  assert (is_tag (lit "TX") k1 = true) as -> by (rewrite <- (same_is_tag _ _ _ S1); reflexivity).
  rewrite fold_left_app, skip_all by auto. change (c_common comment0) with mlist0. change (c_tx comment0) with mstr0.
  destruct (common_step c k3 (from_str order k1 mstr0) OK S3) as (l' & F & K). rewrite F. eexists. split; [reflexivity|].
  split; [|exact K]. cbn [c_tx]. apply (str_read order OR (lit "TX")); auto. apply OK.
Qed.

Lemma same_skipped : forall tag t k, ~ In 58 tag -> ieq (lit "TX") tag = false -> ieq (lit "common_properties") tag = false ->
  same (str_node tag t) k -> skipped k.
Proof.
  intros tag t k NC A B S. split; rewrite <- (same_is_tag _ _ _ S), is_tag_plain by exact NC; assumption.
Qed.
Lemma opt_skipped : forall tag t ks, ~ In 58 tag -> ieq (lit "TX") tag = false -> ieq (lit "common_properties") tag = false ->
  Forall2 same (opt_nodes tag t) ks -> Forall skipped ks.
Proof.
  intros tag t ks NC A B S. unfold opt_nodes in S. destruct (has_text t); inversion S as [|? k ? r S1 S2]; subst; [|constructor].
  inversion S2; subst. constructor; [|constructor]. eapply same_skipped; eauto.
Qed.

Lemma common_kinds : forall c ks, Forall2 same (to_common c) ks -> Forall (fun k => x_tag k = lit "common_properties") ks.
Proof.
  intros c ks S. unfold to_common in S. destruct (l_active _); inversion S as [|? k ? r S1 S2]; subst; [|constructor].
  inversion S2; subst. constructor; [|constructor]. rewrite <- (same_tag _ _ S1). apply tag_of, name_lit. reflexivity.
Qed.

(** ** The base comment *)
Lemma md_back : forall block c s, name_ok (block ++ lit "comment") -> comment_ok c -> text_of order (to_md block c) s ->
  exists c', from_text (from_md order) describe_md s comment0 = Some c' /\ kept_comment c c'.
Proof.
  intros block c s NB OK TX.
  assert (NO : node_ok (to_md block c)).
  { apply root_ok; auto. rewrite to_tx by apply OK. cbn [app]. constructor; [|apply common_ok; auto].
    apply str_node_ok; [apply name_lit; reflexivity|apply OK]. }
  destruct (from_text_node (from_md order) describe_md order _ s comment0 OR NO TX) as (n' & E & S). rewrite E.
  apply same_root in S; auto. rewrite to_tx in S by apply OK. cbn [app] in S. destruct (x_kids n') as [|k1 k3] eqn:EK; [inversion S|].
  apply f2_cons in S. destruct S as (S1 & S3). unfold from_md. rewrite EK. apply (md_read_parts c k1 [] k3); auto.
Qed.

(** ** The file history *)
Lemma opt_case : forall tag t ks, str_ok t -> Forall2 same (opt_nodes tag t) ks ->
  (ks = [] /\ kept_opt t mstr0) \/ (exists k, ks = [k] /\ same (str_node tag t) k /\ kept_opt t (from_str order k mstr0)).
Proof.
  intros tag t ks OK S. unfold opt_nodes, has_text in S. unfold kept_opt. destruct (t_text t) eqn:E.
  - inversion S; subst. auto.
  - inversion S as [|? k ? r S1 S2]; subst. inversion S2; subst. right. exists k. split; [reflexivity|]. split; [exact S1|].
    eapply str_read; eauto.
Qed.

Ltac plain_tag :=
  match goal with
  | |- name_ok _ => apply name_lit; reflexivity
  | |- ~ In _ _ => apply colon_lit; reflexivity
  | |- _ <> _ => vm_compute; discriminate
  | |- _ = _ => reflexivity
  | |- _ => assumption
  end.

Lemma tag_is : forall s t k, same (str_node (lit s) t) k -> ~ In 58 (lit s) -> forall u, is_tag u k = ieq u (lit s).
Proof. intros s t k S NC u. rewrite <- (same_is_tag _ _ _ S). apply is_tag_plain. exact NC. Qed.

Lemma fh_other : forall ks c, Forall (fun k => x_tag k = lit "common_properties") ks -> fold_left (read_fh order) ks c = c.
Proof.
  induction ks as [|k ks IH]; intros c F; [reflexivity|]. inversion F as [|? ? T F']; subst. cbn [fold_left]. rewrite <- (IH c) at 2 by auto. f_equal.
  assert (NC : ~ In 58 (lit "common_properties")) by (apply colon_lit; reflexivity).
  unfold read_fh. rewrite !(fun u => tag_test u k _ T NC). reflexivity.
Qed.

Lemma fh_back : forall c s, fh_ok c -> text_of order (to_fh c) s ->
  exists c', from_text (from_fh order) describe_fh s fh0 = Some c' /\ kept_fh c c'.
Proof.
  intros c s (MO & O1 & O2 & O3 & O4) TX. assert (NB : name_ok (lit "FH" ++ lit "comment")) by (apply name_okb_ok; reflexivity).
  unfold to_fh in TX.
  rewrite to_tx in TX by apply MO. rewrite (to_str_opt (lit "tool_id")), (to_str_opt (lit "tool_vendor")), (to_str_opt (lit "tool_version")),
    (to_str_opt (lit "user_name")) in TX by plain_tag.
  set (kids := [str_node _ _] ++ _) in TX.
  assert (NO : node_ok (root (lit "FH") kids)).
  { apply root_ok; auto. unfold kids. rewrite !Forall_app. repeat split; try (apply opt_ok; plain_tag); [|apply common_ok; auto].
    constructor; [|constructor]. apply str_node_ok; [plain_tag|apply MO]. }
  destruct (from_text_node (from_fh order) describe_fh order _ s fh0 OR NO TX) as (n' & E & S). rewrite E. clear E TX NO.
  apply same_root in S; auto. unfold kids in S. cbn [app] in S. destruct (x_kids n') as [|k1 kr] eqn:EK; [inversion S|].
  apply f2_cons in S. destruct S as (S1 & SR).
  apply Forall2_app_inv_l in SR. destruct SR as (k2 & kr2 & S2 & SR & ->).
  apply Forall2_app_inv_l in SR. destruct SR as (k3 & kr3 & S3 & SR & ->).
  apply Forall2_app_inv_l in SR. destruct SR as (k4 & kr4 & S4 & SR & ->).
  apply Forall2_app_inv_l in SR. destruct SR as (k5 & k6 & S5 & S6 & ->).
  destruct (md_read_parts (fh_md c) k1 (k2 ++ k3 ++ k4 ++ k5) k6) as (m & FM & KM); auto.
  { rewrite !Forall_app. repeat split; eapply opt_skipped; try eassumption; plain_tag. }
  pose proof (common_kinds _ _ S6) as CK.
  assert (N1 : ~ In 58 (lit "TX")) by plain_tag. assert (N2 : ~ In 58 (lit "tool_id")) by plain_tag.
  assert (N3 : ~ In 58 (lit "tool_vendor")) by plain_tag. assert (N4 : ~ In 58 (lit "tool_version")) by plain_tag.
  assert (N5 : ~ In 58 (lit "user_name")) by plain_tag.
  unfold from_fh. rewrite EK. cbn [fold_left]. rewrite !fold_left_app.
  assert (R1 : forall x, read_fh order x k1 = x).
  { intros x. unfold read_fh. rewrite !(tag_is "TX" _ _ S1 N1). reflexivity. }
  rewrite R1.
  assert (G : forall A B C D : Prop, A -> B -> C -> D -> A /\ B /\ C /\ D) by tauto.
  assert (R2 : exists t, kept_opt (fh_id c) t /\ forall m a b d, fold_left (read_fh order) k2 (mkFh m mstr0 a b d) = mkFh m t a b d).
  { destruct (opt_case _ _ _ O1 S2) as [(-> & K)|(k & -> & SS & K)]; [exists mstr0; auto|].
    exists (from_str order k mstr0). split; [exact K|]. intros. cbn [fold_left]. unfold read_fh.
    rewrite !(tag_is "tool_id" _ _ SS N2). reflexivity. }
  assert (R3 : exists t, kept_opt (fh_vendor c) t /\ forall m a b d, fold_left (read_fh order) k3 (mkFh m a mstr0 b d) = mkFh m a t b d).
  { destruct (opt_case _ _ _ O2 S3) as [(-> & K)|(k & -> & SS & K)]; [exists mstr0; auto|].
    exists (from_str order k mstr0). split; [exact K|]. intros. cbn [fold_left]. unfold read_fh.
    rewrite !(tag_is "tool_vendor" _ _ SS N3). reflexivity. }
  assert (R4 : exists t, kept_opt (fh_version c) t /\ forall m a b d, fold_left (read_fh order) k4 (mkFh m a b mstr0 d) = mkFh m a b t d).
  { destruct (opt_case _ _ _ O3 S4) as [(-> & K)|(k & -> & SS & K)]; [exists mstr0; auto|].
    exists (from_str order k mstr0). split; [exact K|]. intros. cbn [fold_left]. unfold read_fh.
    rewrite !(tag_is "tool_version" _ _ SS N4). reflexivity. }
  assert (R5 : exists t, kept_opt (fh_user c) t /\ forall m a b d, fold_left (read_fh order) k5 (mkFh m a b d mstr0) = mkFh m a b d t).
  { destruct (opt_case _ _ _ O4 S5) as [(-> & K)|(k & -> & SS & K)]; [exists mstr0; auto|].
    exists (from_str order k mstr0). split; [exact K|]. intros. cbn [fold_left]. unfold read_fh.
    rewrite !(tag_is "user_name" _ _ SS N5). reflexivity. }
  destruct R2 as (t2 & Q2 & R2). destruct R3 as (t3 & Q3 & R3). destruct R4 as (t4 & Q4 & R4). destruct R5 as (t5 & Q5 & R5).
  unfold fh0. rewrite R2, R3, R4, R5, fh_other by auto. cbn [fh_md fh_id fh_vendor fh_version fh_user].
  unfold from_md. rewrite EK.
  assert (FM' : fold_left md_step (k1 :: k2 ++ k3 ++ k4 ++ k5 ++ k6) (Some comment0) = Some m).
  { rewrite <- FM. rewrite !app_assoc_reverse. reflexivity. }
  unfold md_step in FM'. rewrite FM'. cbn [obind]. eexists. split; [reflexivity|].
  split; [exact KM|]. cbn [fh_id fh_vendor fh_version fh_user]. auto.
Qed.

(** ** The header *)
Definition const_node (x : mstr * list N) : xnode :=
  XNode (lit "const") (std_attrs [(lit "name", const_name x)] (t_std (fst x))) (snd x) [].
Lemma to_const_node : forall x, const_ok x -> to_const x = const_node x.
Proof.
  intros x (SO & LN & TN & TV). pose proof (own_const _ LN) as OW. unfold to_const. rewrite new_node_shape by plain_tag.
  set (n := set_attr _ _ _).
  destruct (put_std_shape (t_std (fst x)) n) as (A & B & C & _).
  pose proof (std_written _ _ _ n SO OW eq_refl) as D.
  destruct (put_std _ n) as [tg at_ vl kd]. cbn [x_tag x_value x_kids x_attrs n set_attr] in *. unfold const_node, set_value.
  cbn [x_tag x_attrs x_kids]. congruence.
Qed.
Lemma const_node_ok : forall x, const_ok x -> node_ok (const_node x).
Proof.
  intros x (SO & LN & TN & TV). pose proof (own_const _ LN) as OW. constructor; auto; [plain_tag| |].
  - apply keys_fst. eapply std_keys; eauto.
  - eapply std_fine; eauto.
Qed.
Lemma const_read : forall x n', const_ok x -> same (const_node x) n' -> kept_const x (from_const order n').
Proof.
  intros x n' (SO & LN & TN & TV) S. pose proof (own_const _ LN) as OW. pose proof const_vocab as VO.
  destruct (std_read order OR _ _ _ (const_node x) n' SO OW S eq_refl) as (s' & F & K).
  unfold from_const, from_str. unfold from_std in F.
  assert (NOFF : forall v, ~ In (lit "offset", v) (attr_map order n')).
  { intros v I. pose proof (std_fine _ _ _ SO OW) as FI.
    destruct (attr_map_same order OR (const_node x) n' S) as (_ & MEM).
    - apply keys_fst. eapply std_keys; [exact SO|exact OW].
    - eapply Forall_impl; [|exact FI]. intros a. cbv beta. tauto.
    - apply MEM in I. cbn [const_node x_attrs] in I. unfold std_attrs in I. rewrite !in_app_iff, filter_In in I.
      destruct SO as (_ & _ & _ & _ & RE). destruct I as [I|[I|[I|[I _]]]].
      + destruct I as [I|[]]. assert (X : lit "name" = lit "offset") by congruence. revert X. vm_compute. discriminate.
      + unfold ci_attr in I. destruct (0 <? _); [|destruct I]. destruct I as [I|[]]. assert (X : lit "ci" = lit "offset") by congruence. revert X. vm_compute. discriminate.
      + unfold lang_attr, text_attr in I. destruct (s_lang _); [destruct I|]. destruct I as [I|[]]. assert (X : lit "xml:lang" = lit "offset") by congruence. revert X. vm_compute. discriminate.
      + assert (J : In (lit "offset") (map fst [(lit "name", const_name x)])) by (apply (RE _ _ (lit "offset") I); [right; left; reflexivity|apply alike_refl]).
        destruct J as [J|[]]. revert J. vm_compute. discriminate. }
  pose proof (str_fold _ _ _ [] None NOFF F) as G. change (mkStr std0 [] None) with mstr0 in G. rewrite G.
  cbn [t_std t_off]. unfold kept_const, const_name at 3. cbn [fst snd t_std t_off t_text]. split; [exact K|]. split; [|split; [reflexivity|]].
  - rewrite (text_read order OR _ _ _ (lit "name") _ _ _ n' SO OW VO (or_introl eq_refl) S).
    cbn [find]. rewrite ieq_refl. cbn [found]. unfold tight in TN. rewrite !TN. reflexivity.
  - rewrite (value_same _ _ S). reflexivity.
Qed.

Definition consts_nodes (xs : list (mstr * list N)) : list xnode :=
  match xs with [] => [] | _ => [XNode (lit "constants") [] [] (map const_node xs)] end.

Lemma consts_fold : forall xs ks m t xs0, Forall2 same (map const_node xs) ks -> Forall const_ok xs ->
  ascending (map const_name xs0 ++ map const_name xs) -> ~ In [] (map const_name xs) ->
  exists xs', fold_left (fun c x => add_const (from_const order x) c) (filter (is_tag (lit "const")) ks) (mkHdc m t xs0) =
    mkHdc m t (xs0 ++ xs') /\ Forall2 kept_const xs xs'.
Proof.
  induction xs as [|x xs IH]; intros ks m t xs0 S F AS NE.
  - inversion S; subst. exists []. rewrite app_nil_r. split; [reflexivity|constructor].
  - cbn [map] in S. inversion S as [|? k ? r S1 S2]; subst. inversion F; subst. cbn [filter].
    assert (is_tag (lit "const") k = true) as -> by (rewrite <- (same_is_tag _ _ _ S1); reflexivity).
    cbn [fold_left]. pose proof (const_read x k H1 S1) as KC.
    assert (PN : const_name (from_const order k) = const_name x) by (destruct KC as (_ & X & _); exact X).
    cbn [map In] in AS, NE. set (x' := from_const order k) in *.
    assert (AS' : ascending (map const_name (xs0 ++ [x']) ++ map const_name xs)).
    { rewrite map_app. cbn [map]. rewrite PN, <- app_assoc. exact AS. }
    destruct (last_key const_name xs0 x' _ AS') as (LT & _).
    assert (AD : add_const x' (mkHdc m t xs0) = mkHdc m t (xs0 ++ [x'])).
    { unfold add_const. rewrite emplace_last by exact LT. rewrite PN. destruct (const_name x) eqn:EX; [exfalso; apply NE; left; auto|reflexivity]. }
    rewrite AD. destruct (IH r m t (xs0 ++ [x'])) as (xs' & FO & KS); auto.
    exists (x' :: xs'). rewrite FO, <- app_assoc. split; [reflexivity|]. constructor; auto.
Qed.

Lemma hd_other : forall ks c, Forall (fun k => x_tag k = lit "common_properties") ks -> fold_left (read_hd order) ks c = c.
Proof.
  induction ks as [|k ks IH]; intros c F; [reflexivity|]. inversion F as [|? ? T F']; subst. cbn [fold_left]. rewrite <- (IH c) at 2 by auto. f_equal.
  assert (NC : ~ In 58 (lit "common_properties")) by (apply colon_lit; reflexivity).
  unfold read_hd. rewrite !(fun u => tag_test u k _ T NC). reflexivity.
Qed.

Definition hd_head (c : hdc) : list xnode :=
  [str_node (lit "TX") (c_tx (hd_md c))] ++ opt_nodes (lit "time_source") (hd_time c) ++ consts_nodes (hd_consts c).
Lemma to_hd_shape : forall c, hdc_ok c ->
  to_str (lit "TX") (c_tx (hd_md c)) ++ to_str (lit "time_source") (hd_time c) ++
  match hd_consts c with [] => [] | xs => [set_kids (map to_const xs) (new_node (lit "constants"))] end = hd_head c.
Proof.
  intros c (MO & O1 & CO & AS & NE). rewrite to_tx by apply MO. rewrite to_str_opt by (auto; plain_tag).
  assert (EC : match hd_consts c with [] => [] | xs => [set_kids (map to_const xs) (new_node (lit "constants"))] end = consts_nodes (hd_consts c)).
  { assert (MC : map to_const (hd_consts c) = map const_node (hd_consts c)).
    { apply map_ext_in. intros x I. rewrite Forall_forall in CO. apply to_const_node. auto. }
    unfold consts_nodes. destruct (hd_consts c); [reflexivity|]. rewrite MC, new_node_shape by plain_tag. reflexivity. }
  rewrite EC. reflexivity.
Qed.
Lemma hd_head_ok : forall c, hdc_ok c -> Forall node_ok (hd_head c).
Proof.
  intros c (MO & O1 & CO & AS & NE).
  assert (CN : Forall node_ok (consts_nodes (hd_consts c))).
  { unfold consts_nodes. destruct (hd_consts c) as [|x xs] eqn:E; [constructor|]. rewrite <- E in *. constructor; [|constructor].
    apply plain_ok; [plain_tag|]. apply Forall_forall. intros n I. apply in_map_iff in I. destruct I as (y & <- & I).
    apply const_node_ok. rewrite Forall_forall in CO. auto. }
  unfold hd_head. rewrite !Forall_app. repeat split; try (apply opt_ok; plain_tag); [|exact CN].
  constructor; [|constructor]. apply str_node_ok; [plain_tag|apply MO].
Qed.
Lemma hd_read : forall c n', hdc_ok c -> Forall2 same (hd_head c ++ to_common (hd_md c)) (x_kids n') ->
  exists c', from_hd order n' hdc0 = Some c' /\ kept_hd c c'.
Proof.
  intros c n' (MO & O1 & CO & AS & NE) S. unfold hd_head in S. rewrite <- !app_assoc in S. cbn [app] in S. destruct (x_kids n') as [|k1 kr] eqn:EK; [inversion S|].
  apply f2_cons in S. destruct S as (S1 & SR).
  apply Forall2_app_inv_l in SR. destruct SR as (k2 & kr2 & S2 & SR & ->).
  apply Forall2_app_inv_l in SR. destruct SR as (k3 & k6 & S3 & S6 & ->).
  assert (N1 : ~ In 58 (lit "TX")) by plain_tag. assert (N2 : ~ In 58 (lit "time_source")) by plain_tag.
  assert (N3 : ~ In 58 (lit "constants")) by plain_tag.
  destruct (md_read_parts (hd_md c) k1 (k2 ++ k3) k6) as (m & FM & KM); auto.
  { rewrite !Forall_app. split; [apply (opt_skipped (lit "time_source") (hd_time c) k2); plain_tag|].
    unfold consts_nodes in S3. destruct (hd_consts c); inversion S3 as [|? k ? r T1 T2]; subst; [constructor|]. inversion T2; subst.
    constructor; [|constructor]. split; rewrite <- (same_is_tag _ _ _ T1); reflexivity. }
  pose proof (common_kinds _ _ S6) as CK.
  unfold from_hd, from_md. rewrite EK. change (hd_md hdc0) with comment0.
  assert (FM' : fold_left md_step (k1 :: k2 ++ k3 ++ k6) (Some comment0) = Some m).
  { rewrite <- FM. rewrite !app_assoc_reverse. reflexivity. }
  unfold md_step in FM'. rewrite FM'. cbn [obind fold_left]. rewrite !fold_left_app.
  assert (R1 : forall x, read_hd order x k1 = x).
  { intros x. unfold read_hd. rewrite !(tag_is "TX" _ _ S1 N1). reflexivity. }
  rewrite R1. change (hd_time hdc0) with mstr0. change (hd_consts hdc0) with (@nil (mstr * list N)).
  assert (R2 : exists t, kept_opt (hd_time c) t /\ forall m b, fold_left (read_hd order) k2 (mkHdc m mstr0 b) = mkHdc m t b).
  { destruct (opt_case _ _ _ O1 S2) as [(-> & K)|(k & -> & SS & K)]; [exists mstr0; auto|].
    exists (from_str order k mstr0). split; [exact K|]. intros. cbn [fold_left]. unfold read_hd.
    rewrite !(tag_is "time_source" _ _ SS N2). reflexivity. }
  destruct R2 as (t2 & Q2 & R2). rewrite R2.
  assert (R3 : exists xs', Forall2 kept_const (hd_consts c) xs' /\ fold_left (read_hd order) k3 (mkHdc m t2 []) = mkHdc m t2 xs').
  { unfold consts_nodes in S3. destruct (hd_consts c) as [|x xs] eqn:EX.
    - inversion S3; subst. exists []. split; [constructor|reflexivity].
    - inversion S3 as [|? k ? r T1 T2]; subst. inversion T2; subst. cbn [fold_left]. unfold read_hd.
      rewrite <- !(same_is_tag _ _ _ T1). change (is_tag (lit "time_source") (XNode (lit "constants") [] [] (map const_node (x :: xs)))) with false.
      change (is_tag (lit "constants") (XNode (lit "constants") [] [] (map const_node (x :: xs)))) with true. cbv iota.
      pose proof (same_kids _ _ T1) as SK. cbn [x_kids] in SK.
      destruct (consts_fold (x :: xs) (x_kids k) m t2 [] SK CO AS NE) as (xs' & FO & KS). exists xs'. split; [exact KS|exact FO]. }
  destruct R3 as (xs' & Q3 & R3). rewrite R3, hd_other by auto. eexists. split; [reflexivity|].
  split; [exact KM|]. cbn [hd_time hd_consts]. auto.
Qed.
Lemma hd_back : forall c s, hdc_ok c -> text_of order (to_hd c) s ->
  exists c', from_text (from_hd order) describe_hd s hdc0 = Some c' /\ kept_hd c c'.
Proof.
  intros c s OK TX. assert (NB : name_ok (lit "HD" ++ lit "comment")) by (apply name_okb_ok; reflexivity).
  assert (E : to_hd c = root (lit "HD") (hd_head c ++ to_common (hd_md c))).
  { unfold to_hd. rewrite <- to_hd_shape by exact OK. rewrite <- !app_assoc. reflexivity. }
  rewrite E in TX. clear E.
  assert (NO : node_ok (root (lit "HD") (hd_head c ++ to_common (hd_md c)))).
  { apply root_ok; auto. apply Forall_app. split; [apply hd_head_ok; exact OK|apply common_ok; apply OK]. }
  destruct (from_text_node (from_hd order) describe_hd order _ s hdc0 OR NO TX) as (n' & E & S). rewrite E.
  apply hd_read; [exact OK|]. apply same_root in S; auto.
Qed.

End Order.
