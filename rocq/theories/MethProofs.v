(** Proofs about the computation method in a conversion's comment, part 1: limits, constraints and scales. *)
From Coq Require Import String Permutation Sorting.Sorted Lia.
From Verif Require Import Base BlockModel BlockProofs TextSpec XmlModel XmlSpec XmlProofs XmlProofs2 XmlProofs3 XmlProofs4 XmlProofs5
  CommentModel CommentSpec CommentProofs CommentProofs2 CommentProofs3 CommentProofs4 CommentProofs5 NoteModel NoteSpec NoteProofs NoteProofs2 NoteProofs3 NoteProofs4
  MethModel MethSpec.
Local Open Scope N_scope.
Local Open Scope list_scope.

Lemma tag_at : forall u t k, x_tag k = t -> is_tag u k = is_tag u (XNode t [] [] []).
Proof. intros u t k <-. reflexivity. Qed.
(** The tests of the name of a tag with a prefix. *)
Ltac htags T k :=
  rewrite !(fun u => tag_at u _ k T);
  repeat match goal with |- context [is_tag (lit ?a) (XNode (lit ?b) [] [] [])] =>
    let v := eval vm_compute in (is_tag (lit a) (XNode (lit b) [] [] [])) in change (is_tag (lit a) (XNode (lit b) [] [] [])) with v end;
  cbn [orb]; cbv iota.

Lemma leaf_shape : forall tag v, name_ok tag -> leaf tag v = XNode tag [] v [].
Proof. intros tag v NT. unfold leaf. rewrite new_node_shape by exact NT. reflexivity. Qed.
Lemma kids_shape : forall tag ks, name_ok tag -> set_kids ks (new_node tag) = XNode tag [] [] ks.
Proof. intros tag ks NT. rewrite new_node_shape by exact NT. reflexivity. Qed.
Lemma leaf_ok : forall tag v, name_ok tag -> text_ok v -> node_ok (leaf tag v).
Proof. intros tag v NT TV. rewrite leaf_shape by exact NT. constructor; auto; constructor. Qed.
Lemma inner_ok : forall tag ks, name_ok tag -> Forall node_ok ks -> node_ok (set_kids ks (new_node tag)).
Proof. intros tag ks NT F. rewrite kids_shape by exact NT. apply plain_ok; auto. Qed.
Lemma leaf_back : forall tag v k, name_ok tag -> same (leaf tag v) k -> x_tag k = tag /\ value_text k = trim v.
Proof.
  intros tag v k NT S. rewrite leaf_shape in S by exact NT. split; [rewrite <- (same_tag _ _ S); reflexivity|].
  rewrite (value_same _ _ S). reflexivity.
Qed.
Lemma inner_back : forall tag ks k, name_ok tag -> same (set_kids ks (new_node tag)) k -> x_tag k = tag /\ Forall2 same ks (x_kids k).
Proof.
  intros tag ks k NT S. rewrite kids_shape in S by exact NT. split; [rewrite <- (same_tag _ _ S); reflexivity|]. exact (same_kids _ _ S).
Qed.
Lemma line_text : forall s, line_ok s -> text_ok s.
Proof. intros s (cps & F & E). exists cps. split; [|exact E]. eapply Forall_impl; [|exact F]. cbv beta. tauto. Qed.
Lemma one_back : forall n ks, Forall2 same [n] ks -> exists k, ks = [k] /\ same n k.
Proof. intros n ks S. inversion S as [|? k ? r S1 S2]; subst. inversion S2; subst. eauto. Qed.

(** ** Enumerations *)
Definition enum_ok (d : N) (l : list (list N)) (t : N) : Prop :=
  line_ok (enum_text l t) /\ exists c r, trim (enum_text l t) = c :: r /\ enum_from d 0 l (c :: r) = t.
Lemma iv_enum : forall t, t <= 2 -> enum_ok 1 iv_texts t.
Proof.
  intros t LE. assert (C : t = 0 \/ t = 1 \/ t = 2) by lia.
  destruct C as [->|[->| ->]]; (split; [apply line_lit; reflexivity|]); eexists; eexists; (split; [vm_compute; reflexivity|vm_compute; reflexivity]).
Qed.
Lemma five : forall t, t <= 5 -> t = 0 \/ t = 1 \/ t = 2 \/ t = 3 \/ t = 4 \/ t = 5.
Proof. intros. lia. Qed.
Lemma valid_enum : forall t, t <= 5 -> enum_ok 0 valid_texts t.
Proof.
  intros t LE. destruct (five t LE) as [->|[->|[->|[->|[->| ->]]]]]; (split; [apply line_lit; reflexivity|]); eexists; eexists; (split; [vm_compute; reflexivity|vm_compute; reflexivity]).
Qed.
Lemma cat_enum : forall t, t <= 5 -> enum_ok 0 cat_texts t.
Proof.
  intros t LE. destruct (five t LE) as [->|[->|[->|[->|[->| ->]]]]]; (split; [apply line_lit; reflexivity|]); eexists; eexists; (split; [vm_compute; reflexivity|vm_compute; reflexivity]).
Qed.

Section Order.
Context (order : list (list N * list N) -> list (list N * list N)) (OR : any_order order).

Lemma order_same : forall n n', same n n' -> Permutation (x_attrs n) (order (x_attrs n')).
Proof. intros n n' S. eapply perm_trans; [apply (same_attrs _ _ S)|apply OR]. Qed.
Lemma no_attr : forall n n' key, same n n' -> x_attrs n = [] -> attr_text order key n' = [].
Proof.
  intros n n' key S E. pose proof (order_same _ _ S) as P. rewrite E in P. apply Permutation_nil in P.
  unfold attr_text, attribute. rewrite P. reflexivity.
Qed.
Lemma ieq_refl : forall k, ieq k k = true.
Proof. intros k. unfold ieq. apply beq_refl. Qed.
Lemma one_attr : forall n n' key v, same n n' -> x_attrs n = [(key, v)] -> attr_text order key n' = trim v.
Proof.
  intros n n' key v S E. pose proof (order_same _ _ S) as P. rewrite E in P. apply Permutation_length_1_inv in P.
  unfold attr_text, attribute. rewrite P. cbn [find]. rewrite ieq_refl. reflexivity.
Qed.
(** An attribute that is left out for one value of an enumeration. *)
Definition enum_attrs (key : list N) (l : list (list N)) (none t : N) : list (list N * list N) :=
  if t =? none then [] else [(key, enum_text l t)].
Lemma enum_read : forall key d l none t n n', enum_ok d l t -> same n n' -> x_attrs n = enum_attrs key l none t ->
  attr_enum order key d l none n' = t.
Proof.
  intros key d l none t n n' (_ & c & r & E1 & E2) S A. unfold attr_enum. unfold enum_attrs in A. destruct (N.eqb_spec t none) as [->|NE].
  - rewrite (no_attr _ _ _ S A). reflexivity.
  - rewrite (one_attr _ _ _ _ S A), E1. exact E2.
Qed.
Lemma enum_attrs_ok : forall key d l none t, name_ok key -> enum_ok d l t ->
  NoDup (map fst (enum_attrs key l none t)) /\ Forall (fun a => name_ok (fst a) /\ line_ok (snd a)) (enum_attrs key l none t).
Proof.
  intros key d l none t NK (LO & _). unfold enum_attrs. destruct (t =? none); split; try constructor; cbn [map fst snd]; auto; try constructor; auto.
Qed.

Section Doubles.
Context (print : N -> list N) (scan : list N -> N).

(** ** Limits *)
Definition iv_node (tag : list N) (v : interval) (d : N) : xnode := XNode tag (enum_attrs (lit "INTERVAL-TYPE") iv_texts 1 (i_type v)) (print d) [].
Lemma to_iv_shape : forall tag v, name_ok tag -> to_iv print tag v = match i_limit v with None => [] | Some d => [iv_node tag v d] end.
Proof.
  intros tag v NT. unfold to_iv. destruct (i_limit v) as [d|]; [|reflexivity]. unfold num_leaf. rewrite leaf_shape by exact NT.
  unfold iv_node, enum_attrs. destruct (i_type v =? 1); reflexivity.
Qed.
Lemma iv_nodes_ok : forall tag v, name_ok tag -> iv_ok print v -> Forall node_ok (to_iv print tag v).
Proof.
  intros tag v NT (LO & TO). rewrite to_iv_shape by exact NT. destruct (i_limit v) as [d|]; [|constructor]. constructor; [|constructor].
  destruct (enum_attrs_ok (lit "INTERVAL-TYPE") 1 iv_texts 1 (i_type v)) as (A & B); [plain_tag|apply iv_enum; exact TO|].
  constructor; auto. apply LO. reflexivity.
Qed.
Lemma iv_case : forall tag v ks, name_ok tag -> iv_ok print v -> Forall2 same (to_iv print tag v) ks ->
  ks = [] /\ kept_iv print scan v iv0 \/ exists k v', ks = [k] /\ x_tag k = tag /\ from_iv scan order k iv0 = v' /\ kept_iv print scan v v'.
Proof.
  intros tag v ks NT (LO & TO) S. rewrite to_iv_shape in S by exact NT. unfold kept_iv. destruct (i_limit v) as [d|] eqn:E.
  - right. destruct (one_back _ _ S) as (k & -> & SK). exists k. eexists. split; [reflexivity|]. split; [rewrite <- (same_tag _ _ SK); reflexivity|].
    split; [reflexivity|]. unfold from_iv. cbn [i_limit i_type iv0]. split.
    + unfold value_num. rewrite (value_same _ _ SK). reflexivity.
    + eapply enum_read; [apply iv_enum; exact TO|exact SK|reflexivity].
  - left. inversion S; subst. auto.
Qed.

(** ** Constraints *)
Definition limit_tag (k : xnode) : Prop := kind "ho:LOWER-LIMIT" k \/ kind "ho:UPPER-LIMIT" k.
Lemma limits_ok : forall c, con_ok print c -> Forall node_ok (to_limits print c).
Proof. intros c (A & B & _). apply Forall_app. split; apply iv_nodes_ok; auto; plain_tag. Qed.
Lemma limits_read : forall c ks, con_ok print c -> Forall2 same (to_limits print c) ks -> exists lo hi,
  kept_iv print scan (k_lower c) lo /\ kept_iv print scan (k_upper c) hi /\ Forall limit_tag ks /\
  forall v, fold_left (limit_kid scan order) ks (mkCon iv0 iv0 v) = mkCon lo hi v.
Proof.
  intros c ks (A & B & _) S. unfold to_limits in S. apply Forall2_app_inv_l in S. destruct S as (k1 & k2 & S1 & S2 & ->).
  assert (L : exists lo, kept_iv print scan (k_lower c) lo /\ Forall limit_tag k1 /\ forall hi v, fold_left (limit_kid scan order) k1 (mkCon iv0 hi v) = mkCon lo hi v).
  { destruct (iv_case (lit "ho:LOWER-LIMIT") _ _ ltac:(plain_tag) A S1) as [(-> & K)|(k & v' & -> & T & F & K)].
    - exists iv0. split; [exact K|]. split; [constructor|]. reflexivity.
    - exists v'. split; [exact K|]. split; [constructor; [left; exact T|constructor]|]. intros. cbn [fold_left]. unfold limit_kid. htags T k.
      cbn [k_lower k_upper k_valid]. rewrite F. reflexivity. }
  assert (H : exists hi, kept_iv print scan (k_upper c) hi /\ Forall limit_tag k2 /\ forall lo v, fold_left (limit_kid scan order) k2 (mkCon lo iv0 v) = mkCon lo hi v).
  { destruct (iv_case (lit "ho:UPPER-LIMIT") _ _ ltac:(plain_tag) B S2) as [(-> & K)|(k & v' & -> & T & F & K)].
    - exists iv0. split; [exact K|]. split; [constructor|]. reflexivity.
    - exists v'. split; [exact K|]. split; [constructor; [right; exact T|constructor]|]. intros. cbn [fold_left]. unfold limit_kid. htags T k.
      cbn [k_lower k_upper k_valid]. rewrite F. reflexivity. }
  destruct L as (lo & K1 & T1 & R1). destruct H as (hi & K2 & T2 & R2). exists lo, hi. split; [exact K1|]. split; [exact K2|].
  split; [apply Forall_app; auto|]. intros. rewrite fold_left_app, R1, R2. reflexivity.
Qed.

Definition con_node (c : constr) : xnode :=
  XNode (lit "ho:SCALE-CONSTR") (enum_attrs (lit "VALIDITY") valid_texts 0 (k_valid c)) [] (to_limits print c).
Lemma to_con_shape : forall c, to_con print c = if con_active c then [con_node c] else [].
Proof.
  intros c. unfold to_con. destruct (con_active c); [|reflexivity]. rewrite kids_shape by plain_tag. unfold con_node, enum_attrs.
  destruct (k_valid c =? 0); reflexivity.
Qed.
Lemma active_limited : forall c, con_active c = limited c.
Proof. intros c. unfold con_active, limited, iv_active. destruct (i_limit (k_lower c)), (i_limit (k_upper c)); reflexivity. Qed.
Lemma to_cons_shape : forall l, concat (map (to_con print) l) = map con_node (filter limited l).
Proof.
  induction l as [|c l IH]; [reflexivity|]. cbn [map concat filter]. rewrite to_con_shape, IH, active_limited. destruct (limited c); reflexivity.
Qed.
Lemma con_node_ok : forall c, con_ok print c -> node_ok (con_node c).
Proof.
  intros c OK. pose proof (limits_ok c OK) as L. destruct OK as (_ & _ & V).
  destruct (enum_attrs_ok (lit "VALIDITY") 0 valid_texts 0 (k_valid c)) as (A & B); [plain_tag|apply valid_enum; exact V|].
  constructor; auto; [plain_tag|]. exists []. split; [constructor|reflexivity].
Qed.
Lemma con_read : forall c k, con_ok print c -> same (con_node c) k ->
  is_tag (lit "SCALE-CONSTR") k = true /\ kept_con print scan c (from_con scan order k con0).
Proof.
  intros c k OK S. split.
  - rewrite (tag_at _ (lit "ho:SCALE-CONSTR")) by (rewrite <- (same_tag _ _ S); reflexivity). vm_compute. reflexivity.
  - destruct (limits_read c (x_kids k) OK (same_kids _ _ S)) as (lo & hi & K1 & K2 & _ & R). unfold from_con. cbn [k_lower k_upper k_valid con0].
    rewrite R. split; [exact K1|]. split; [exact K2|]. cbn [k_valid]. eapply enum_read; [apply valid_enum; apply OK|exact S|reflexivity].
Qed.

(** ** Lists of tags *)
Lemma all_in : forall {A B} (f : A -> xnode) (P : A -> Prop) (tag : list N) (g : xnode -> B) (R : A -> B -> Prop),
  (forall a k, P a -> same (f a) k -> is_tag tag k = true /\ R a (g k)) ->
  forall l ks, Forall P l -> Forall2 same (map f l) ks -> Forall2 R l (map g (filter (is_tag tag) ks)).
Proof.
  intros A B f P tag g R H. induction l as [|a l IH]; intros ks F S.
  - inversion S; subst. constructor.
  - destruct ks as [|k ks]; [inversion S|]. cbn [map] in S. apply f2_cons in S. destruct S as (S1 & S2). inversion F; subst.
    destruct (H a k) as (T & K); auto. cbn [filter]. rewrite T. cbn [map]. constructor; auto.
Qed.
Lemma filter_ok : forall {A} (P : A -> Prop) p (l : list A), Forall P l -> Forall P (filter p l).
Proof. intros A P p l F. apply Forall_forall. intros x I. apply filter_In in I. rewrite Forall_forall in F. apply F. tauto. Qed.
Lemma cons_read : forall l k, Forall (con_ok print) l -> Forall2 same (concat (map (to_con print) l)) (x_kids k) ->
  Forall2 (kept_con print scan) (filter limited l) (cons_in scan order k).
Proof.
  intros l k F S. rewrite to_cons_shape in S. unfold cons_in. eapply all_in; [exact con_read| |exact S]. apply filter_ok. exact F.
Qed.
Lemma cons_ok : forall l, Forall (con_ok print) l -> Forall node_ok (concat (map (to_con print) l)).
Proof.
  intros l F. rewrite to_cons_shape. apply Forall_forall. intros n I. apply in_map_iff in I. destruct I as (c & <- & I).
  apply con_node_ok. apply filter_In in I. rewrite Forall_forall in F. apply F. tauto.
Qed.
Lemma map_read : forall l l', Forall2 (fun d x => x = again print scan d) l l' -> l' = map (again print scan) l.
Proof. induction 1 as [|d x l l' -> F IH]; [reflexivity|]. cbn [map]. rewrite IH. reflexivity. Qed.
Lemma nums_read : forall ds k, Forall2 same (map (num_leaf print (lit "ho:V")) ds) (x_kids k) -> nums_in scan k = map (again print scan) ds.
Proof.
  intros ds k S. unfold nums_in. apply map_read.
  eapply (all_in (num_leaf print (lit "ho:V")) (fun _ => True) (lit "V") (value_num scan)); [| |exact S].
  - intros d k1 _ S1. apply leaf_back in S1; [|plain_tag]. destruct S1 as (T & V). split.
    + rewrite (tag_at _ _ _ T). vm_compute. reflexivity.
    + unfold value_num. rewrite V. reflexivity.
  - apply Forall_forall. auto.
Qed.
Lemma nums_ok : forall ds, Forall (number_ok print) ds -> Forall node_ok (map (num_leaf print (lit "ho:V")) ds).
Proof.
  intros ds F. apply Forall_forall. intros n I. apply in_map_iff in I. destruct I as (d & <- & I). apply leaf_ok; [plain_tag|].
  rewrite Forall_forall in F. apply (F d I).
Qed.

(** ** Constants *)
Lemma const_nodes_ok : forall tag f t, name_ok tag -> const_ok print f t -> Forall node_ok (to_const print tag f t).
Proof.
  intros tag f t NT (A & B). unfold to_const.
  assert (K : Forall node_ok (match f with Some d => [num_leaf print (lit "ho:V") d] | None => [] end ++ match t with Some s => [leaf (lit "ho:VT") s] | None => [] end)).
  { apply Forall_app. split.
    - destruct f; [|constructor]. constructor; [|constructor]. apply leaf_ok; [plain_tag|]. apply A. reflexivity.
    - destruct t; [|constructor]. constructor; [|constructor]. apply leaf_ok; [plain_tag|]. apply B. reflexivity. }
  destruct f; [|destruct t; [|constructor]]; (constructor; [|constructor]); apply inner_ok; auto.
Qed.
Lemma const_case : forall tag f t ks, name_ok tag -> Forall2 same (to_const print tag f t) ks ->
  ks = [] /\ f = None /\ t = None \/ exists k, ks = [k] /\ x_tag k = tag /\
    fold_left (read_const scan) (x_kids k) (None, None) = (option_map (again print scan) f, option_map trim t).
Proof.
  intros tag f t ks NT S.
  assert (R : forall kk, Forall2 same (match f with Some d => [num_leaf print (lit "ho:V") d] | None => [] end ++ match t with Some s => [leaf (lit "ho:VT") s] | None => [] end) kk ->
    fold_left (read_const scan) kk (None, None) = (option_map (again print scan) f, option_map trim t)).
  { intros kk SK. apply Forall2_app_inv_l in SK. destruct SK as (k1 & k2 & S1 & S2 & ->). rewrite fold_left_app.
    assert (E1 : fold_left (read_const scan) k1 (None, None) = (option_map (again print scan) f, None)).
    { destruct f as [d|]; [|inversion S1; subst; reflexivity]. destruct (one_back _ _ S1) as (k & -> & SK).
      apply leaf_back in SK; [|plain_tag]. destruct SK as (T & V). cbn [fold_left]. unfold read_const. htags T k. unfold value_num. rewrite V. reflexivity. }
    rewrite E1. destruct t as [s|]; [|inversion S2; subst; reflexivity]. destruct (one_back _ _ S2) as (k & -> & SK).
    apply leaf_back in SK; [|plain_tag]. destruct SK as (T & V). cbn [fold_left]. unfold read_const. htags T k. rewrite V. reflexivity. }
  unfold to_const in S. destruct f as [d|].
  - right. destruct (one_back _ _ S) as (k & -> & SK). destruct (inner_back _ _ _ NT SK) as (T & KK). exists k. split; [reflexivity|]. split; [exact T|]. apply R. exact KK.
  - destruct t as [s|].
    + right. destruct (one_back _ _ S) as (k & -> & SK). destruct (inner_back _ _ _ NT SK) as (T & KK). exists k. split; [reflexivity|]. split; [exact T|]. apply R. exact KK.
    + left. inversion S; subst. auto.
Qed.
Lemma text_nodes_ok : forall tag t, name_ok tag -> text_ok t -> Forall node_ok (to_text tag t).
Proof. intros tag t NT TO. unfold to_text. destruct t; [constructor|]. constructor; [|constructor]. apply leaf_ok; auto. Qed.
Lemma text_case : forall tag t ks, name_ok tag -> Forall2 same (to_text tag t) ks ->
  ks = [] /\ t = [] \/ exists k, ks = [k] /\ x_tag k = tag /\ value_text k = trim t.
Proof.
  intros tag t ks NT S. unfold to_text in S. destruct t; [left; inversion S; auto|]. right.
  destruct (one_back _ _ S) as (k & -> & SK). destruct (leaf_back _ _ _ NT SK). eauto.
Qed.

(** ** Scales *)
Lemma coeffs_ok : forall ns ds, Forall (number_ok print) ns -> Forall (number_ok print) ds -> Forall node_ok (to_coeffs print ns ds).
Proof.
  intros ns ds A B. unfold to_coeffs.
  assert (K : node_ok (set_kids [to_list print (lit "ho:COMPU-NUMERATOR") ns; to_list print (lit "ho:COMPU-DENOMINATOR") ds] (new_node (lit "ho:COMPU-RATIONAL-COEFFS")))).
  { apply inner_ok; [plain_tag|]. constructor; [|constructor; [|constructor]]; apply inner_ok; try plain_tag; apply nums_ok; auto. }
  destruct ns; [destruct ds; [constructor|]|]; (constructor; [exact K|constructor]).
Qed.
Lemma coeffs_case : forall ns ds ks, Forall2 same (to_coeffs print ns ds) ks ->
  ks = [] /\ ns = [] /\ ds = [] \/ exists k, ks = [k] /\ x_tag k = lit "ho:COMPU-RATIONAL-COEFFS" /\
    fold_left (coeff_kid scan) (x_kids k) ([], []) = (map (again print scan) ns, map (again print scan) ds).
Proof.
  intros ns ds ks S.
  assert (R : forall k, same (set_kids [to_list print (lit "ho:COMPU-NUMERATOR") ns; to_list print (lit "ho:COMPU-DENOMINATOR") ds] (new_node (lit "ho:COMPU-RATIONAL-COEFFS"))) k ->
    x_tag k = lit "ho:COMPU-RATIONAL-COEFFS" /\ fold_left (coeff_kid scan) (x_kids k) ([], []) = (map (again print scan) ns, map (again print scan) ds)).
  { intros k SK. apply inner_back in SK; [|plain_tag]. destruct SK as (T & KK). split; [exact T|]. destruct (x_kids k) as [|a [|b [|]]] eqn:EK;
      try (inversion KK as [|? ? ? ? _ K2]; subst; inversion K2 as [|? ? ? ? _ K3]; subst; inversion K3; fail).
    - apply f2_cons in KK. destruct KK as (SA & KK). apply f2_cons in KK. destruct KK as (SB & _).
      apply inner_back in SA; [|plain_tag]. destruct SA as (TA & KA). apply inner_back in SB; [|plain_tag]. destruct SB as (TB & KB).
      cbn [fold_left]. unfold coeff_kid at 2. htags TA a. cbn [fst snd app]. rewrite (nums_read _ _ KA). unfold coeff_kid. htags TB b. cbn [fst snd app].
      rewrite (nums_read _ _ KB). reflexivity. }
  unfold to_coeffs in S. destruct ns as [|n ns].
  - destruct ds as [|d ds]; [left; inversion S; auto|]. right. destruct (one_back _ _ S) as (k & -> & SK). exists k. split; [reflexivity|]. apply R. exact SK.
  - right. destruct (one_back _ _ S) as (k & -> & SK). exists k. split; [reflexivity|]. apply R. exact SK.
Qed.
Lemma desc_nodes : forall tag ts, name_ok tag -> tag <> lit "linker_name" -> tag <> lit "TX" -> Forall str_ok ts -> Forall node_ok (concat (map (to_str tag) ts)).
Proof. intros tag ts NT A B F. rewrite to_strs_tag by auto. apply strs_ok; auto. Qed.
Lemma to_scale_ok : forall z, scale_ok print z -> node_ok (to_scale print z).
Proof.
  intros z (CO & DO & KO & NO & EO & MO). unfold to_scale. apply inner_ok; [plain_tag|]. rewrite !Forall_app. split; [|split; [|split; [|split]]].
  - apply desc_nodes; auto; plain_tag.
  - apply limits_ok; auto.
  - apply const_nodes_ok; auto; plain_tag.
  - apply coeffs_ok; auto.
  - apply text_nodes_ok; auto; plain_tag.
Qed.
Lemma limit_scale : forall ks c ds f t ns es m, Forall limit_tag ks ->
  fold_left (scale_kid scan order) ks (mkSc c ds f t ns es m) = mkSc (fold_left (limit_kid scan order) ks c) ds f t ns es m.
Proof.
  intros ks c ds f t ns es m F. revert c. induction F as [|k ks T F IH]; intros c; [reflexivity|]. cbn [fold_left].
  assert (E : scale_kid scan order (mkSc c ds f t ns es m) k = mkSc (limit_kid scan order c k) ds f t ns es m).
  { unfold scale_kid. destruct T as [T|T]; unfold kind in T; htags T k; reflexivity. }
  rewrite E. apply IH.
Qed.
Lemma desc_scale : forall ts ks c f t ns es m, Forall str_ok ts -> Forall2 same (strs (lit "ho:DESC") ts) ks -> exists ds,
  Forall2 kept_str (filter has_text ts) ds /\
  fold_left (scale_kid scan order) ks (mkSc c [] f t ns es m) = mkSc c ds f t ns es m.
Proof.
  intros ts ks c f t ns es m F S. unfold strs in S. pose proof (filter_ok _ has_text _ F) as FF. clear F. revert S FF. generalize (filter has_text ts). intros l.
  assert (G : forall l ks ds0, Forall2 same (map (str_node (lit "ho:DESC")) l) ks -> Forall str_ok l -> exists ds, Forall2 kept_str l ds /\
    fold_left (scale_kid scan order) ks (mkSc c ds0 f t ns es m) = mkSc c (ds0 ++ ds) f t ns es m).
  { clear - OR. induction l as [|x l IH]; intros ks ds0 S F.
    - inversion S; subst. exists []. split; [constructor|]. rewrite app_nil_r. reflexivity.
    - destruct ks as [|k ks]; [inversion S|]. cbn [map] in S. apply f2_cons in S. destruct S as (S1 & S2). inversion F; subst.
      pose proof (same_tag _ _ S1) as T. cbn [x_tag str_node] in T. symmetry in T.
      destruct (IH ks (ds0 ++ [from_str order k mstr0]) S2) as (ds & K & R); auto. exists (from_str order k mstr0 :: ds). split.
      + constructor; [apply (str_read order OR (lit "ho:DESC")); auto|exact K].
      + cbn [fold_left]. assert (E : scale_kid scan order (mkSc c ds0 f t ns es m) k = mkSc c (ds0 ++ [from_str order k mstr0]) f t ns es m).
        { unfold scale_kid. htags T k. reflexivity. }
        rewrite E, R, <- app_assoc. reflexivity. }
  intros S FF. exact (G l ks [] S FF).
Qed.
Lemma scale_read : forall z k, scale_ok print z -> same (to_scale print z) k ->
  is_tag (lit "COMPU-SCALE") k = true /\ kept_scale print scan z (from_scale scan order k).
Proof.
  intros z k (CO & DO & KO & NO & EO & MO) S. unfold to_scale in S. apply inner_back in S; [|plain_tag]. destruct S as (T & S). split.
  - rewrite (tag_at _ _ _ T). vm_compute. reflexivity.
  - unfold from_scale, scale0. rewrite to_strs_tag in S by (auto; plain_tag).
    apply Forall2_app_inv_l in S. destruct S as (k1 & r1 & S1 & S & ->).
    apply Forall2_app_inv_l in S. destruct S as (k2 & r2 & S2 & S & ->).
    apply Forall2_app_inv_l in S. destruct S as (k3 & r3 & S3 & S & ->).
    apply Forall2_app_inv_l in S. destruct S as (k4 & k5 & S4 & S5 & ->).
    destruct (desc_scale _ _ con0 None None [] [] [] DO S1) as (ds & K1 & R1).
    destruct (limits_read _ _ CO S2) as (lo & hi & K2 & K3 & TL & R2).
    rewrite !fold_left_app, R1, limit_scale by exact TL. unfold con0. rewrite R2.
    assert (R3 : forall c ds ns es m, fold_left (scale_kid scan order) k3 (mkSc c ds None None ns es m) =
      mkSc c ds (option_map (again print scan) (z_float z)) (option_map trim (z_text z)) ns es m).
    { intros. destruct (const_case (lit "ho:COMPU-CONST") _ _ _ ltac:(plain_tag) S3) as [(-> & -> & ->)|(x & -> & TX & F)]; [reflexivity|].
      cbn [fold_left]. unfold scale_kid. htags TX x. rewrite F. reflexivity. }
    rewrite R3.
    assert (R4 : forall c ds f t m, fold_left (scale_kid scan order) k4 (mkSc c ds f t [] [] m) =
      mkSc c ds f t (map (again print scan) (z_nums z)) (map (again print scan) (z_dens z)) m).
    { intros. destruct (coeffs_case _ _ _ S4) as [(-> & -> & ->)|(x & -> & TX & F)]; [reflexivity|].
      cbn [fold_left]. unfold scale_kid. htags TX x. rewrite F. reflexivity. }
    rewrite R4.
    assert (R5 : forall c ds f t ns es, fold_left (scale_kid scan order) k5 (mkSc c ds f t ns es []) = mkSc c ds f t ns es (trim (z_math z))).
    { intros. destruct (text_case (lit "ho:COMPU-GENERIC-MATH") _ _ ltac:(plain_tag) S5) as [(-> & ->)|(x & -> & TX & F)]; [reflexivity|].
      cbn [fold_left]. unfold scale_kid. htags TX x. rewrite F. reflexivity. }
    rewrite R5. unfold kept_scale. cbn [z_con k_lower k_upper k_valid z_descs z_float z_text z_nums z_dens z_math].
    split; [exact K2|]. split; [exact K3|]. split; [reflexivity|]. split; [exact K1|]. auto.
Qed.

End Doubles.
End Order.
