(** Proofs about XmlModel.v: the properties after the comment was stored in a file. *)
From Coq Require Import String Permutation DecimalN.
From Verif Require Import Base BlockModel BlockSpec BlockProofs BlockProofs4 TextSpec XmlModel XmlSpec XmlProofs XmlProofs2 XmlProofs3 XmlProofs4 XmlProofs5 XmlProofs6 XmlProofs7.
Local Open Scope N_scope.
Local Open Scope list_scope.

Section File.
Context (order : list (list N * list N) -> list (list N * list N)) (OR : any_order order).

Definition full (s : list N) : Prop := ~ In 0 s.
Lemma full_app : forall a b, full a -> full b -> full (a ++ b).
Proof. unfold full. intros a b A B I. apply in_app_or in I. tauto. Qed.
Lemma full_cons : forall c b, c <> 0 -> full b -> full (c :: b).
Proof. unfold full. intros c b A B [I|I]; auto. Qed.
Lemma full_nil : full []. Proof. intros []. Qed.
Lemma full_concat : forall {A} (f : A -> list N) l, (forall x, In x l -> full (f x)) -> full (concat (map f l)).
Proof.
  intros A f l. induction l as [|x l IH]; intros H; [apply full_nil|]. cbn [map concat]. apply full_app; [apply H; left; auto|].
  apply IH. intros y I. apply H. right. exact I.
Qed.

Lemma utf8_full : forall cps, Forall xml_cp cps -> full (utf8_text cps).
Proof.
  intros cps F. unfold utf8_text. apply full_concat. intros c I. rewrite Forall_forall in F. specialize (F c I). clear - F.
  unfold utf8. unfold full.
  assert (P : 0 < c) by (unfold xml_cp in F; lia).
  repeat match goal with |- context [if ?b then _ else _] => destruct b end; cbn [In]; intros I;
    repeat destruct I as [I|I]; try contradiction; try lia.
Qed.
Lemma text_full : forall s, text_ok s -> full s.
Proof. intros s (cps & F & ->). apply utf8_full. exact F. Qed.
Lemma line_full : forall s, line_ok s -> full s.
Proof. intros s H. apply text_full, line_text, H. Qed.
Lemma name_full : forall s, name_ok s -> full s.
Proof.
  intros [|c r] H; [contradiction|]. cbn [name_ok] in H. destruct H as [H F]. apply full_cons.
  - unfold letter in H. lia.
  - intros I. rewrite Forall_forall in F. specialize (F 0 I). unfold letter in F. lia.
Qed.
Lemma escape_full : forall s, full s -> full (escape s).
Proof.
  intros s H. unfold escape. apply full_concat. intros c I. unfold esc.
  repeat match goal with |- context [if ?b then _ else _] => destruct b end;
    try (apply line_full, line_okb; reflexivity). apply full_cons; [|apply full_nil]. intros ->. apply H, I.
Qed.
Lemma indent_full : forall k, full (indent k).
Proof. intros k I. unfold indent in I. apply repeat_spec in I. discriminate. Qed.

Lemma write_full : forall n, node_ok n -> forall lvl, full (write order lvl n).
Proof.
  induction n as [tag attrs value kids IH] using xnode_ind2. intros OK lvl. inversion OK as [? ? ? ? N _ FA TV FK]; subst.
  cbn [write]. apply full_app; [apply indent_full|]. apply full_cons; [lia|]. apply full_app; [apply name_full; auto|].
  apply full_app.
  { apply full_concat. intros [k v] I. apply (Permutation_in _ (Permutation_sym (OR attrs))) in I.
    rewrite Forall_forall in FA. destruct (FA _ I) as [K V]. cbn [fst snd] in K, V. unfold attr_bytes. cbn [fst snd].
    apply full_cons; [lia|]. apply full_app; [apply name_full; auto|]. apply full_app; [repeat (apply full_cons; [lia|]); apply full_nil|].
    apply full_app; [apply escape_full, line_full; auto|]. apply full_cons; [lia|apply full_nil]. }
  assert (E : full ([60; 47] ++ tag ++ [62; 10])).
  { apply full_app; [repeat (apply full_cons; [lia|]); apply full_nil|]. apply full_app; [apply name_full; auto|].
    repeat (apply full_cons; [lia|]); apply full_nil. }
  destruct kids as [|k0 kids]; [destruct value as [|c0 value]|].
  - repeat (apply full_cons; [lia|]); apply full_nil.
  - apply full_cons; [lia|]. apply full_app; [apply escape_full, text_full; auto|]. exact E.
  - set (ks := k0 :: kids) in *. clearbody ks. apply full_app; [repeat (apply full_cons; [lia|]); apply full_nil|].
    apply full_app; [|apply full_app; [apply indent_full|exact E]].
    apply full_concat. intros k I. rewrite Forall_forall in IH, FK. apply IH; auto.
Qed.

Lemma md_full : forall n, mds n -> full (write order 0 n).
Proof. intros n M. apply write_full. apply good_ok. apply M. Qed.

(** What the block of a comment gives back is the comment without white space at the ends. *)
Lemma stored_text : forall n f, mds n -> (0 < length f)%nat -> N.of_nat (25 + length (write order 0 n)) < 2 ^ 64 ->
  exists f' b, write_tx4 (write order 0 n) f = Ok (f', b) /\
    forall g, tx4_text (f' ++ g) (b_pos b) = Ok (trim (write order 0 n)).
Proof.
  intros n f M NE B. destruct (tx4_any (write order 0 n) f NE B) as (f' & b & E & R). exists f', b. split; [exact E|].
  intros g. rewrite R, cut_id by (apply md_full; auto). reflexivity.
Qed.

Lemma trim_twice : forall n, mds n -> trim (trim (write order 0 n)) = trim (write order 0 n).
Proof. intros n M. apply trim_id. apply trim_plain. apply md_full. exact M. Qed.

Lemma trim_head : forall n, exists r, trim (write order 0 n) = 60 :: r.
Proof.
  intros n. destruct (write_head order n) as [r W]. rewrite W. unfold trim. cbn [ltrim]. change (is_space 60) with false. cbn iota.
  unfold rtrim. cbn [rev]. set (w := rev r). clearbody w. induction w as [|c w IH].
  - exists []. reflexivity.
  - cbn [app ltrim]. destruct (is_space c); [exact IH|]. exists (rev w ++ [c]). change (c :: w ++ [60]) with ((c :: w) ++ [60]).
    rewrite rev_app_distr. reflexivity.
Qed.

(** The getters after reading. *)
Lemma get_string_trim : forall t n, mds n -> get_string t (trim (write order 0 n)) = sview t n.
Proof.
  intros t n M. destruct (parse_mds_trim order OR n M) as (n' & P & S & M'). unfold get_string. rewrite P. unfold sview.
  pose proof (get_node_same t n n' S) as B.
  destruct (get_node t n), (get_node t n'); cbn in B; try contradiction; [|reflexivity]. apply value_same. exact B.
Qed.
Lemma get_common_trim : forall name n, mds n ->
  get_common order name (trim (write order 0 n)) = get_common order name (write order 0 n).
Proof.
  intros name n M. rewrite (get_common_view order OR) by auto.
  destruct (parse_mds_trim order OR n M) as (n' & P & S & M'). unfold get_common. rewrite P. cbn [fst].
  fold t_common t_tree t_e k_name. unfold cview, commons.
  pose proof (get_node_same t_common n n' S) as B.
  destruct (get_node t_common n) as [c|] eqn:EC, (get_node t_common n') as [c'|]; cbn in B; try contradiction; [|reflexivity].
  assert (GC : good c).
  { destruct M as (G & _). apply find_some in EC. apply good_kids in G. rewrite Forall_forall in G. apply G, EC. }
  unfold get_named. change (fun c0 => is_tag t_tree c0 && is_attr k_name name c0) with (named t_tree name).
  change (fun c0 => is_tag t_e c0 && is_attr k_name name c0) with (named t_e name).
  pose proof (cfind_same t_tree name _ _ (same_kids _ _ B)) as B1.
  pose proof (cfind_same t_e name _ _ (same_kids _ _ B)) as B2. unfold cfind in *.
  destruct (find (named t_tree name) (x_kids c)) as [k|] eqn:E1, (find (named t_tree name) (x_kids c')); cbn in B1; try contradiction.
  - apply fetch_view; auto. apply good_tidy. eapply cfind_good; [apply good_kids; exact GC|exact E1].
  - destruct (find (named t_e name) (x_kids c)) as [k|] eqn:E2, (find (named t_e name) (x_kids c')); cbn in B2; try contradiction; [|reflexivity].
    apply fetch_view; auto. apply good_tidy. eapply cfind_good; [apply good_kids; exact GC|exact E2].
Qed.
Lemma hd_get_trim : forall key n, mds n -> hd_get key (trim (write order 0 n)) = hd_get key (write order 0 n).
Proof.
  intros key n M. destruct (write_head order n) as [r W]. destruct (trim_head n) as [q T].
  unfold hd_get. rewrite T, <- T, W, <- W. rewrite trim_twice by auto. reflexivity.
Qed.
Lemma hd_description_trim : forall n, mds n -> hd_description (trim (write order 0 n)) = sview t_tx n.
Proof.
  intros n M. destruct (trim_head n) as [q T]. unfold hd_description. rewrite T, <- T. cbn [N.eqb Pos.eqb].
  destruct (parse_mds_trim order OR n M) as (n' & P & S & M'). rewrite P. fold t_tx.
  unfold sview. pose proof (get_node_same t_tx n n' S) as B.
  destruct (get_node t_tx n), (get_node t_tx n'); cbn in B; try contradiction; [|reflexivity]. apply value_same. exact B.
Qed.

Lemma run_header_text : forall ops, Forall hd_op_ok ops -> ops <> [] ->
  exists n, state order (hd_run order ops) n /\ hd_run order ops = write order 0 n.
Proof.
  intros ops F NE. destruct (run_header order OR ops F) as (n & ST & _). pose proof ST as (M & T & [[E _]| E]).
  - exfalso. destruct ops as [|op ops] using rev_ind; [congruence|]. unfold hd_run in E. rewrite fold_left_app in E.
    cbn [fold_left] in E. destruct op as [p v|z|text]; cbn [hd_step] in E;
      unfold hd_put, hd_put_index, hd_set, hd_describe in E; cbn [write_string] in E;
      match type of E with write order 0 ?x = [] => destruct (write_head order x) as [r W]; rewrite W in E; discriminate E end.
  - exists n. auto.
Qed.

End File.
