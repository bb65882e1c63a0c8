(** Proofs about XmlModel.v: one property, and the properties of the header. *)
From Coq Require Import String Permutation DecimalN.
From Verif Require Import Base BlockModel BlockSpec BlockProofs TextSpec XmlModel XmlSpec XmlProofs XmlProofs2 XmlProofs3 XmlProofs4 XmlProofs5 XmlProofs6.
Local Open Scope N_scope.
Local Open Scope list_scope.

Section Header.
Context (order : list (list N * list N) -> list (list N * list N)) (OR : any_order order).

(* ------------------------------------------------------------------ *)
(** ** A property with a new name, among any others *)

Lemma cfind_app : forall t name l1 l2, cfind t name (l1 ++ l2) =
  match cfind t name l1 with Some k => Some k | None => cfind t name l2 end.
Proof. intros t name l1 l2. unfold cfind. induction l1 as [|k l1 IH]; [reflexivity|]. cbn [app find]. destruct (named t name k); auto. Qed.

Lemma run_absent : forall root name ops, name_ok root -> ~ In 58 root -> Forall md_op_ok ops ->
  Forall (fun op => ~ sets_common name op) ops ->
  exists n, mds n /\ md_run order root ops = write order 0 n /\ forall t, cfind t name (commons n) = None.
Proof.
  intros root name ops N1 N2 F NS. induction ops as [|op ops IH] using rev_ind.
  - exists (empty_md root). split; [apply empty_mds; auto|]. split; [reflexivity|]. intros t. reflexivity.
  - apply Forall_app in F, NS. destruct F as [F1 F2]. inversion F2 as [|? ? OK _]; subst.
    destruct NS as [NS1 NS2]. inversion NS2 as [|? ? NO _]; subst.
    destruct (IH F1 NS1) as (n & M & R & V). unfold md_run in *. rewrite fold_left_app. cbn [fold_left]. rewrite R.
    destruct (step_tree order OR _ n OK M) as (n' & S & M' & E).
    eexists. split; [apply mds_op; [exact OK|exact M']|]. split; [exact E|]. intros t.
    assert (V' : cfind t name (commons n') = None).
    { pose proof (cfind_same t name _ _ (commons_same _ _ S)) as B. rewrite V in B.
      destruct (cfind t name (commons n')); [contradiction|reflexivity]. }
    destruct op as [t' v'|e].
    + rewrite string_commons; auto. apply OK.
    + rewrite common_other; auto.
Qed.

(** Calls that do not set the name leave what is seen of it. *)
Lemma run_keeps : forall name ops n, Forall md_op_ok ops -> Forall (fun op => ~ sets_common name op) ops -> mds n ->
  exists n', mds n' /\ fold_left (md_step order) ops (write order 0 n) = write order 0 n' /\
    cview name (commons n') = cview name (commons n).
Proof.
  intros name ops. induction ops as [|op ops IH]; intros n F NS M; [exists n; auto|].
  inversion F as [|? ? OK F']; subst. inversion NS as [|? ? NO NS']; subst. cbn [fold_left].
  destruct (step_tree order OR _ n OK M) as (n' & S & M' & E). rewrite E.
  destruct (IH (op_tree op n') F' NS' (mds_op _ _ OK M')) as (n2 & M2 & E2 & V2).
  exists n2. split; [exact M2|]. split; [exact E2|]. rewrite V2.
  rewrite <- (cview_same name n n' S (proj1 M)). destruct op as [t' v'|e].
  - rewrite string_commons; auto. apply OK.
  - unfold cview. rewrite !common_other by auto. reflexivity.
Qed.

Lemma run_once : forall root ops1 e ops2, name_ok root -> ~ In 58 root -> Forall md_op_ok (ops1 ++ SetCommon e :: ops2) ->
  e_name (e_base e) <> [] -> names_differ e ->
  Forall (fun op => ~ sets_common (e_name (e_base e)) op) (ops1 ++ ops2) ->
  get_common order (e_name (e_base e)) (md_run order root (ops1 ++ SetCommon e :: ops2)) = kept e.
Proof.
  intros root ops1 e ops2 N1 N2 F NE ND NS. apply Forall_app in F. destruct F as [F1 F2]. inversion F2 as [|? ? OK F3]; subst.
  apply Forall_app in NS. destruct NS as [NS1 NS2].
  destruct (run_absent root (e_name (e_base e)) ops1 N1 N2 F1 NS1) as (n & M & R & V).
  unfold md_run in *. rewrite fold_left_app. cbn [fold_left]. rewrite R.
  destruct (step_tree order OR _ n OK M) as (n' & S & M' & E). rewrite E.
  assert (V' : forall t, cfind t (e_name (e_base e)) (commons n') = None).
  { intros t. pose proof (cfind_same t (e_name (e_base e)) _ _ (commons_same _ _ S)) as B. rewrite V in B.
    destruct (cfind t (e_name (e_base e)) (commons n')); [contradiction|reflexivity]. }
  destruct (run_keeps (e_name (e_base e)) ops2 _ F3 NS2 (mds_op _ _ OK M')) as (n2 & M2 & E2 & V2).
  rewrite E2, (get_common_view order OR) by auto. rewrite V2.
  rewrite common_fresh by auto. unfold cview. rewrite !cfind_app, !V'.
  assert (NF : cfind (e_tag e) (e_name (e_base e)) [node_of e] = Some (node_of e)).
  { unfold cfind. cbn [find]. unfold node_of at 1. rewrite put_e_named, named_fresh. reflexivity. }
  destruct (e_tag_cases e) as [T|T]; rewrite T in NF.
  - assert (NT : cfind t_tree (e_name (e_base e)) [node_of e] = None).
    { unfold cfind. cbn [find]. rewrite node_of_named. unfold is_tag. rewrite fresh_e_tag, T. reflexivity. }
    rewrite NT, NF. apply view_node_of. exact ND.
  - rewrite NF. apply view_node_of. exact ND.
Qed.

Lemma get_common_value : forall name n, mds n -> cfind t_tree name (commons n) = None ->
  e_value (e_base (get_common order name (write order 0 n))) = eview name (commons n) /\
  e_tree (get_common order name (write order 0 n)) = [].
Proof.
  intros name n M T. rewrite (get_common_view order OR) by auto. unfold cview, eview. rewrite T.
  destruct (cfind t_e name (commons n)) as [k|] eqn:E; [|auto]. rewrite view_unfold. cbn [e_base e_tree].
  split; [reflexivity|]. destruct M as (_ & _ & C). apply find_some in E. destruct E as [I N].
  unfold named in N. apply andb_prop in N. destruct N as [N _]. rewrite Forall_forall in C. rewrite (C k I N). reflexivity.
Qed.

(* ------------------------------------------------------------------ *)
(** ** The header *)

Definition t_hd := lit "HDcomment".
Definition t_tx := lit "TX".
Definition state (md : list N) (n : xnode) : Prop :=
  mds n /\ x_tag n = t_hd /\ (md = [] /\ n = new_node t_hd \/ md = write order 0 n).

Lemma hd_ok : name_ok t_hd /\ ~ In 58 t_hd.
Proof. split; [apply name_okb_ok; reflexivity|apply lit_no_colon; reflexivity]. Qed.
Lemma state_new : state [] (new_node t_hd).
Proof.
  split; [|split; [reflexivity|left; auto]]. split; [apply good_new; apply hd_ok|]. split; constructor.
Qed.

Lemma same_new : forall t, same (new_node t) (new_node t).
Proof. intros t. apply same_leaf. constructor. Qed.

Lemma write_head : forall n, exists r, write order 0 n = 60 :: r.
Proof. intros [t a v ks]. eexists. reflexivity. Qed.

Lemma state_root : forall md n, state md n -> exists n', hd_root md = n' /\ same n n' /\ mds n' /\ x_tag n' = t_hd.
Proof.
  intros md n (M & T & [[-> ->]| ->]).
  - exists (new_node t_hd). split; [reflexivity|]. split; [apply same_new|]. auto.
  - destruct (parse_mds_trim order OR n M) as (n' & P & S & M'). exists n'.
    assert (T' : x_tag n' = t_hd) by (rewrite <- (same_tag _ _ S); exact T).
    destruct (write_head n) as [r W]. unfold hd_root. rewrite W, <- W, P. cbn [fst root_name].
    fold t_hd. rewrite <- T' at 1. rewrite retag. auto.
Qed.

Definition with_tx (n : xnode) : xnode := edit_kid t_tx (fun n => n) n.
Lemma with_tx_ok : forall n, mds n -> mds (with_tx n) /\ (forall t, sview t (with_tx n) = sview t n) /\ commons (with_tx n) = commons n.
Proof.
  intros n M. pose proof M as (G & K & E). destruct tx_name as (N1 & N2 & N3).
  assert (C : commons (with_tx n) = commons n).
  { unfold commons, with_tx. rewrite edit_other; auto. intros A. apply N3. apply alike_sym. exact A. }
  split; [|split; [|exact C]].
  - split; [|split; [|rewrite C; exact E]].
    + unfold with_tx, edit_kid. apply good_set_kids; auto. apply edit_first_forall; auto.
      * apply good_new; auto.
      * apply good_kids; auto.
    + unfold with_tx, edit_kid. cbn [set_kids x_kids]. apply edit_first_forall; auto.
  - intros t. unfold sview, with_tx. destruct (alike_dec t t_tx) as [A|A].
    + rewrite (edit_hit t t_tx) by auto. destruct (get_node t n); reflexivity.
    + rewrite edit_other by auto. reflexivity.
Qed.

Definition hd_e (key type value : list N) : etag := ETag (mkE key [] [] [] type [] value false (-1)) [].
Lemma hd_set_tree : forall key type value md, key <> [] -> type <> [] ->
  hd_set order key type value md = write order 0 (op_tree (SetCommon (hd_e key type value)) (with_tx (hd_root md))).
Proof.
  intros key type value md NK NT. unfold hd_set, hd_e. cbn [write_string op_tree]. f_equal.
  assert (X : forall c, edit_named (lit "e") (lit "name") key (fun n => set_value value (set_attr (lit "type") type n)) c =
    insert_etag (ETag (mkE key [] [] [] type [] value false (-1)) []) c).
  { intros c. cbn [insert_etag e_name]. destruct key as [|a key]; [congruence|]. unfold edit_named. f_equal.
    destruct type as [|b type]; [congruence|]. reflexivity. }
  unfold edit_kid at 1. unfold with_tx, t_tx. unfold op_tree, edit_kid at 3. f_equal.
  clear - X. generalize (x_kids (edit_kid (lit "TX") (fun n => n) (hd_root md))). intros ks.
  induction ks as [|k ks IH]; cbn [edit_first]; fold t_common; [rewrite X; reflexivity|].
  fold t_common in IH. rewrite IH, X. reflexivity.
Qed.

Lemma op_tree_tag : forall op n, x_tag (op_tree op n) = x_tag n. Proof. intros [t v|e] n; reflexivity. Qed.

Lemma step_put : forall key type value md n, state md n -> key <> [] -> type <> [] -> line_ok key -> line_ok type -> text_ok value ->
  exists n', state (hd_set order key type value md) n' /\
    eview key (commons n') = trim value /\
    (forall key', ~ alike key' key -> eview key' (commons n') = eview key' (commons n)) /\
    sview t_tx n' = sview t_tx n.
Proof.
  intros key type value md n ST NK NT LK LT TV. destruct (state_root md n ST) as (r & ER & S & M & T).
  destruct (with_tx_ok r M) as (MW & VW & CW).
  assert (OK : md_op_ok (SetCommon (hd_e key type value))).
  { cbn [md_op_ok]. constructor; [|constructor]. unfold base_ok. cbn. pose proof (ascii_line [] (Forall_nil _)). auto 10. }
  exists (op_tree (SetCommon (hd_e key type value)) (with_tx r)).
  assert (CF : forall t key', both (cfind t key' (commons n)) (cfind t key' (commons (with_tx r)))).
  { intros t key'. rewrite CW. apply cfind_same. apply commons_same. exact S. }
  split; [|split; [|split]].
  - split; [apply mds_op; auto|]. split; [rewrite op_tree_tag; exact T|]. right.
    rewrite hd_set_tree, ER by auto. reflexivity.
  - destruct (common_leaf_hit key (e_base (hd_e key type value)) (with_tx r) MW NK (alike_refl _)) as (k & K & C).
    unfold eview. unfold hd_e in *. cbn [e_base] in C. rewrite C. unfold vtext. rewrite put_leaf_kids, put_leaf_value, K. reflexivity.
  - intros key' NA. unfold eview. rewrite common_other by auto. rewrite CW. fold (eview key' (commons r)).
    fold (eview key' (commons n)). apply eview_same. exact S.
  - rewrite common_string by (auto; apply tx_name). rewrite VW. apply sview_same. exact S.
Qed.

Lemma step_describe : forall text md n, state md n -> text_ok text ->
  exists n', state (hd_describe order text md) n' /\ sview t_tx n' = trim text /\
    (forall key, eview key (commons n') = eview key (commons n)).
Proof.
  intros text md n ST TV. destruct (state_root md n ST) as (r & ER & S & M & T).
  assert (OK : md_op_ok (SetString t_tx text)) by (split; [apply tx_name|exact TV]).
  exists (op_tree (SetString t_tx text) r). split; [|split].
  - split; [apply mds_op; auto|]. split; [rewrite op_tree_tag; exact T|]. right. unfold hd_describe. rewrite ER. reflexivity.
  - apply string_same; [exact M|apply tx_name|apply alike_refl].
  - intros key. rewrite string_commons by (auto; apply tx_name). apply eview_same. exact S.
Qed.

Lemma get_view : forall key md n, state md n -> hd_get key md = eview key (commons n).
Proof.
  intros key md n (M & T & [[-> ->]| ->]); [reflexivity|].
  destruct (write_head n) as [r W]. unfold hd_get. rewrite W, <- W. cbn [N.eqb Pos.eqb].
  destruct (parse_mds_trim order OR n M) as (n' & P & S & M'). rewrite P. cbn [fst].
  rewrite <- (eview_same key n n' S). unfold eview, commons. fold t_common. destruct (get_node t_common n') as [c|] eqn:EC; [|reflexivity].
  unfold get_named, cfind. fold t_e k_name. change (fun c0 => is_tag t_e c0 && is_attr k_name key c0) with (named t_e key).
  destruct (find (named t_e key) (x_kids c)) as [k|] eqn:E; [|reflexivity].
  unfold vtext, value_text. destruct M' as (_ & _ & C). unfold commons in C. rewrite EC in C. apply find_some in E. destruct E as [I N].
  unfold named in N. apply andb_prop in N. destruct N as [N _]. rewrite Forall_forall in C. rewrite (C k I N). reflexivity.
Qed.

Lemma describe_view : forall md n, state md n -> hd_description md = sview t_tx n.
Proof.
  intros md n (M & T & [[-> ->]| ->]); [reflexivity|].
  destruct (write_head n) as [r W]. unfold hd_description. rewrite W, <- W. cbn [N.eqb Pos.eqb].
  destruct (parse_mds order OR n M) as (n' & P & S & M'). rewrite P. fold t_tx.
  unfold sview. pose proof (get_node_same t_tx n n' S) as B.
  destruct (get_node t_tx n), (get_node t_tx n'); cbn in B; try contradiction; [|reflexivity]. apply value_same. exact B.
Qed.

Definition i_key := lit "Recorder.FileIndex".
Lemma keys_differ : forall p q, hd_prop_eqb p q = false -> ~ alike (hd_key p) (hd_key q).
Proof. intros p q. destruct p, q; intros H A; solve [discriminate H|discriminate A]. Qed.
Lemma prop_eq : forall p q, hd_prop_eqb p q = true -> p = q.
Proof. intros p q. destruct p, q; intros H; solve [reflexivity|discriminate H]. Qed.
Lemma index_differs : forall p, ~ alike (hd_key p) i_key /\ ~ alike i_key (hd_key p).
Proof. intros p. destruct p; split; intros A; discriminate A. Qed.
Lemma line_okb : forall s, forallb (fun c => (32 <=? c) && (c <? 128)) s = true -> line_ok s.
Proof.
  intros s H. apply ascii_line. rewrite Forall_forall. intros c I. rewrite forallb_forall in H. specialize (H c I).
  apply andb_prop in H. destruct H as [A B]. apply N.leb_le in A. apply N.ltb_lt in B. lia.
Qed.
Lemma key_line : forall p, line_ok (hd_key p) /\ hd_key p <> [].
Proof. intros p. destruct p; (split; [|discriminate]); apply line_okb; reflexivity. Qed.
Lemma lit_line : line_ok (lit "string") /\ line_ok (lit "integer") /\ line_ok i_key.
Proof. repeat split; apply line_okb; reflexivity. Qed.

Definition index_text (i : option Z) : list N := match i with Some z => int_text z | None => [] end.
Definition some_index (op : hd_op) : option (option Z) := option_map Some (indexes op).

Lemma last_snoc : forall {A} (pick : hd_op -> option A) none ops op,
  last_of pick none (ops ++ [op]) = match pick op with Some v => v | None => last_of pick none ops end.
Proof. intros A pick none ops op. unfold last_of. rewrite fold_left_app. reflexivity. Qed.

Lemma run_header : forall ops, Forall hd_op_ok ops -> exists n, state (hd_run order ops) n /\
  (forall p, eview (hd_key p) (commons n) = trim (last_of (puts p) [] ops)) /\
  eview i_key (commons n) = index_text (last_of some_index None ops) /\
  sview t_tx n = trim (last_of describes [] ops).
Proof.
  intros ops F. induction ops as [|op ops IH] using rev_ind.
  - exists (new_node t_hd). split; [apply state_new|]. split; [intros p; reflexivity|split; reflexivity].
  - apply Forall_app in F. destruct F as [F1 F2]. inversion F2 as [|? ? OK _]; subst.
    destruct (IH F1) as (n & ST & VP & VI & VD). unfold hd_run in *. rewrite fold_left_app. cbn [fold_left].
    destruct lit_line as (L1 & L2 & L3).
    destruct op as [q v|z|text]; cbn [hd_step].
    + destruct (key_line q) as [LK NK]. unfold hd_put.
      destruct (step_put (hd_key q) (lit "string") v _ n ST NK ltac:(discriminate) LK L1 OK) as (n' & ST' & H1 & H2 & H3).
      exists n'. split; [exact ST'|]. split; [|split].
      * intros p. rewrite last_snoc. cbn [puts]. destruct (hd_prop_eqb p q) eqn:E.
        -- apply prop_eq in E. subst q. exact H1.
        -- rewrite H2 by (apply keys_differ; exact E). apply VP.
      * rewrite last_snoc. cbn [some_index indexes option_map]. rewrite H2 by apply index_differs. exact VI.
      * rewrite last_snoc. cbn [describes]. congruence.
    + unfold hd_put_index. fold i_key.
      destruct (step_put i_key (lit "integer") (int_text z) _ n ST ltac:(discriminate) ltac:(discriminate) L3 L2 (line_text _ (int_line z)))
        as (n' & ST' & H1 & H2 & H3).
      exists n'. split; [exact ST'|]. split; [|split].
      * intros p. rewrite last_snoc. cbn [puts]. rewrite H2 by apply index_differs. apply VP.
      * rewrite last_snoc. cbn [some_index indexes option_map index_text]. rewrite H1, int_trim. reflexivity.
      * rewrite last_snoc. cbn [describes]. congruence.
    + destruct (step_describe text _ n ST OK) as (n' & ST' & H1 & H2).
      exists n'. split; [exact ST'|]. split; [|split].
      * intros p. rewrite last_snoc. cbn [puts]. rewrite H2. apply VP.
      * rewrite last_snoc. cbn [some_index indexes option_map]. rewrite H2. exact VI.
      * rewrite last_snoc. cbn [describes]. exact H1.
Qed.

Lemma int_text_nil : forall z, int_text z <> [].
Proof.
  intros z H. pose proof (read_int_text z) as R. destruct z; try discriminate H;
  unfold int_text in H; cbn in H; try discriminate H; apply (uint_bytes_nil (Npos p) H).
Qed.

Lemma last_index : forall ops, last_of some_index None ops = None /\ last_of indexes 0%Z ops = 0%Z \/
  exists z, last_of some_index None ops = Some z /\ last_of indexes 0%Z ops = z.
Proof.
  intros ops. induction ops as [|op ops IH] using rev_ind; [left; split; reflexivity|].
  rewrite !last_snoc. destruct op as [q v|z|text]; cbn [some_index indexes option_map]; auto.
  right. exists z. auto.
Qed.

End Header.
