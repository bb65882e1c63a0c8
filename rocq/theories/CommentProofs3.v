(** Proofs about typed comments, part 3: properties, enumerates and lists. *)
From Coq Require Import String Permutation Sorting.Sorted Lia.
From Verif Require Import Base BlockModel TextSpec XmlModel XmlSpec XmlProofs XmlProofs2 XmlProofs3 XmlProofs4 XmlProofs5
  CommentModel CommentSpec CommentProofs CommentProofs2.
Local Open Scope N_scope.
Local Open Scope list_scope.

Definition vocab (reserved : list (list N)) : Prop :=
  Forall (fun k => ieq (lit "ci") k = false /\ ieq (lit "xml:lang") k = false) reserved.
Lemma prop_vocab : vocab prop_keys.
Proof. repeat constructor. Qed.
Lemma list_vocab : vocab list_keys.
Proof. repeat constructor. Qed.
Lemma const_vocab : vocab const_keys.
Proof. repeat constructor. Qed.

Lemma look_own : forall reserved own s k tag v ks, std_ok reserved own s -> own_ok reserved own -> vocab reserved -> In k reserved ->
  lookup k (XNode tag (std_attrs own s) v ks) =
  match find (fun '(a, _) => ieq a k) own with Some (_, v) => Some (trim v) | None => None end.
Proof.
  intros reserved own s k tag v ks OK OW VO IK. unfold lookup. cbn [x_attrs]. unfold std_attrs. rewrite find_app_key.
  destruct (find _ own) as [[a w]|] eqn:FO; [reflexivity|].
  unfold vocab in VO. rewrite Forall_forall in VO. destruct (VO k IK) as [VC VL].
  assert (X : find (fun '(a, _) => ieq a k) (ci_attr s ++ lang_attr s ++ filter (absent own) (s_cust s)) = None).
  { apply find_key_none. intros I. apply in_keys in I. destruct I as (a & I & AL). rewrite !in_app_iff, filter_In in I.
    destruct I as [I|[I|[I _]]].
    - unfold ci_attr in I. destruct (0 <? _); [|destruct I]. destruct I as [<-|[]]. cbn [fst] in AL. apply ieq_alike in AL. congruence.
    - unfold lang_attr, text_attr in I. destruct (s_lang _); [destruct I|]. destruct I as [<-|[]]. cbn [fst] in AL. apply ieq_alike in AL. congruence.
    - destruct OK as (_ & _ & _ & _ & RE). destruct a as [ka va]. cbn [fst] in AL. pose proof (RE ka va k I IK AL) as J.
      apply find_key_none in FO. apply FO. apply in_keys. apply in_map_iff in J. destruct J as (b & E & J). exists b. split; auto.
      rewrite E. exact AL. }
  rewrite X. reflexivity.
Qed.

Lemma find_text_other : forall k' k v, ieq (lit k') k = false -> find (fun '(a, _) => ieq a k) (text_attr k' v) = None.
Proof. intros k' k [|c v] E; [reflexivity|]. cbn [text_attr find]. rewrite E. reflexivity. Qed.
Lemma ieq_refl : forall k, ieq k k = true.
Proof. intros. apply ieq_alike, alike_refl. Qed.
Definition found (r : option (list N * list N)) : list N := match r with Some (_, v) => trim v | None => [] end.
Lemma found_text : forall k v, found (find (fun '(a, _) => ieq a (lit k)) (text_attr k v)) = trim v.
Proof. intros k [|c v]; [reflexivity|]. cbn [text_attr find]. rewrite ieq_refl. reflexivity. Qed.

Lemma own_text : forall reserved k v, In (lit k) reserved -> name_ok (lit k) -> line_ok v -> ieq (lit k) (lit "ci") = false ->
  ieq (lit k) (lit "xml:lang") = false ->
  Forall (fun a => In (fst a) reserved /\ name_ok (fst a) /\ line_ok (snd a) /\
    ~ alike (fst a) (lit "ci") /\ ~ alike (fst a) (lit "xml:lang")) (text_attr k v).
Proof.
  intros reserved k [|c v] I NK LV E1 E2; constructor; [|constructor]. cbn [fst snd].
  repeat split; auto; intros A; apply ieq_alike in A; congruence.
Qed.

Lemma type_line : forall t, line_ok (type_text t).
Proof.
  intros t. unfold type_text. assert (F : Forall line_ok (type_texts)).
  { unfold type_texts. repeat (apply Forall_cons; [apply line_lit; reflexivity|]). constructor. }
  destruct (nth_in_or_default (N.to_nat t) type_texts (lit "string")) as [I|E].
  - rewrite Forall_forall in F. auto.
  - rewrite E. apply line_lit. reflexivity.
Qed.

Ltac known := repeat first [apply own_text; [cbn; auto 10|apply name_okb_ok; reflexivity|assumption|reflexivity|reflexivity]].

Fixpoint apart (l : list (list N)) : bool :=
  match l with [] => true | k :: r => negb (existsb (beq k) r) && apart r end.
Lemma apart_ok : forall l, apart l = true -> NoDup l.
Proof.
  induction l as [|k l IH]; intros H; [constructor|]. cbn [apart] in H. apply andb_prop in H. destruct H as [A B]. constructor; auto.
  intros I. assert (X : existsb (beq k) l = true) by (apply existsb_exists; exists k; split; auto; apply beq_refl).
  rewrite X in A. discriminate.
Qed.

Lemma own_prop : forall p, prop_ok p -> own_ok prop_keys (prop_attrs p).
Proof.
  intros p (_ & LN & _ & LD & LU & LR & _ & _). split.
  - unfold prop_attrs, text_attr. destruct (p_name p), (p_desc p), (p_type p =? 0), (p_unit p), (p_ref p), (p_ro p);
      apply apart_ok; vm_compute; reflexivity.
  - unfold prop_attrs. rewrite !Forall_app. repeat split; try (known; fail).
    + destruct (p_type p =? 0); constructor; [|constructor]. cbn [fst snd]. split; [cbn; auto 10|]. split; [apply name_okb_ok; reflexivity|].
      split; [apply type_line|]. split; intros A; apply ieq_alike in A; vm_compute in A; discriminate.
    + destruct (p_ro p); constructor; [|constructor]. cbn [fst snd]. split; [cbn; auto 10|]. split; [apply name_okb_ok; reflexivity|].
      split; [apply line_lit; reflexivity|]. split; intros A; apply ieq_alike in A; vm_compute in A; discriminate.
Qed.
Lemma own_list : forall name desc, line_ok name -> line_ok desc -> own_ok list_keys (list_attrs name desc).
Proof.
  intros name desc LN LD. split.
  - unfold list_attrs, text_attr. destruct name, desc; apply apart_ok; vm_compute; reflexivity.
  - unfold list_attrs. rewrite !Forall_app. repeat split; known.
Qed.
Lemma own_const : forall name, line_ok name -> own_ok const_keys [(lit "name", name)].
Proof.
  intros name LN. split.
  - cbn [keys map fst]. constructor; [intros []|constructor].
  - constructor; [|constructor]. cbn [fst snd]. split; [cbn; auto|]. split; [apply name_okb_ok; reflexivity|]. split; [auto|].
    split; intros A; apply ieq_alike in A; vm_compute in A; discriminate.
Qed.

Lemma add_own : forall own, NoDup (map fst own) -> fold_left add_attr own [] = own.
Proof.
  intros own ND. rewrite add_attrs by auto. cbn [app]. induction own as [|a l IH]; [reflexivity|].
  cbn [filter]. change (absent [] a) with true. cbv iota. inversion ND; subst. f_equal. auto.
Qed.

(* ------------------------------------------------------------------ *)
(** ** Properties *)

Definition prop_node (tag : list N) (p : mprop) (v : list N) : xnode := XNode tag (std_attrs (prop_attrs p) (p_std p)) v [].

Lemma to_prop_node : forall tag p, name_ok tag -> ~ In 58 tag -> prop_ok p ->
  to_prop tag p = prop_node tag p (if ieq (lit "elist") tag then [] else p_value p).
Proof.
  intros tag p NT NC OK. pose proof (own_prop p OK) as OW. destruct OK as (SO & _). unfold to_prop. cbv zeta.
  set (n := set_ro _ _).
  assert (SH : x_tag n = tag /\ x_value n = [] /\ x_kids n = [] /\ x_attrs n = prop_attrs p).
  { subst n. rewrite set_ro_tag, set_ro_kids.
    assert (RV : forall r m, x_value (set_ro r m) = x_value m) by (intros [] m; reflexivity).
    assert (RA : forall r m, x_attrs (set_ro r m) = fold_left add_attr (if r then [(lit "ro", lit "true")] else []) (x_attrs m))
      by (intros [] m; reflexivity).
    rewrite RV, RA, !set_text_tag, !set_text_value, !set_text_kids, !set_text_shape.
    set (m := set_text (lit "desc") _ _).
    assert (M : x_tag m = tag /\ x_value m = [] /\ x_kids m = [] /\
      x_attrs m = fold_left add_attr (text_attr "desc" (p_desc p)) (fold_left add_attr (text_attr "name" (p_name p)) [])).
    { subst m. rewrite !set_text_tag, !set_text_value, !set_text_kids, !set_text_shape. rewrite new_node_shape by auto. auto. }
    destruct M as (M1 & M2 & M3 & M4).
    assert (TA : x_attrs (if p_type p =? 0 then m else set_attr (lit "type") (type_text (p_type p)) m) =
      fold_left add_attr (if p_type p =? 0 then [] else [(lit "type", type_text (p_type p))]) (x_attrs m))
      by (destruct (p_type p =? 0); reflexivity).
    rewrite TA, M4. rewrite <- !fold_left_app.
    split; [|split; [|split]].
    1-3: destruct (p_type p =? 0); assumption.
    rewrite <- (add_own (prop_attrs p)) by (apply keys_fst, OW). unfold prop_attrs. rewrite !app_assoc. reflexivity. }
  destruct SH as (S1 & S2 & S3 & S4). destruct (put_std_shape (p_std p) n) as (A & B & C & _).
  pose proof (std_written _ _ _ n SO OW S4) as D.
  assert (E : put_std (p_std p) n = prop_node tag p []).
  { destruct (put_std (p_std p) n) as [tg at_ vl kd]. cbn [x_tag x_value x_kids x_attrs] in *. unfold prop_node. congruence. }
  rewrite E. rewrite is_tag_plain by exact NC. cbn [prop_node x_tag]. destruct (ieq (lit "elist") tag); reflexivity.
Qed.

Lemma prop_node_ok : forall tag p v, name_ok tag -> text_ok v -> prop_ok p -> node_ok (prop_node tag p v).
Proof.
  intros tag p v NT TV OK. pose proof (own_prop p OK) as OW. destruct OK as (SO & _). constructor; auto.
  - apply keys_fst. eapply std_keys; eauto.
  - eapply std_fine; eauto.
Qed.

Lemma type_back : forall t, t <= 8 -> read_type (found (find (fun '(a, _) => ieq a (lit "type"))
  (if t =? 0 then [] else [(lit "type", type_text t)]))) = kept_type t.
Proof.
  intros t LE. assert (C : t = 0 \/ t = 1 \/ t = 2 \/ t = 3 \/ t = 4 \/ t = 5 \/ t = 6 \/ t = 7 \/ t = 8) by lia.
  destruct C as [->|[->|[->|[->|[->|[->|[->|[->| ->]]]]]]]]; vm_compute; reflexivity.
Qed.

Lemma find_none_list : forall (k : list N) (b : bool) (x v : list N), ieq x k = false ->
  find (fun '(a, _) => ieq a k) (if b then [] else [(x, v)]) = None.
Proof. intros k [] x v E; [reflexivity|]. cbn [find]. rewrite E. reflexivity. Qed.
Lemma find_none_ro : forall (k : list N) (b : bool) (x v : list N), ieq x k = false ->
  find (fun '(a, _) => ieq a k) (if b then [(x, v)] else [] : list (list N * list N)) = None.
Proof. intros k [] x v E; [|reflexivity]. cbn [find]. rewrite E. reflexivity. Qed.

Section Order.
Context (order : list (list N * list N) -> list (list N * list N)) (OR : any_order order).

Lemma attr_read : forall reserved own s k tag v ks n', std_ok reserved own s -> own_ok reserved own -> vocab reserved -> In k reserved ->
  same (XNode tag (std_attrs own s) v ks) n' ->
  attribute order k n' = match find (fun '(a, _) => ieq a k) own with Some (_, v) => Some (trim v) | None => None end.
Proof.
  intros reserved own s k tag v ks n' OK OW VO IK S.
  pose proof (std_keys _ _ _ OK OW) as ND.
  rewrite attribute_lookup; auto.
  - rewrite <- (look_own reserved own s k tag v ks) by auto. unfold lookup. cbn [x_attrs].
    rewrite (find_key_perm k (std_attrs own s) (x_attrs n')); auto. apply same_attrs in S. exact S.
  - eapply Permutation_NoDup; [apply keys_perm, (same_attrs _ _ S)|exact ND].
Qed.
Lemma text_read : forall reserved own s k tag v ks n', std_ok reserved own s -> own_ok reserved own -> vocab reserved -> In k reserved ->
  same (XNode tag (std_attrs own s) v ks) n' ->
  attr_text order k n' = found (find (fun '(a, _) => ieq a k) own).
Proof.
  intros reserved own s k tag v ks n' OK OW VO IK S. unfold attr_text. rewrite (attr_read reserved own s k tag v ks n'); auto.
  destruct (find _ own) as [[]|]; reflexivity.
Qed.

Lemma prop_read : forall tag p v n', ~ In 58 tag -> prop_ok p -> same (prop_node tag p v) n' ->
  exists p', from_prop order n' = Some p' /\ kept_as (if ieq (lit "elist") tag then [] else trim v) p p'.
Proof.
  intros tag p v n' NC OK S. pose proof (own_prop p OK) as OW. pose proof prop_vocab as VO.
  destruct OK as (SO & LN & TN & LD & LU & LR & TY & TV). unfold from_prop.
  destruct (std_read order OR prop_keys (prop_attrs p) (p_std p) (prop_node tag p v) n' SO OW S eq_refl) as (s' & F & K).
  rewrite F. cbn [obind]. eexists. split; [reflexivity|]. unfold kept_as.
  cbn [p_std p_name p_desc p_unit p_ref p_type p_ro p_value].
  assert (TR : forall k, In k prop_keys -> attr_text order k n' = found (find (fun '(a, _) => ieq a k) (prop_attrs p))).
  { intros k IK. eapply text_read; eauto. }
  split; [exact K|]. unfold prop_attrs in TR.
  split; [rewrite TR by (cbn; auto 10)|split; [rewrite TR by (cbn; auto 10)|split; [rewrite TR by (cbn; auto 10)|
    split; [rewrite TR by (cbn; auto 10)|split; [rewrite TR by (cbn; auto 10)|split]]]]].
  - rewrite find_app_key. pose proof (found_text "name" (p_name p)) as X. unfold tight in TN. rewrite TN in X.
    destruct (find _ (text_attr "name" _)) as [[]|]; [exact X|].
    rewrite !find_app_key, !find_text_other, find_none_list, find_none_ro by reflexivity. exact X.
  - rewrite !find_app_key. rewrite (find_text_other "name") by reflexivity.
    pose proof (found_text "desc" (p_desc p)) as X.
    destruct (find _ (text_attr "desc" _)) as [[]|]; [exact X|].
    rewrite !find_text_other, find_none_list, find_none_ro by reflexivity. exact X.
  - rewrite !find_app_key. rewrite (find_text_other "name"), (find_text_other "desc"), find_none_list by reflexivity.
    pose proof (found_text "unit" (p_unit p)) as X.
    destruct (find _ (text_attr "unit" _)) as [[]|]; [exact X|].
    rewrite !find_text_other, find_none_ro by reflexivity. exact X.
  - rewrite !find_app_key. rewrite (find_text_other "name"), (find_text_other "desc"), (find_text_other "unit"), find_none_list by reflexivity.
    pose proof (found_text "unit_ref" (p_ref p)) as X.
    destruct (find _ (text_attr "unit_ref" _)) as [[]|]; [exact X|].
    rewrite find_none_ro by reflexivity. exact X.
  - rewrite !find_app_key. rewrite (find_text_other "name"), (find_text_other "desc"), (find_text_other "unit"), (find_text_other "unit_ref"), find_none_ro by reflexivity.
    rewrite <- (type_back (p_type p) TY). f_equal. f_equal. destruct (find _ (if p_type p =? 0 then _ else _)) as [[]|]; reflexivity.
  - unfold attr_bool. rewrite (attr_read prop_keys (prop_attrs p) (p_std p) (lit "ro") tag v [] n'); auto; [|cbn; auto 10].
    unfold prop_attrs. rewrite !find_app_key.
    rewrite (find_text_other "name"), (find_text_other "desc"), (find_text_other "unit"), (find_text_other "unit_ref"), find_none_list by reflexivity.
    destruct (p_ro p); reflexivity.
  - rewrite (value_same _ _ S). rewrite <- (same_is_tag (lit "elist") _ _ S). rewrite is_tag_plain by exact NC.
    cbn [prop_node x_tag vtext x_kids x_value]. reflexivity.
Qed.

(** ** Enumerates *)

Definition enum_node (e : menum) : xnode :=
  XNode (lit "elist") (std_attrs (prop_attrs (n_prop e)) (p_std (n_prop e))) []
    (map (str_node (lit "eli")) (filter has_text (n_values e))).
Lemma name_lit : forall s, name_okb (lit s) = true -> name_ok (lit s).
Proof. intros. apply name_okb_ok. auto. Qed.
Lemma colon_lit : forall s, forallb (fun c => negb (c =? 58)) (lit s) = true -> ~ In 58 (lit s).
Proof. intros. apply lit_no_colon. auto. Qed.

Lemma to_strs : forall ts, Forall str_ok ts ->
  concat (map (to_str (lit "eli")) ts) = map (str_node (lit "eli")) (filter has_text ts).
Proof.
  induction ts as [|t ts IH]; intros F; [reflexivity|]. inversion F; subst. cbn [map concat filter]. rewrite IH by auto.
  rewrite to_str_node; [|apply name_lit; reflexivity|vm_compute; discriminate|auto].
  change (beq (lit "eli") (lit "TX")) with false. unfold has_text at 2. destruct (t_text t) as [|c r]; [reflexivity|].
  rewrite beq_false by discriminate. reflexivity.
Qed.
Lemma to_enum_node : forall e, enum_ok e -> to_enum e = enum_node e.
Proof.
  intros e (PO & VO). unfold to_enum. rewrite to_prop_node; [|apply name_lit; reflexivity|apply colon_lit; reflexivity|auto].
  change (ieq (lit "elist") (lit "elist")) with true. cbv iota zeta. rewrite to_strs by auto. reflexivity.
Qed.
Lemma enum_node_ok : forall e, enum_ok e -> node_ok (enum_node e).
Proof.
  intros e (PO & VO). pose proof (own_prop _ PO) as OW. destruct PO as (SO & _). constructor.
  - apply name_lit. reflexivity.
  - apply keys_fst. eapply std_keys; eauto.
  - eapply std_fine; eauto.
  - apply text_nil.
  - apply Forall_forall. intros n I. apply in_map_iff in I. destruct I as (t & <- & I). apply filter_In in I.
    apply str_node_ok; [apply name_lit; reflexivity|]. rewrite Forall_forall in VO. apply VO. tauto.
Qed.

Lemma same_flat : forall t a v ks n', same (XNode t a v ks) n' -> exists v' ks', same (XNode t a v' []) (XNode t (x_attrs n') v' []) /\
  n' = XNode t (x_attrs n') (x_value n') ks' /\ Forall2 same ks ks'.
Proof.
  intros t a v ks n' S. pose proof (same_attrs _ _ S) as P. pose proof (same_kids _ _ S) as K. pose proof (same_tag _ _ S) as T.
  cbn [x_tag x_attrs x_kids] in *. exists [], (x_kids n'). destruct n' as [t' a' v' ks']. cbn [x_tag x_attrs x_value x_kids] in *. subst t'.
  split; [constructor; exact P|]. split; [reflexivity|exact K].
Qed.

Lemma from_prop_attrs : forall n m, x_tag n = x_tag m -> x_attrs n = x_attrs m -> is_tag (lit "elist") n = true ->
  from_prop order n = from_prop order m.
Proof.
  intros [t a v ks] [t' a' v' ks'] T A E. cbn [x_tag x_attrs] in *. subst. unfold from_prop. 
  assert (E' : is_tag (lit "elist") (XNode t' a' v' ks') = true) by exact E. rewrite E, E'. reflexivity.
Qed.

Lemma enum_read : forall e n', enum_ok e -> same (enum_node e) n' -> exists e', from_enum order n' = Some e' /\ kept_enum e e'.
Proof.
  intros e n' (PO & VO) S. destruct (same_flat _ _ _ _ _ S) as (v0 & ks' & SF & EN & SK).
  set (m := XNode (lit "elist") (x_attrs n') v0 []).
  assert (NC : ~ In 58 (lit "elist")) by (apply colon_lit; reflexivity).
  destruct (prop_read (lit "elist") (n_prop e) v0 m NC PO SF) as (p' & FP & KP).
  change (ieq (lit "elist") (lit "elist")) with true in KP. cbv iota in KP.
  assert (EL : is_tag (lit "elist") n' = true).
  { rewrite EN. reflexivity. }
  unfold from_enum. assert (ET : x_tag n' = x_tag m) by (rewrite EN; reflexivity).
  rewrite (from_prop_attrs n' m ET eq_refl EL).
  rewrite FP. cbn [obind]. eexists. split; [reflexivity|]. split; [exact KP|]. cbn [n_values].
  rewrite EN. cbn [x_kids]. clear - SK VO OR. revert ks' SK. induction (n_values e) as [|t ts IH]; intros ks' SK.
  - cbn [filter map] in SK. inversion SK; subst. constructor.
  - inversion VO; subst. cbn [filter] in *. destruct (has_text t).
    + cbn [map] in SK. inversion SK as [|? k' ? r' S1 S2]; subst. cbn [filter].
      assert (is_tag (lit "eli") k' = true) as -> by (rewrite <- (same_is_tag _ _ _ S1); reflexivity).
      cbn [map]. constructor; [eapply str_read; eauto|auto].
    + auto.
Qed.

End Order.
