(** Proofs about typed comments, part 2: reading attributes, texts and properties. *)
From Coq Require Import String Permutation Sorting.Sorted Lia.
From Verif Require Import Base BlockModel TextSpec XmlModel XmlSpec XmlProofs XmlProofs2 XmlProofs3 XmlProofs4 XmlProofs5
  CommentModel CommentSpec CommentProofs.
Local Open Scope N_scope.
Local Open Scope list_scope.

Lemma int_head : forall z, exists c r, int_text z = c :: r /\ is_space c = false /\
  ((z < 0)%Z -> c = 45 /\ exists d r', r = d :: r' /\ 48 <= d <= 57) /\ ((0 <= z)%Z -> 48 <= c <= 57).
Proof.
  intros z. unfold int_text. pose proof (uint_bytes_range (N.to_uint (Z.abs_N z))) as F.
  pose proof (uint_bytes_nil (Z.abs_N z)) as NN. destruct (uint_bytes _) as [|d r] eqn:E; [contradiction|].
  inversion F as [|? ? D _]; subst. destruct (Z.ltb_spec z 0).
  - exists 45, (d :: r). split; [reflexivity|]. split; [reflexivity|]. split; [|lia]. intros _. split; auto. exists d, r. auto.
  - exists d, r. split; [reflexivity|]. split; [|split; [lia|intros; exact D]].
    unfold is_space. destruct (N.eqb_spec d 32); [lia|]. cbn [orb]. destruct (N.leb_spec 9 d), (N.leb_spec d 13); auto; lia.
Qed.
Lemma stoll_int : forall z, (- 2 ^ 63 <= z < 2 ^ 63)%Z -> stoll (int_text z) = Some z.
Proof.
  intros z R. unfold stoll. destruct (int_head z) as (c & r & E & SP & NEG & POS).
  assert (L : ltrim (int_text z) = int_text z) by (rewrite E; cbn [ltrim]; rewrite SP; reflexivity).
  rewrite L, read_int_text. rewrite E.
  assert (B : ((- 2 ^ 63 <=? z) && (z <? 2 ^ 63))%Z = true)
    by (apply andb_true_intro; split; [apply Z.leb_le|apply Z.ltb_lt]; lia).
  rewrite B. destruct (Z.ltb_spec z 0) as [LT|GE].
  - destruct (NEG LT) as (-> & d & r' & -> & D). change ((45 =? 45) || (45 =? 43)) with true. cbv iota beta.
    destruct (N.leb_spec 48 d), (N.leb_spec d 57); cbn [andb]; try lia. reflexivity.
  - specialize (POS GE). destruct (N.eqb_spec c 45); [lia|]. destruct (N.eqb_spec c 43); [lia|]. cbn [orb].
    destruct (N.leb_spec 48 c), (N.leb_spec c 57); cbn [andb]; try lia. reflexivity.
Qed.

Lemma attr_map_fold : forall (l m : list (list N * list N)), NoDup (map fst l) -> Forall (fun a => fst a <> []) l ->
  (forall k, In k (map fst l) -> ~ In k (map fst m)) -> ascending (map fst m) ->
  let r := fold_left (fun m a => match fst a with [] => m | _ => emplace fst a m end) l m in
  ascending (map fst r) /\ forall a, In a r <-> In a m \/ In a l.
Proof.
  induction l as [|a l IH]; intros m ND NE DJ AS r.
  - split; [exact AS|]. subst r. cbn. intuition.
  - inversion ND; subst. inversion NE; subst. subst r. cbn [fold_left]. destruct (fst a) as [|c k] eqn:EK; [congruence|].
    assert (NI : ~ In (fst a) (map fst m)) by (apply DJ; left; auto).
    destruct (IH (emplace fst a m)) as (X & Y); auto.
    + intros k' I J. apply emplace_keys in J; auto. destruct J as [->|J]; [rewrite EK in I; contradiction|].
      apply (DJ k'); auto. right. auto.
    + apply emplace_ascending. auto.
    + split; [exact X|]. intros b. rewrite Y, emplace_in by auto. cbn [In]. intuition congruence.
Qed.
Section Order.
Context (order : list (list N * list N) -> list (list N * list N)) (OR : any_order order).

Lemma attr_map_same : forall n n', same n n' -> NoDup (map fst (x_attrs n)) -> Forall (fun a => name_ok (fst a)) (x_attrs n) ->
  ascending (map fst (attr_map order n')) /\ forall a, In a (attr_map order n') <-> In a (x_attrs n).
Proof.
  intros n n' S ND NO. assert (P : Permutation (x_attrs n) (order (x_attrs n'))).
  { eapply perm_trans; [apply same_attrs; exact S|apply OR]. }
  destruct (attr_map_fold (order (x_attrs n')) []) as (X & Y).
  - eapply Permutation_NoDup; [apply Permutation_map; exact P|exact ND].
  - apply Forall_forall. intros a I. apply Permutation_sym in P. pose proof (Permutation_in _ P I) as J.
    rewrite Forall_forall in NO. specialize (NO a J). destruct (fst a); [contradiction|discriminate].
  - intros k _ [].
  - constructor.
  - split; [exact X|]. intros a. unfold attr_map. rewrite Y. cbn [In]. split.
    + intros [[]|I]. eapply Permutation_in; [apply Permutation_sym; exact P|exact I].
    + intros I. right. eapply Permutation_in; [exact P|exact I].
Qed.

Lemma add_custom_name : forall k v s, name_ok k -> add_custom k v s = mkStd (s_ci s) (s_lang s) (emplace fst (k, v) (s_cust s)).
Proof. intros k v s NK. unfold add_custom. rewrite name_trim by auto. destruct k; [contradiction|reflexivity]. Qed.

Lemma read_fold : forall c, c < 2 ^ 63 -> forall L s0, NoDup (map fst L) -> Forall (fun a => name_ok (fst a)) L ->
  (forall v, In (lit "ci", v) L -> v = int_text (Z.of_N c)) ->
  (forall k, In k (map fst L) -> ~ In k (map fst (s_cust s0))) -> ascending (map fst (s_cust s0)) ->
  exists s', fold_left (fun r a => obind r (fun s => read_attr s a)) L (Some s0) = Some s' /\
    ((exists v, In (lit "ci", v) L) -> s_ci s' = c) /\ ((forall v, ~ In (lit "ci", v) L) -> s_ci s' = s_ci s0) /\
    (forall v, In (lit "xml:lang", v) L -> s_lang s' = v) /\ ((forall v, ~ In (lit "xml:lang", v) L) -> s_lang s' = s_lang s0) /\
    ascending (map fst (s_cust s')) /\
    (forall k v, In (k, v) (s_cust s') <-> In (k, v) (s_cust s0) \/ (In (k, v) L /\ k <> lit "ci" /\ k <> lit "xml:lang")).
Proof.
  intros c CB. induction L as [|[k v] L IH]; intros s0 ND NO CI DJ AS.
  - exists s0. split; [reflexivity|]. split; [intros (v & []) |]. split; [auto|]. split; [intros v []|]. split; [auto|].
    split; [exact AS|]. intros k v. cbn [In]. tauto.
  - inversion ND as [|? ? NI ND']; subst. inversion NO as [|? ? NK NO']; subst. cbn [fst] in NI, NK.
    cbn [fold_left obind]. unfold read_attr at 2.
    assert (NL : forall v', ~ In (k, v') L) by (intros v' I; apply NI; apply (in_map fst) in I; exact I).
    destruct (beq k (lit "ci")) eqn:EC.
    + apply beq_true in EC. subst k. assert (v = int_text (Z.of_N c)) as -> by (apply CI; left; auto).
      assert (NE : negb (beq (int_text (Z.of_N c)) []) = true).
      { destruct (int_head (Z.of_N c)) as (d & r & -> & _). reflexivity. }
      rewrite NE. cbn [andb]. rewrite stoll_int by lia. cbn [obind].
      assert (U : as_u64 (Z.of_N c) = c).
      { unfold as_u64. rewrite Z.mod_small by lia. apply N2Z.id. }
      rewrite U. destruct (IH (mkStd c (s_lang s0) (s_cust s0))) as (s' & F & C1 & C2 & L1 & L2 & A1 & M); auto.
      { intros v I. apply CI. right. auto. }
      { intros k' I. apply DJ. right. auto. }
      exists s'. split; [exact F|]. cbn [s_ci s_lang s_cust] in *.
      split; [intros _; apply C2; intros v I; exact (NL v I)|]. split; [intros X; exfalso; apply (X (int_text (Z.of_N c))); left; auto|].
      split; [intros v [X|I]; [exfalso; assert (Y : lit "ci" = lit "xml:lang") by congruence; revert Y; vm_compute; discriminate|auto]|].
      split; [intros X; apply L2; intros v I; apply (X v); right; auto|]. split; [exact A1|].
      intros k v. rewrite M. cbn [In]. split; [intros [I|I]; [auto|right; tauto]|]. intros [I|([X|I] & N1 & N2)]; [auto| |auto].
      exfalso. apply N1. congruence.
    + cbn [andb]. assert (KC : k <> lit "ci") by (intros X; apply beq_true in X; congruence).
      destruct (beq k (lit "xml:lang")) eqn:EL.
      * apply beq_true in EL. subst k. destruct (IH (mkStd (s_ci s0) v (s_cust s0))) as (s' & F & C1 & C2 & L1 & L2 & A1 & M); auto.
        { intros v' I. apply CI. right. auto. }
        { intros k' I. apply DJ. right. auto. }
        exists s'. split; [exact F|]. cbn [s_ci s_lang s_cust] in *.
        split; [intros (v' & [X|I]); [exfalso; congruence|apply C1; eauto]|].
        split; [intros X; apply C2; intros v' I; apply (X v'); right; auto|].
        split; [intros v' [X|I]; [rewrite L2; [congruence|auto]|exfalso; exact (NL v' I)]|].
        split; [intros X; exfalso; apply (X v); left; auto|]. split; [exact A1|].
        intros k v'. rewrite M. cbn [In]. split; [intros [I|I]; [auto|right; tauto]|]. intros [I|([X|I] & N1 & N2)]; [auto| |auto].
        exfalso. apply N2. congruence.
      * assert (KL : k <> lit "xml:lang") by (intros X; apply beq_true in X; congruence).
        rewrite add_custom_name by auto.
        assert (NC : ~ In k (map fst (s_cust s0))) by (apply DJ; left; auto).
        destruct (IH (mkStd (s_ci s0) (s_lang s0) (emplace fst (k, v) (s_cust s0)))) as (s' & F & C1 & C2 & L1 & L2 & A1 & M); auto.
        { intros v' I. apply CI. right. auto. }
        { cbn [s_cust]. intros k' I J. apply (emplace_keys fst (k, v)) in J; auto. cbn [fst] in J. destruct J as [->|J]; [contradiction|].
          apply (DJ k'); auto. right. auto. }
        { cbn [s_cust]. apply emplace_ascending. auto. }
        exists s'. split; [exact F|]. cbn [s_ci s_lang s_cust] in *.
        split; [intros (v' & [X|I]); [exfalso; congruence|apply C1; eauto]|].
        split; [intros X; apply C2; intros v' I; apply (X v'); right; auto|].
        split; [intros v' [X|I]; [exfalso; congruence|auto]|].
        split; [intros X; apply L2; intros v' I; apply (X v'); right; auto|]. split; [exact A1|].
        intros k' v'. rewrite M. rewrite (emplace_in fst (k, v)) by auto. cbn [In].
        split; [intros [[X|I]|I]|intros [I|([X|I] & N1 & N2)]]; try tauto.
        -- right. assert (k' = k) as -> by congruence. assert (v' = v) as -> by congruence. auto.
        -- left. left. congruence.
Qed.

(** Reading the attributes that [std_attrs] lists. *)
Lemma std_read : forall reserved own s n n', std_ok reserved own s -> own_ok reserved own -> same n n' ->
  x_attrs n = std_attrs own s ->
  exists s', from_std order n' std0 = Some s' /\ kept_std own s s'.
Proof.
  intros reserved own s n n' OK OW S E. pose proof (std_keys _ _ _ OK OW) as ND. pose proof (std_fine _ _ _ OK OW) as FI.
  assert (NO : Forall (fun a => name_ok (fst a)) (x_attrs n)).
  { rewrite E. eapply Forall_impl; [|exact FI]. intros a. cbv beta. tauto. }
  apply keys_fst in ND. rewrite <- E in ND. destruct (attr_map_same n n' S ND NO) as (AS & MEM).
  destruct OK as (CI & LA & NDC & CU & RE). destruct OW as (ON & OF).
  assert (NL : forall a, In a own \/ In a (s_cust s) -> fst a <> lit "ci" /\ fst a <> lit "xml:lang").
  { intros a I. assert (~ alike (fst a) (lit "ci") /\ ~ alike (fst a) (lit "xml:lang")) as [X Y].
    { destruct I as [I|I]; [rewrite Forall_forall in OF; apply OF in I|rewrite Forall_forall in CU; apply CU in I]; tauto. }
    split; intros Z; [apply X|apply Y]; rewrite Z; apply alike_refl. }
  assert (CL : lit "ci" <> lit "xml:lang") by (vm_compute; discriminate).
  assert (INA : forall k v, In (k, v) (attr_map order n') <->
    In (k, v) own \/ In (k, v) (ci_attr s) \/ In (k, v) (lang_attr s) \/ (In (k, v) (s_cust s) /\ ~ In k (map fst own))).
  { intros k v. rewrite MEM, E. unfold std_attrs. rewrite !in_app_iff, filter_In, absent_iff. cbn [fst]. reflexivity. }
  assert (INC : forall v, In (lit "ci", v) (attr_map order n') <-> In (lit "ci", v) (ci_attr s)).
  { intros v. rewrite INA. split; [|auto]. intros [I|[I|[I|[I _]]]]; auto; exfalso.
    - destruct (NL _ (or_introl I)) as [X _]. apply X. reflexivity.
    - unfold lang_attr, text_attr in I. destruct (s_lang s); [destruct I|]. destruct I as [I|[]]. congruence.
    - destruct (NL _ (or_intror I)) as [X _]. apply X. reflexivity. }
  assert (INL : forall v, In (lit "xml:lang", v) (attr_map order n') <-> In (lit "xml:lang", v) (lang_attr s)).
  { intros v. rewrite INA. split; [|auto]. intros [I|[I|[I|[I _]]]]; auto; exfalso.
    - destruct (NL _ (or_introl I)) as [_ X]. apply X. reflexivity.
    - unfold ci_attr in I. destruct (0 <? s_ci s); [|destruct I]. destruct I as [I|[]]. congruence.
    - destruct (NL _ (or_intror I)) as [_ X]. apply X. reflexivity. }
  destruct (read_fold (s_ci s) CI (attr_map order n') std0) as (s' & F & C1 & C2 & L1 & L2 & A1 & M).
  - apply ascending_nodup. exact AS.
  - apply Forall_forall. intros a I. apply MEM in I. rewrite Forall_forall in NO. auto.
  - intros v I. apply INC in I. unfold ci_attr in I. destruct (0 <? s_ci s); [|destruct I]. destruct I as [I|[]]. congruence.
  - intros k _ [].
  - constructor.
  - exists s'. split; [exact F|]. split; [|split; [|split; [exact A1|]]].
    + destruct (N.ltb_spec 0 (s_ci s)) as [P|P].
      * apply C1. exists (int_text (Z.of_N (s_ci s))). apply INC. unfold ci_attr. apply N.ltb_lt in P. rewrite P. left. reflexivity.
      * rewrite C2; [cbn; lia|]. intros v I. apply INC in I. unfold ci_attr in I. apply N.ltb_ge in P. rewrite P in I. destruct I.
    + destruct (s_lang s) as [|x y] eqn:EL.
      * apply L2. intros v I. apply INL in I. unfold lang_attr in I. rewrite EL in I. destruct I.
      * apply L1. apply INL. unfold lang_attr. rewrite EL. left. reflexivity.
    + intros k v. rewrite M. cbn [std0 s_cust In]. rewrite INA. split.
      * intros [[]|(I & N1 & N2)]. destruct I as [I|[I|[I|I]]]; auto; exfalso.
        -- unfold ci_attr in I. destruct (0 <? s_ci s); [|destruct I]. destruct I as [I|[]]. congruence.
        -- unfold lang_attr, text_attr in I. destruct (s_lang s); [destruct I|]. destruct I as [I|[]]. congruence.
      * intros I. right. assert (fst (k, v) <> lit "ci" /\ fst (k, v) <> lit "xml:lang") as [X Y].
        { apply NL. destruct I as [I|[I _]]; auto. }
        cbn [fst] in X, Y. split; [|auto]. destruct I as [I|I]; auto.
Qed.

(** The same for a text, whose tag has no attribute "offset". *)
Lemma str_fold : forall L s0 s' x o, (forall v, ~ In (lit "offset", v) L) ->
  fold_left (fun r a => obind r (fun s => read_attr s a)) L (Some s0) = Some s' ->
  fold_left read_str_attr L (mkStr s0 x o) = mkStr s' x o.
Proof.
  induction L as [|[k v] L IH]; intros s0 s' x o NO F; cbn [fold_left] in *; [congruence|].
  assert (NN : forall r, fold_left (fun r a => obind r (fun s => read_attr s a)) r None = None).
  { induction r as [|a r IHr]; [reflexivity|]. cbn [fold_left obind]. exact IHr. }
  cbn [obind] in F. assert (NO' : forall v', ~ In (lit "offset", v') L) by (intros v' I; apply (NO v'); right; auto).
  assert (KO : beq k (lit "offset") = false).
  { apply beq_false. intros ->. apply (NO v). left. reflexivity. }
  unfold read_attr at 2 in F. unfold read_str_attr at 2. cbn [t_std t_text t_off].
  destruct (beq k (lit "ci") && negb (beq v [])).
  - destruct (stoll v) as [z|]; cbn [obind] in F; [|rewrite NN in F; discriminate]. apply IH; auto.
  - destruct (beq k (lit "xml:lang")); [apply IH; auto|]. rewrite KO. apply IH; auto.
Qed.

Lemma new_node_shape : forall t, name_ok t -> new_node t = XNode t [] [] [].
Proof. intros t NT. unfold new_node. rewrite name_trim by auto. reflexivity. Qed.

Lemma own_nil : forall reserved, own_ok reserved [].
Proof. intros. split; constructor. Qed.

(** ** Texts *)

Definition str_node (tag : list N) (t : mstr) : xnode := XNode tag (std_attrs [] (t_std t)) (t_text t) [].
Lemma to_str_node : forall tag t, name_ok tag -> tag <> lit "linker_name" -> str_ok t ->
  to_str tag t = if negb (beq (t_text t) []) || beq tag (lit "TX") then [str_node tag t] else [].
Proof.
  intros tag t NT LN (SO & TO). unfold to_str. destruct (_ || _); [|reflexivity]. f_equal.
  assert (E : put_std (t_std t) (set_value (t_text t) (new_node tag)) = str_node tag t).
  { rewrite new_node_shape by auto. cbn [set_value x_tag x_attrs x_kids].
    pose proof (std_written _ _ _ (XNode tag [] (t_text t) []) SO (own_nil _) eq_refl) as W.
    destruct (put_std_shape (t_std t) (XNode tag [] (t_text t) [])) as (A & B & C & _).
    destruct (put_std _ _) as [tg at_ vl ks]. cbn [x_tag x_attrs x_value x_kids] in *. unfold str_node. congruence. }
  rewrite E. destruct (t_off t); [|reflexivity]. rewrite beq_false by auto. reflexivity.
Qed.
Lemma str_node_ok : forall tag t, name_ok tag -> str_ok t -> node_ok (str_node tag t).
Proof.
  intros tag t NT (SO & TO). constructor; auto.
  - apply keys_fst. eapply std_keys; [exact SO|apply own_nil].
  - eapply std_fine; [exact SO|apply own_nil].
Qed.
Lemma str_read : forall tag t n', str_ok t -> same (str_node tag t) n' -> kept_str t (from_str order n' mstr0).
Proof.
  intros tag t n' (SO & TO) S.
  destruct (std_read text_keys [] (t_std t) (str_node tag t) n' SO (own_nil _) S eq_refl) as (s' & F & K).
  unfold from_str. unfold from_std in F.
  assert (NOFF : forall v, ~ In (lit "offset", v) (attr_map order n')).
  { intros v I. pose proof (std_fine _ _ _ SO (own_nil text_keys)) as FI.
    destruct (attr_map_same (str_node tag t) n' S) as (_ & MEM).
    - apply keys_fst. eapply std_keys; [exact SO|apply own_nil].
    - eapply Forall_impl; [|exact FI]. intros a. cbv beta. tauto.
    - apply MEM in I. cbn [str_node x_attrs] in I. unfold std_attrs in I. cbn [app] in I. rewrite !in_app_iff, filter_In in I.
      destruct SO as (_ & _ & _ & _ & RE). destruct I as [I|[I|[I _]]].
      + unfold ci_attr in I. destruct (0 <? _); [|destruct I]. destruct I as [I|[]]. assert (X : lit "ci" = lit "offset") by congruence. revert X. vm_compute. discriminate.
      + unfold lang_attr, text_attr in I. destruct (s_lang _); [destruct I|]. destruct I as [I|[]]. assert (X : lit "xml:lang" = lit "offset") by congruence. revert X. vm_compute. discriminate.
      + apply (RE _ _ (lit "offset") I); [left; reflexivity|apply alike_refl]. }
  pose proof (str_fold _ _ _ [] None NOFF F) as G. change (mkStr std0 [] None) with mstr0 in G. rewrite G.
  cbn [t_std t_off]. split; [exact K|]. split; [|reflexivity]. cbn [t_text]. rewrite (value_same _ _ S). reflexivity.
Qed.

End Order.
