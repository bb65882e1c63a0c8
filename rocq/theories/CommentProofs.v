(** Proofs about typed comments, part 1: maps, attributes, texts. *)
From Coq Require Import String Permutation Sorting.Sorted Lia.
From Verif Require Import Base BlockModel TextSpec XmlModel XmlSpec XmlProofs XmlProofs2 XmlProofs3 XmlProofs4 XmlProofs5
  CommentModel CommentSpec.
Local Open Scope N_scope.
Local Open Scope list_scope.

(* ------------------------------------------------------------------ *)
(** ** Maps *)

Lemma sless_lt : forall a b, sless a b = true <-> text_lt a b.
Proof.
  induction a as [|x a IH]; intros [|y b]; cbn [sless]; split; intros H; try discriminate; try inversion H; subst.
  - constructor.
  - reflexivity.
  - destruct (N.ltb_spec x y); [constructor; auto|]. destruct (N.ltb_spec y x); [discriminate|].
    assert (x = y) as -> by lia. apply lt_tail, IH, H.
  - destruct (N.ltb_spec x y); [reflexivity|lia].
  - rewrite N.ltb_irrefl. apply IH. auto.
Qed.
Lemma lt_irrefl : forall a, ~ text_lt a a.
Proof. induction a as [|x a IH]; intros H; inversion H; subst; [lia|auto]. Qed.
Lemma lt_trans : forall a b c, text_lt a b -> text_lt b c -> text_lt a c.
Proof.
  intros a b c H. revert c. induction H as [c0 b|x y a b L|x a b L IH]; intros c G; inversion G; subst; try constructor; auto; lia.
Qed.
Lemma lt_total : forall a b, {text_lt a b} + {a = b} + {text_lt b a}.
Proof.
  intros a b. destruct (sless a b) eqn:E; [left; left; apply sless_lt; auto|].
  destruct (sless b a) eqn:F; [right; apply sless_lt; auto|]. left. right.
  revert b E F. induction a as [|x a IH]; intros [|y b]; cbn [sless]; intros E F; try discriminate; auto.
  destruct (N.ltb_spec x y); [discriminate|]. destruct (N.ltb_spec y x); [discriminate|].
  assert (x = y) as -> by lia. rewrite (IH b); auto.
Qed.
Lemma sless_false : forall a b, ~ text_lt a b -> sless a b = false.
Proof. intros a b H. destruct (sless a b) eqn:E; auto. apply sless_lt in E. contradiction. Qed.

Lemma has_key_in : forall {A} (key : A -> list N) k l, has_key key k l = true <-> In k (map key l).
Proof.
  intros. unfold has_key. rewrite existsb_exists, in_map_iff. split; intros (x & H1 & H2).
  - exists x. apply beq_true in H2. auto.
  - exists x. split; auto. apply beq_true. auto.
Qed.
Lemma has_key_false : forall {A} (key : A -> list N) k l, has_key key k l = false <-> ~ In k (map key l).
Proof. intros. rewrite <- has_key_in. destruct (has_key key k l); split; intros; congruence. Qed.

Lemma emplace_in : forall {A} (key : A -> list N) x l, ~ In (key x) (map key l) ->
  forall y, In y (emplace key x l) <-> y = x \/ In y l.
Proof.
  intros A key x l. induction l as [|z l IH]; intros NI y; cbn [emplace].
  - cbn. intuition congruence.
  - destruct (sless (key x) (key z)) eqn:E; [cbn; intuition congruence|].
    destruct (sless (key z) (key x)) eqn:F.
    + cbn [In]. rewrite IH by (intros I; apply NI; right; auto). intuition congruence.
    + exfalso. apply NI. left. destruct (lt_total (key x) (key z)) as [[L|L]|L]; auto;
        apply sless_lt in L; congruence.
Qed.
Lemma emplace_keys : forall {A} (key : A -> list N) x l, ~ In (key x) (map key l) ->
  forall k, In k (map key (emplace key x l)) <-> k = key x \/ In k (map key l).
Proof.
  intros A key x l NI k. rewrite !in_map_iff. split.
  - intros (y & E & I). apply emplace_in in I; auto. destruct I as [->|I]; [left; auto|right; exists y; auto].
  - intros [->|(y & E & I)]; [exists x|exists y]; split; auto; apply emplace_in; auto.
Qed.
Lemma emplace_keys_sub : forall {A} (key : A -> list N) x l k, In k (map key (emplace key x l)) -> k = key x \/ In k (map key l).
Proof.
  intros A key x l k. induction l as [|z l IH]; cbn [emplace]; [cbn; intuition|].
  destruct (sless (key x) (key z)); [cbn; intuition|]. destruct (sless (key z) (key x)); [|auto].
  cbn [map In]. intuition.
Qed.
Lemma emplace_ascending : forall {A} (key : A -> list N) x l, ascending (map key l) -> ascending (map key (emplace key x l)).
Proof.
  intros A key x l. unfold ascending. induction l as [|z l IH]; intros S; cbn [emplace].
  - cbn. repeat constructor.
  - inversion S as [|? ? S' F]; subst. destruct (sless (key x) (key z)) eqn:E.
    + apply sless_lt in E. cbn [map]. constructor; [exact S|]. constructor; auto.
      eapply Forall_impl; [|exact F]. intros k L. eapply lt_trans; eauto.
    + destruct (sless (key z) (key x)) eqn:G; [|exact S]. apply sless_lt in G. cbn [map]. constructor; auto.
      apply Forall_forall. intros k I. apply emplace_keys_sub in I. destruct I as [->|I]; auto.
      rewrite Forall_forall in F. auto.
Qed.
Lemma emplace_last : forall {A} (key : A -> list N) x l, Forall (fun k => text_lt k (key x)) (map key l) ->
  emplace key x l = l ++ [x].
Proof.
  intros A key x l. induction l as [|z l IH]; intros F; [reflexivity|]. cbn [emplace map] in *. inversion F; subst.
  rewrite sless_false by (intros L; apply (lt_irrefl (key x)); eapply lt_trans; eauto).
  apply sless_lt in H1. rewrite H1. cbn [app]. rewrite IH; auto.
Qed.
Lemma ascending_app : forall a b, ascending (a ++ b) -> ascending a /\ ascending b /\ (forall x y, In x a -> In y b -> text_lt x y).
Proof.
  unfold ascending. induction a as [|x a IH]; intros b S; cbn [app] in S.
  - repeat split; [constructor|auto|intros ? ? []].
  - inversion S as [|? ? S' F]; subst. destruct (IH _ S') as (A & B & C). rewrite Forall_app in F. destruct F as [F1 F2].
    repeat split; [constructor; auto|auto|]. intros y z [->|I] J; [rewrite Forall_forall in F2; auto|auto].
Qed.
Lemma ascending_nodup : forall l, ascending l -> NoDup l.
Proof.
  unfold ascending. induction l as [|x l IH]; intros S; [constructor|]. inversion S; subst. constructor; auto.
  intros I. rewrite Forall_forall in H2. apply (lt_irrefl x). auto.
Qed.

(* ------------------------------------------------------------------ *)
(** ** Setting attributes *)

Definition add_attr (l : list (list N * list N)) (a : list N * list N) : list (list N * list N) :=
  if existsb (fun '(b, _) => beq b (fst a)) l then l else l ++ [a].
Lemma set_attr_add : forall k v n, x_attrs (set_attr k v n) = add_attr (x_attrs n) (k, v).
Proof. reflexivity. Qed.
Lemma has_attr : forall k (l : list (list N * list N)), existsb (fun '(b, _) => beq b k) l = true <-> In k (map fst l).
Proof.
  intros. rewrite existsb_exists, in_map_iff. split.
  - intros ([b v] & I & E). apply beq_true in E. exists (b, v). auto.
  - intros ([b v] & E & I). exists (b, v). split; auto. apply beq_true. auto.
Qed.
Lemma add_attr_new : forall l a, ~ In (fst a) (map fst l) -> add_attr l a = l ++ [a].
Proof.
  intros l a NI. unfold add_attr. destruct (existsb _ l) eqn:E; [|reflexivity]. apply has_attr in E. contradiction.
Qed.
Lemma add_attr_old : forall l a, In (fst a) (map fst l) -> add_attr l a = l.
Proof. intros l a I. unfold add_attr. apply has_attr in I. rewrite I. reflexivity. Qed.

Definition absent (l : list (list N * list N)) (a : list N * list N) : bool := negb (existsb (fun '(b, _) => beq b (fst a)) l).
Lemma absent_iff : forall l a, absent l a = true <-> ~ In (fst a) (map fst l).
Proof. intros. unfold absent. rewrite <- has_attr. destruct (existsb _ l); cbn; split; intros; congruence. Qed.

Lemma add_attrs : forall l2 l1, NoDup (map fst l2) -> fold_left add_attr l2 l1 = l1 ++ filter (absent l1) l2.
Proof.
  induction l2 as [|a l2 IH]; intros l1 ND; cbn [fold_left filter]; [rewrite app_nil_r; reflexivity|].
  inversion ND; subst. rewrite IH; auto. destruct (absent l1 a) eqn:E.
  - apply absent_iff in E. rewrite add_attr_new by auto. rewrite <- app_assoc. cbn [app]. f_equal. f_equal.
    apply filter_ext_in. intros b I. unfold absent. rewrite existsb_app. cbn [existsb]. destruct a as [k v].
    rewrite beq_false, !Bool.orb_false_r; auto. cbn [fst]. intros X. apply H1. cbn [fst]. rewrite X. apply in_map. auto.
  - assert (In (fst a) (map fst l1)).
    { apply has_attr. unfold absent in E. destruct (existsb _ l1); auto; discriminate. }
    rewrite add_attr_old; auto.
Qed.

Definition ci_attr (s : std) : list (list N * list N) := if 0 <? s_ci s then [(lit "ci", int_text (Z.of_N (s_ci s)))] else [].
Definition lang_attr (s : std) : list (list N * list N) := text_attr "xml:lang" (s_lang s).
Definition std_attrs (own : list (list N * list N)) (s : std) : list (list N * list N) :=
  own ++ ci_attr s ++ lang_attr s ++ filter (absent own) (s_cust s).

Lemma set_attrs_shape : forall l n, let r := fold_left (fun n '(k, v) => set_attr k v n) l n in
  x_tag r = x_tag n /\ x_value r = x_value n /\ x_kids r = x_kids n /\ x_attrs r = fold_left add_attr l (x_attrs n).
Proof.
  induction l as [|[k v] l IH]; intros n; cbn [fold_left]; [auto|].
  destruct (IH (set_attr k v n)) as (A & B & C & D). cbv zeta in *. rewrite A, B, C, D. auto.
Qed.
Lemma set_text_shape : forall k v n, x_attrs (set_text (lit k) v n) = fold_left add_attr (text_attr k v) (x_attrs n).
Proof. intros k [|c v] n; reflexivity. Qed.

Lemma put_std_shape : forall s n, x_tag (put_std s n) = x_tag n /\ x_value (put_std s n) = x_value n /\
  x_kids (put_std s n) = x_kids n /\
  x_attrs (put_std s n) = fold_left add_attr (ci_attr s ++ lang_attr s ++ s_cust s) (x_attrs n).
Proof.
  intros s n. unfold put_std. rewrite !fold_left_app.
  edestruct (set_attrs_shape (s_cust s)) as (A & B & C & D). cbv zeta in *. rewrite A, B, C, D.
  rewrite set_text_tag, set_text_value, set_text_kids, set_text_shape. unfold ci_attr, lang_attr.
  destruct (0 <? s_ci s); auto.
Qed.

Lemma NoDup_app_intro : forall {A} (l1 l2 : list A), NoDup l1 -> NoDup l2 -> (forall x, In x l1 -> In x l2 -> False) -> NoDup (l1 ++ l2).
Proof.
  intros A l1 l2 N1 N2 D. induction l1 as [|x l1 IH]; [exact N2|]. inversion N1; subst. cbn [app]. constructor.
  - intros I. apply in_app_or in I. destruct I as [I|I]; auto. apply (D x); auto. left. auto.
  - apply IH; auto. intros y I J. apply (D y); auto. right. auto.
Qed.

Definition own_ok (reserved : list (list N)) (own : list (list N * list N)) : Prop :=
  NoDup (keys own) /\ Forall (fun a => In (fst a) reserved /\ name_ok (fst a) /\ line_ok (snd a) /\
    ~ alike (fst a) (lit "ci") /\ ~ alike (fst a) (lit "xml:lang")) own.

Lemma keys_fst : forall l, NoDup (keys l) -> NoDup (map fst l).
Proof.
  unfold keys. intros l. rewrite <- (map_map fst (map small)). apply NoDup_map_inv.
Qed.
Lemma filter_keys : forall f l, NoDup (keys l) -> NoDup (keys (filter f l)).
Proof.
  intros f l. induction l as [|a l IH]; intros ND; cbn [filter]; [constructor|]. inversion ND; subst.
  destruct (f a); auto. cbn [keys map]. constructor; auto. intros I. apply H1. unfold keys in *. apply in_map_iff in I.
  destruct I as (b & E & I). apply filter_In in I. apply in_map_iff. exists b. tauto.
Qed.
Lemma in_keys : forall l k, In (map small k) (keys l) <-> exists a, In a l /\ alike (fst a) k.
Proof.
  intros. unfold keys. rewrite in_map_iff. split; intros (a & A & B); exists a; auto.
Qed.

(** The attributes that were set. *)
Lemma std_written : forall reserved own s n, std_ok reserved own s -> own_ok reserved own -> x_attrs n = own ->
  x_attrs (put_std s n) = std_attrs own s.
Proof.
  intros reserved own s n (CI & LA & ND & CU & RE) (ON & OF) E.
  destruct (put_std_shape s n) as (_ & _ & _ & ->). rewrite E.
  assert (NL : forall a, In a own \/ In a (s_cust s) -> ~ alike (fst a) (lit "ci") /\ ~ alike (fst a) (lit "xml:lang")).
  { intros a [I|I]; [rewrite Forall_forall in OF; apply OF in I|rewrite Forall_forall in CU; apply CU in I]; tauto. }
  assert (C1 : forall a, In a (ci_attr s) -> fst a = lit "ci").
  { intros a. unfold ci_attr. destruct (0 <? s_ci s); cbn; intuition; subst; reflexivity. }
  assert (L1 : forall a, In a (lang_attr s) -> fst a = lit "xml:lang").
  { intros a. unfold lang_attr, text_attr. destruct (s_lang s); cbn; intuition; subst; reflexivity. }
  rewrite add_attrs.
  - rewrite !filter_app. unfold std_attrs. f_equal. f_equal; [|f_equal].
    + assert (G : forall a, In a (ci_attr s) -> absent own a = true).
      { intros a I. apply absent_iff. rewrite (C1 _ I). intros J. apply in_map_iff in J. destruct J as (b & F & J).
        destruct (NL b) as [X _]; auto. apply X. rewrite F. apply alike_refl. }
      induction (ci_attr s) as [|a l IH]; [reflexivity|]. cbn [filter]. rewrite G by (left; auto). f_equal. apply IH; intros; [apply C1|apply G]; right; auto.
    + assert (G : forall a, In a (lang_attr s) -> absent own a = true).
      { intros a I. apply absent_iff. rewrite (L1 _ I). intros J. apply in_map_iff in J. destruct J as (b & F & J).
        destruct (NL b) as [_ X]; auto. apply X. rewrite F. apply alike_refl. }
      induction (lang_attr s) as [|a l IH]; [reflexivity|]. cbn [filter]. rewrite G by (left; auto). f_equal. apply IH; intros; [apply L1|apply G]; right; auto.
  - apply keys_fst in ND. rewrite !map_app.
    assert (NC : forall k, In k (map fst (s_cust s)) -> k <> lit "ci" /\ k <> lit "xml:lang").
    { intros k I. apply in_map_iff in I. destruct I as (a & <- & I). destruct (NL a) as [X Y]; auto.
      split; intros Z; [apply X|apply Y]; rewrite Z; apply alike_refl. }
    unfold ci_attr, lang_attr, text_attr.
    destruct (0 <? s_ci s); destruct (s_lang s); cbn [map fst app]; auto.
    + constructor; auto. intros I. apply NC in I. tauto.
    + constructor; [|constructor; auto; intros I; apply NC in I; tauto].
      intros [X|I]; [revert X; vm_compute; discriminate|apply NC in I; tauto].
    + constructor; auto. intros I. apply NC in I. tauto.
Qed.

Lemma std_keys : forall reserved own s, std_ok reserved own s -> own_ok reserved own -> NoDup (keys (std_attrs own s)).
Proof.
  intros reserved own s (CI & LA & ND & CU & RE) (ON & OF).
  assert (NL : forall a, In a own \/ In a (s_cust s) -> ~ alike (fst a) (lit "ci") /\ ~ alike (fst a) (lit "xml:lang")).
  { intros a [I|I]; [rewrite Forall_forall in OF; apply OF in I|rewrite Forall_forall in CU; apply CU in I]; tauto. }
  assert (AP : forall l1 l2, NoDup (keys l1) -> NoDup (keys l2) ->
    (forall a b, In a l1 -> In b l2 -> ~ alike (fst a) (fst b)) -> NoDup (keys (l1 ++ l2))).
  { intros l1 l2 A B D. unfold keys. rewrite map_app. apply NoDup_app_intro; auto. intros k I J.
    apply in_map_iff in I. destruct I as (a & <- & I). apply in_map_iff in J. destruct J as (b & E & J).
    apply (D a b); auto. symmetry. exact E. }
  assert (C1 : forall a, In a (ci_attr s) -> fst a = lit "ci").
  { intros a. unfold ci_attr. destruct (0 <? s_ci s); cbn; intuition; subst; reflexivity. }
  assert (L1 : forall a, In a (lang_attr s) -> fst a = lit "xml:lang").
  { intros a. unfold lang_attr, text_attr. destruct (s_lang s); cbn; intuition; subst; reflexivity. }
  unfold std_attrs. apply AP; auto; [apply AP; [|apply AP|]|].
  - unfold ci_attr. destruct (0 <? s_ci s); cbn; repeat constructor. intros [].
  - unfold lang_attr, text_attr. destruct (s_lang s); cbn; repeat constructor. intros [].
  - apply filter_keys. exact ND.
  - intros a b I J A. apply filter_In in J. rewrite (L1 _ I) in A. destruct (NL b) as [_ X]; [tauto|].
    apply X, alike_sym, A.
  - intros a b I J A. rewrite (C1 _ I) in A. apply in_app_or in J. destruct J as [J|J].
    + rewrite (L1 _ J) in A. revert A. vm_compute. discriminate.
    + apply filter_In in J. destruct (NL b) as [X _]; [tauto|]. apply X, alike_sym, A.
  - intros a b I J A. destruct (NL a) as [X Y]; auto. apply in_app_or in J. destruct J as [J|J].
    { rewrite (C1 _ J) in A. auto. }
    apply in_app_or in J. destruct J as [J|J].
    { rewrite (L1 _ J) in A. auto. }
    apply filter_In in J. destruct J as [J F]. apply absent_iff in F. apply F.
    rewrite Forall_forall in OF. destruct (OF a I) as (R & _). destruct b as [k v].
    apply (RE k v (fst a)); auto. apply alike_sym, A.
Qed.

Lemma line_lit : forall s, forallb (fun c => (32 <=? c) && (c <? 128)) s = true -> line_ok s.
Proof.
  intros s H. apply ascii_line. rewrite forallb_forall in H. apply Forall_forall. intros c I. apply H in I.
  apply andb_prop in I. destruct I as [A B]. apply N.leb_le in A. apply N.ltb_lt in B. lia.
Qed.

Lemma std_fine : forall reserved own s, std_ok reserved own s -> own_ok reserved own ->
  Forall (fun a => name_ok (fst a) /\ line_ok (snd a)) (std_attrs own s).
Proof.
  intros reserved own s (CI & LA & ND & CU & RE) (ON & OF). unfold std_attrs. rewrite !Forall_app. repeat split.
  - eapply Forall_impl; [|exact OF]. intros a. cbv beta. tauto.
  - unfold ci_attr. destruct (0 <? s_ci s); constructor; [|constructor]. cbn [fst snd]. split; [apply name_okb_ok; reflexivity|apply int_line].
  - unfold lang_attr, text_attr. destruct (s_lang s) eqn:E; constructor; [|constructor]. cbn [fst snd].
    split; [apply name_okb_ok; reflexivity|exact LA].
  - apply Forall_forall. intros a I. apply filter_In in I. rewrite Forall_forall in CU. destruct (CU a); tauto.
Qed.
