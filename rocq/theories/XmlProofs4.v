(** Proofs about XmlModel.v: the trees that the calls make, and single calls. *)
From Coq Require Import String Permutation DecimalN.
From Verif Require Import Base BlockModel BlockSpec BlockProofs TextSpec XmlModel XmlSpec XmlProofs XmlProofs2 XmlProofs3.
Local Open Scope N_scope.
Local Open Scope list_scope.

(* ------------------------------------------------------------------ *)
(** ** Trees made by the calls *)

Definition own_keys : list (list N) :=
  [lit "name"; lit "desc"; lit "unit"; lit "unit_ref"; lit "type"; lit "xml:lang"; lit "ro"; lit "ci"].

Inductive good : xnode -> Prop :=
| good_level : forall t a v ks, name_ok t -> ~ In 58 t -> NoDup (map fst a) ->
    Forall (fun x => In (fst x) own_keys /\ line_ok (snd x)) a -> text_ok v -> Forall good ks ->
    good (XNode t a v ks).

Definition name_okb (s : list N) : bool :=
  match s with
  | [] => false
  | c :: r => name_start c && forallb name_char r
  end.
Lemma name_okb_ok : forall s, name_okb s = true -> name_ok s.
Proof.
  intros [|c r] H; [discriminate|]. cbn [name_okb] in H. apply andb_prop in H. destruct H as [H F].
  split.
  - unfold name_start in H. rewrite !Bool.orb_true_iff, !Bool.andb_true_iff, !N.leb_le, !N.eqb_eq in H.
    unfold letter. lia.
  - apply Forall_forall. intros x I. rewrite forallb_forall in F. specialize (F x I).
    unfold name_char, name_start in F.
    rewrite !Bool.orb_true_iff, !Bool.andb_true_iff, !N.leb_le, !N.eqb_eq in F. unfold letter. lia.
Qed.

Lemma own_name : forall k, In k own_keys -> name_ok k.
Proof.
  intros k I. apply name_okb_ok. unfold own_keys in I. cbn [In] in I.
  repeat (destruct I as [<-|I]; [reflexivity|]). contradiction.
Qed.
Lemma own_small : forall k, In k own_keys -> map small k = k.
Proof.
  intros k I. unfold own_keys in I. cbn [In] in I.
  repeat (destruct I as [<-|I]; [reflexivity|]). contradiction.
Qed.

Lemma keys_own : forall a, Forall (fun x : list N * list N => In (fst x) own_keys /\ line_ok (snd x)) a ->
  keys a = map fst a.
Proof.
  induction 1 as [|x a [I _] F IH]; [reflexivity|]. unfold keys in *. cbn [map]. rewrite IH, own_small by auto.
  reflexivity.
Qed.

Lemma good_ok : forall n, good n -> node_ok n.
Proof.
  induction n as [t a v ks IH] using xnode_ind2. intros G. inversion G as [? ? ? ? G1 G2 G3 G4 G5 G6]; subst.
  constructor; auto.
  - eapply Forall_impl; [|exact G4]. cbv beta. intros x [D1 D2]. split; auto. apply own_name. auto.
  - clear - IH G6. induction IH as [|k ks H F IH2]; constructor; inversion G6; subst; auto.
Qed.
Lemma good_tidy : forall n, good n -> tidy n.
Proof.
  induction n as [t a v ks IH] using xnode_ind2. intros G. inversion G as [? ? ? ? G1 G2 G3 G4 G5 G6]; subst.
  constructor; auto.
  - rewrite keys_own by auto. auto.
  - clear - IH G6. induction IH as [|k ks H F IH2]; constructor; inversion G6; subst; auto.
Qed.
Lemma good_same : forall n n', same n n' -> good n -> good n'.
Proof.
  induction n as [t a v ks IH] using xnode_ind2. intros n' S G. inversion G as [? ? ? ? G1 G2 G3 G4 G5 G6]; subst.
  assert (ND' : forall a', Permutation a a' -> NoDup (map fst a'))
    by (intros a' P; eapply Permutation_NoDup; [apply Permutation_map; eauto|auto]).
  assert (F' : forall a', Permutation a a' -> Forall (fun x => In (fst x) own_keys /\ line_ok (snd x)) a')
    by (intros a' P; eapply Permutation_Forall; eauto).
  inversion S; subst; constructor; auto.
  - apply blank_ok. auto.
  - eapply forall2_impl_forall; [exact IH| |]; eauto.
Qed.
Lemma good_colon : forall n, good n -> ~ In 58 (x_tag n).
Proof. intros n G. inversion G; subst. auto. Qed.
Lemma good_kids : forall n, good n -> Forall good (x_kids n).
Proof. intros n G. inversion G; subst. auto. Qed.

(** ** Texts *)

Lemma ascii_line : forall s, Forall (fun c => 32 <= c < 128) s -> line_ok s.
Proof.
  intros s F. exists s. split.
  - eapply Forall_impl; [|exact F]. cbv beta. intros c D. unfold xml_cp. lia.
  - symmetry. induction F as [|c s H F IH]; [reflexivity|]. unfold utf8_text in *. cbn [map concat].
    rewrite IH. unfold utf8. bools. reflexivity.
Qed.
Lemma line_text : forall s, line_ok s -> text_ok s.
Proof.
  intros s (cps & F & E). exists cps. split; auto. eapply Forall_impl; [|exact F]. cbv beta. tauto.
Qed.
Lemma text_nil : text_ok [].
Proof. exists []. split; [constructor|reflexivity]. Qed.

Lemma uint_bytes_range : forall d, Forall (fun c => 48 <= c <= 57) (uint_bytes d).
Proof. induction d; cbn [uint_bytes]; constructor; auto; lia. Qed.
Lemma digits_uint_bytes : forall d, digits_uint (uint_bytes d) = d.
Proof. induction d; cbn [uint_bytes digits_uint]; bools; congruence. Qed.

Lemma int_line : forall z, line_ok (int_text z).
Proof.
  intros z. apply ascii_line. unfold int_text. apply Forall_app. split.
  - destruct (z <? 0)%Z; repeat constructor; lia.
  - eapply Forall_impl; [|apply uint_bytes_range]. cbv beta. lia.
Qed.
Lemma uint_bytes_nil : forall n, uint_bytes (N.to_uint n) <> [].
Proof.
  intros n H. destruct (N.to_uint n) eqn:E; try discriminate H.
  assert (X : N.of_uint (N.to_uint n) = N.of_uint Decimal.Nil) by (rewrite E; reflexivity).
  rewrite DecimalN.Unsigned.of_to in X. subst n. discriminate E.
Qed.
Lemma read_int_text : forall z, read_int (int_text z) = z.
Proof.
  intros z. unfold int_text. destruct (z <? 0)%Z eqn:E.
  - cbn [app read_int]. change (45 =? 45) with true. cbn iota.
    rewrite digits_uint_bytes, DecimalN.Unsigned.of_to. apply Z.ltb_lt in E. lia.
  - cbn [app]. apply Z.ltb_ge in E. pose proof (uint_bytes_range (N.to_uint (Z.abs_N z))) as F.
    pose proof (uint_bytes_nil (Z.abs_N z)) as NE.
    unfold read_int. destruct (uint_bytes (N.to_uint (Z.abs_N z))) as [|c r] eqn:EU; [congruence|].
    inversion F as [|? ? R F']; subst. bools. rewrite <- EU, digits_uint_bytes, DecimalN.Unsigned.of_to. lia.
Qed.
Lemma int_trim : forall z, trim (int_text z) = int_text z.
Proof.
  intros z.
  assert (F : Forall (fun c => c <> 0 /\ is_space c = false) (int_text z)).
  { unfold int_text. apply Forall_app. split.
    - destruct (z <? 0)%Z; repeat constructor; discriminate.
    - eapply Forall_impl; [|apply uint_bytes_range]. cbv beta. intros c D. split; [lia|]. unfold is_space. bools.
      reflexivity. }
  assert (NE : int_text z <> []).
  { unfold int_text. intros H. apply app_eq_nil in H. destruct H as [_ H]. revert H. apply uint_bytes_nil. }
  apply trim_id. rewrite Forall_forall in F. split.
  - intros I. apply (F 0 I). reflexivity.
  - intros _. split; apply F.
    + destruct (int_text z); [congruence|]. left. reflexivity.
    + destruct (int_text z) as [|c s]; [congruence|]. clear. revert c.
      induction s as [|d s IH]; intros c; [left; reflexivity|]. right. apply IH.
Qed.

(* ------------------------------------------------------------------ *)
(** ** The first child that meets a condition *)

Lemma edit_first_forall : forall (P : xnode -> Prop) p fresh f ks,
  (forall k, p k = true -> P k -> P (f k)) -> P (f fresh) -> Forall P ks -> Forall P (edit_first p fresh f ks).
Proof.
  intros P p fresh f ks H Hf. induction 1 as [|k ks HK F IH]; cbn [edit_first]; [constructor; auto|].
  destruct (p k) eqn:E; constructor; auto.
Qed.

Lemma find_edit_hit : forall p fresh f ks, (forall k, p k = true -> p (f k) = true) -> p fresh = true ->
  find p (edit_first p fresh f ks) = Some (f (match find p ks with Some k => k | None => fresh end)).
Proof.
  intros p fresh f ks H Hf. induction ks as [|k ks IH]; cbn [edit_first find].
  - rewrite H by auto. reflexivity.
  - destruct (p k) eqn:E; cbn [find].
    + rewrite H by auto. reflexivity.
    + rewrite E. exact IH.
Qed.

Lemma find_edit_miss : forall p q fresh f ks,
  Forall (fun k => p k = true -> q k = false /\ q (f k) = false) ks -> q (f fresh) = false ->
  find q (edit_first p fresh f ks) = find q ks.
Proof.
  intros p q fresh f ks H Hf. induction H as [|k ks HK F IH]; cbn [edit_first find].
  - rewrite Hf. reflexivity.
  - destruct (p k) eqn:E; cbn [find].
    + destruct (HK eq_refl) as [-> ->]. reflexivity.
    + destruct (q k); auto.
Qed.

Lemma find_ext : forall {A} (p q : A -> bool) l, (forall x, p x = q x) -> find p l = find q l.
Proof. intros A p q l H. induction l as [|x l IH]; [reflexivity|]. cbn [find]. rewrite H, IH. reflexivity. Qed.
Lemma edit_first_none : forall p fresh f ks, find p ks = None -> edit_first p fresh f ks = ks ++ [f fresh].
Proof.
  intros p fresh f ks. induction ks as [|k ks IH]; cbn [edit_first find]; [reflexivity|].
  destruct (p k); [discriminate|]. intros H. rewrite IH by auto. reflexivity.
Qed.

(* ------------------------------------------------------------------ *)
(** ** Attributes that are set *)

Lemma set_attr_tag : forall k v n, x_tag (set_attr k v n) = x_tag n. Proof. reflexivity. Qed.
Lemma set_attr_kids : forall k v n, x_kids (set_attr k v n) = x_kids n. Proof. reflexivity. Qed.
Lemma set_attr_value : forall k v n, x_value (set_attr k v n) = x_value n. Proof. reflexivity. Qed.

Lemma nodup_snoc : forall {A} (l : list A) x, NoDup l -> ~ In x l -> NoDup (l ++ [x]).
Proof.
  intros A l x ND NI. apply (Permutation_NoDup (l := x :: l)); [|constructor; auto].
  apply Permutation_cons_append.
Qed.

Lemma good_set_attr : forall k v n, In k own_keys -> line_ok v -> good n -> good (set_attr k v n).
Proof.
  intros k v n I L G. inversion G as [t a v0 ks G1 G2 G3 G4 G5 G6]; subst. unfold set_attr. cbn [x_tag x_attrs x_value x_kids].
  destruct (existsb _ a) eqn:E; [constructor; auto|]. constructor; auto.
  - rewrite map_app. cbn [map fst]. apply nodup_snoc; auto. clear - E G3.
    intros I. apply in_map_iff in I. destruct I as ([x y] & E1 & I). cbn [fst] in E1. subst x.
    apply Bool.not_true_iff_false in E. apply E. apply existsb_exists. exists (k, y). split; auto. apply beq_refl.
  - apply Forall_app. split; auto.
Qed.

Lemma good_set_value : forall v n, text_ok v -> good n -> good (set_value v n).
Proof. intros v n T G. inversion G; subst. constructor; auto. Qed.
Lemma good_set_kids : forall ks n, Forall good ks -> good n -> good (set_kids ks n).
Proof. intros ks n T G. inversion G; subst. constructor; auto. Qed.

Lemma good_set_text : forall k v n, In k own_keys -> line_ok v -> good n -> good (set_text k v n).
Proof. intros k v n I L G. unfold set_text. destruct v; auto. apply good_set_attr; auto. Qed.

Lemma own_1 : In (lit "name") own_keys. Proof. cbn; auto 10. Qed.
Lemma own_2 : In (lit "desc") own_keys. Proof. cbn; auto 10. Qed.
Lemma own_3 : In (lit "unit") own_keys. Proof. cbn; auto 10. Qed.
Lemma own_4 : In (lit "unit_ref") own_keys. Proof. cbn; auto 10. Qed.
Lemma own_5 : In (lit "type") own_keys. Proof. cbn; auto 10. Qed.
Lemma own_6 : In (lit "xml:lang") own_keys. Proof. cbn; auto 10. Qed.
Lemma own_7 : In (lit "ro") own_keys. Proof. cbn; auto 10. Qed.
Lemma own_8 : In (lit "ci") own_keys. Proof. cbn; auto 10. Qed.

Lemma good_set_ci : forall ci n, good n -> good (set_ci ci n).
Proof. intros ci n G. unfold set_ci. destruct (0 <=? ci)%Z; auto. apply good_set_attr; auto using own_8, int_line. Qed.
Lemma good_set_ro : forall ro n, good n -> good (set_ro ro n).
Proof.
  intros ro n G. unfold set_ro. destruct ro; auto. apply good_set_attr; auto using own_7.
  apply ascii_line. change (lit "true") with [116; 114; 117; 101]. repeat constructor; lia.
Qed.

Lemma good_put_leaf : forall b n, base_ok b -> good n -> good (put_leaf b n).
Proof.
  intros b n (B1 & B2 & B3 & B4 & B5 & B6 & B7) G. unfold put_leaf. apply good_set_value; auto.
  apply good_set_text; auto using own_4. apply good_set_text; auto using own_3. apply good_set_ro.
  apply good_set_text; auto using own_6. apply good_set_text; auto using own_5. apply good_set_ci.
  apply good_set_text; auto using own_2.
Qed.

Lemma good_new : forall t, name_ok t -> ~ In 58 t -> good (new_node t).
Proof.
  intros t H C. unfold new_node. rewrite name_trim by auto. constructor; auto using text_nil. constructor.
Qed.

Definition t_e := lit "e".
Definition t_tree := lit "tree".
Definition t_common := lit "common_properties".
Definition k_name := lit "name".

Lemma lit_no_colon : forall s, forallb (fun c => negb (c =? 58)) s = true -> ~ In 58 s.
Proof. intros s H I. rewrite forallb_forall in H. specialize (H 58 I). discriminate H. Qed.
Lemma good_fresh_e : forall m, line_ok m -> good (set_attr k_name m (new_node t_e)).
Proof.
  intros m L. apply good_set_attr; [exact own_1|exact L|]. apply good_new;
    [apply name_okb_ok; reflexivity|apply lit_no_colon; reflexivity].
Qed.
Lemma good_fresh_tree : forall m, line_ok m -> good (set_attr k_name m (new_node t_tree)).
Proof.
  intros m L. apply good_set_attr; [exact own_1|exact L|]. apply good_new;
    [apply name_okb_ok; reflexivity|apply lit_no_colon; reflexivity].
Qed.

Lemma etag_ind2 : forall P : etag -> Prop,
  (forall b tree, Forall P tree -> P (ETag b tree)) -> forall e, P e.
Proof.
  intros P H. fix IH 1. intros [b tree]. apply H.
  induction tree as [|k ks IHk]; constructor; [apply IH|apply IHk].
Qed.

Lemma good_insert : forall e root, texts_ok e -> good root -> good (insert_etag e root).
Proof.
  induction e as [b tree IH] using etag_ind2. intros root T G. inversion T as [? ? B F]; subst.
  cbn [insert_etag]. destruct (e_name b) as [|c nm] eqn:EN; [exact G|]. rewrite <- EN. clear c nm EN.
  destruct tree as [|e0 tree].
  - unfold edit_named. apply good_set_kids; auto. apply edit_first_forall.
    + intros k _ GK. apply good_put_leaf; auto.
    + apply good_put_leaf; auto. apply good_fresh_e. apply B.
    + apply good_kids. auto.
  - set (tr := e0 :: tree) in *. clearbody tr.
    assert (K : forall n, good n -> good (fold_left (fun n t => insert_etag t n) tr
                 (set_ci (e_ci b) (set_text (lit "desc") (e_desc b) n)))).
    { intros n GN. assert (GN2 : good (set_ci (e_ci b) (set_text (lit "desc") (e_desc b) n))).
      { apply good_set_ci. apply good_set_text; auto using own_2. apply B. }
      revert GN2. generalize (set_ci (e_ci b) (set_text (lit "desc") (e_desc b) n)). clear - IH F.
      induction IH as [|t ts H F2 IH2]; intros m GM; [exact GM|]. inversion F; subst. cbn [fold_left].
      apply IH2; auto. }
    unfold edit_named. apply good_set_kids; auto. apply edit_first_forall.
    + intros k _ GK. apply K. auto.
    + apply K. apply good_fresh_tree. apply B.
    + apply good_kids. auto.
Qed.
