(** Proofs about the comments of channels, sources, events and units, part 1: texts of numbers and
    attributes. *)
From Coq Require Import String Permutation Sorting.Sorted Lia.
From Verif Require Import Base BlockModel TextSpec XmlModel XmlSpec XmlProofs XmlProofs2 XmlProofs3 XmlProofs4 XmlProofs5
  CommentModel CommentSpec CommentProofs CommentProofs2 CommentProofs3 CommentProofs4 CommentProofs5 NoteModel NoteSpec.
Local Open Scope N_scope.
Local Open Scope list_scope.

(** ** Hexadecimal numbers *)
Lemma hex_value_digit : forall d, d < 16 -> hex_value (hex_digit d) = Some d.
Proof.
  intros d D. unfold hex_digit, hex_value. destruct (N.ltb_spec d 10).
  - assert ((48 <=? 48 + d) = true) as -> by (apply N.leb_le; lia). assert ((48 + d <=? 57) = true) as -> by (apply N.leb_le; lia).
    cbn [andb]. f_equal. lia.
  - assert ((55 + d <=? 57) = false) as -> by (apply N.leb_gt; lia). rewrite Bool.andb_false_r.
    assert ((65 <=? 55 + d) = true) as -> by (apply N.leb_le; lia). assert ((55 + d <=? 70) = true) as -> by (apply N.leb_le; lia).
    cbn [andb]. f_equal. lia.
Qed.
Definition hexch (c : N) : Prop := 48 <= c <= 57 \/ 65 <= c <= 70.
Lemma hexch_digit : forall d, d < 16 -> hexch (hex_digit d).
Proof. intros d D. unfold hexch, hex_digit. destruct (N.ltb_spec d 10); lia. Qed.
Lemma hex_digits_ch : forall f n acc, Forall hexch acc -> Forall hexch (hex_digits f n acc).
Proof.
  induction f as [|f IH]; intros n acc F; [exact F|]. cbn [hex_digits].
  assert (G : Forall hexch (hex_digit (n mod 16) :: acc)).
  { constructor; auto. apply hexch_digit. apply N.mod_lt. discriminate. }
  destruct (n / 16 =? 0); auto.
Qed.
Lemma hex_digits_run : forall f n acc, n < 16 ^ N.of_nat (S f) -> hex_run 0 (hex_digits (S f) n acc) = hex_run n acc.
Proof.
  induction f as [|f IH]; intros n acc B.
  - cbn [hex_digits]. change (16 ^ N.of_nat 1) with 16 in B. assert (n / 16 = 0) as -> by (apply N.div_small; exact B).
    change (0 =? 0) with true. cbv iota. cbn [hex_run]. rewrite hex_value_digit by (apply N.mod_lt; discriminate).
    rewrite N.mod_small by exact B. reflexivity.
  - remember (S f) as g. cbn [hex_digits]. destruct (N.eqb_spec (n / 16) 0) as [E|E].
    + assert (S : n < 16). { destruct (N.lt_ge_cases n 16) as [X|X]; [exact X|]. exfalso. apply (N.div_le_mono 16 n 16) in X; [|discriminate]. change (16 / 16) with 1 in X. rewrite E in X. lia. }
      cbn [hex_run]. rewrite hex_value_digit by (apply N.mod_lt; discriminate). rewrite N.mod_small by exact S. reflexivity.
    + rewrite IH.
      * cbn [hex_run]. rewrite hex_value_digit by (apply N.mod_lt; discriminate).
        f_equal. rewrite (N.div_mod n 16) at 3 by discriminate. lia.
      * rewrite Nat2N.inj_succ, N.pow_succ_r' in B. apply N.div_lt_upper_bound; [discriminate|exact B].
Qed.
Lemma hex_digits_head : forall f n acc, exists c r, hex_digits (S f) n acc = c :: r.
Proof.
  induction f as [|f IH]; intros n acc; cbn [hex_digits]; destruct (n / 16 =? 0); eauto.
Qed.
Lemma is_hex_ch : forall c, hexch c -> is_hex c = true.
Proof.
  intros c [H|H]; unfold is_hex, hex_value.
  - assert ((48 <=? c) = true) as -> by (apply N.leb_le; lia). assert ((c <=? 57) = true) as -> by (apply N.leb_le; lia). reflexivity.
  - assert ((c <=? 57) = false) as -> by (apply N.leb_gt; lia). rewrite Bool.andb_false_r.
    assert ((65 <=? c) = true) as -> by (apply N.leb_le; lia). assert ((c <=? 70) = true) as -> by (apply N.leb_le; lia). reflexivity.
Qed.
Lemma hexch_space : forall c, hexch c -> is_space c = false.
Proof.
  intros c H. unfold is_space. destruct H as [H|H];
    repeat match goal with |- context [?a =? ?b] => destruct (N.eqb_spec a b); [lia|] | |- context [?a <=? ?b] => destruct (N.leb_spec a b); [|try lia] end; try reflexivity; lia.
Qed.
Lemma stoull16_hex : forall n, n < 2 ^ 64 -> stoull16 (hex_digits 16 n []) = Some n.
Proof.
  intros n B. destruct (hex_digits_head 15 n []) as (c & r & E).
  pose proof (hex_digits_ch 16 n [] (Forall_nil _)) as F. pose proof (hex_digits_run 15 n [] ltac:(exact B)) as R.
  rewrite E in F, R |- *. inversion F as [|? ? HC FR]; subst. unfold stoull16. cbn [ltrim]. rewrite hexch_space by exact HC.
  assert (c =? 45 = false) as -> by (apply N.eqb_neq; destruct HC; lia). assert (c =? 43 = false) as -> by (apply N.eqb_neq; destruct HC; lia).
  assert (SP : skip_prefix (c :: r) = c :: r).
  { unfold skip_prefix. destruct r as [|b r]; [reflexivity|]. destruct r as [|d r]; [reflexivity|]. inversion FR as [|? ? HB _]; subst.
    assert (b =? 120 = false) as -> by (apply N.eqb_neq; destruct HB; lia). assert (b =? 88 = false) as -> by (apply N.eqb_neq; destruct HB; lia).
    cbn [orb]. rewrite Bool.andb_false_r. reflexivity. }
  rewrite SP, is_hex_ch by exact HC. rewrite R. cbn [hex_run]. apply N.ltb_lt in B. rewrite B. reflexivity.
Qed.
Lemma after_hex : forall n, after_0x (hex_text n) = Some (hex_digits 16 n []).
Proof.
  intros n. unfold after_0x, hex_text. destruct (hex_digits_head 15 n []) as (c & r & E). rewrite E. reflexivity.
Qed.
Lemma hex_line : forall n, line_ok (hex_text n).
Proof.
  intros n. apply ascii_line. unfold hex_text. rewrite Forall_app. split.
  - change (lit "0x") with [48; 120]. repeat constructor; lia.
  - pose proof (hex_digits_ch 16 n [] (Forall_nil _)) as F. eapply Forall_impl; [|exact F]. intros c [H|H]; lia.
Qed.
Lemma read_hex : forall n, n < 2 ^ 64 -> forall old, read_mask (hex_text n) old = Some n.
Proof. intros n B old. unfold read_mask. rewrite after_hex. apply stoull16_hex. exact B. Qed.

Lemma stoull_int : forall n, n < 2 ^ 64 -> stoull (int_text (Z.of_N n)) = Some n.
Proof.
  intros n R. unfold stoull. destruct (int_head (Z.of_N n)) as (c & r & E & SP & NEG & POS).
  assert (L : ltrim (int_text (Z.of_N n)) = int_text (Z.of_N n)) by (rewrite E; cbn [ltrim]; rewrite SP; reflexivity).
  rewrite L, read_int_text. rewrite E. specialize (POS ltac:(lia)).
  assert (B : (Z.abs (Z.of_N n) <? 2 ^ 64)%Z = true) by (apply Z.ltb_lt; lia). rewrite B.
  destruct (N.eqb_spec c 45); [lia|]. destruct (N.eqb_spec c 43); [lia|]. cbn [orb].
  destruct (N.leb_spec 48 c), (N.leb_spec c 57); cbn [andb]; try lia. rewrite Z.mod_small by lia. rewrite N2Z.id. reflexivity.
Qed.

(** ** Attributes that are set after the standard ones *)

Lemma same_perm : forall t a b v ks n', same (XNode t a v ks) n' -> Permutation a b -> same (XNode t b v ks) n'.
Proof.
  intros t a b v ks n' S P. inversion S; subst; constructor; auto; (eapply perm_trans; [apply Permutation_sym; exact P|assumption]).
Qed.
Lemma perm_ok : forall t a b v ks, node_ok (XNode t b v ks) -> Permutation a b -> node_ok (XNode t a v ks).
Proof.
  intros t a b v ks OK P. inversion OK; subst. constructor; auto.
  - eapply Permutation_NoDup; [apply Permutation_map, Permutation_sym; exact P|assumption].
  - apply Forall_forall. intros x I. rewrite Forall_forall in *. eauto using Permutation_in.
Qed.
Lemma std_bare : forall reserved own s, std_ok reserved own s -> std_ok [] [] s.
Proof. intros reserved own s (A & B & C & D & _). refine (conj A (conj B (conj C (conj D _)))). intros k v o _ []. Qed.
Lemma std_none : forall reserved own s, std_ok reserved [] s -> std_ok reserved own s.
Proof. intros reserved own s (A & B & C & D & E). refine (conj A (conj B (conj C (conj D _)))). intros k v o I J AL. destruct (E k v o I J AL). Qed.
Lemma none_agrees : forall reserved own s, std_ok reserved [] s -> own_ok reserved own -> agrees own s.
Proof.
  intros reserved own s (_ & _ & _ & _ & E) (_ & OF) k v I J. exfalso. apply in_map_iff in J. destruct J as (a & EA & J).
  rewrite Forall_forall in OF. destruct (OF a J) as (IR & _). rewrite EA in IR. apply (E k v k I IR), alike_refl.
Qed.
Lemma keys_unique : forall (l : list (list N * list N)) k v w, NoDup (map fst l) -> In (k, v) l -> In (k, w) l -> v = w.
Proof.
  induction l as [|[a b] l IH]; intros k v w ND I J; [destruct I|]. inversion ND as [|? ? NI ND']; subst. cbn [fst] in NI.
  destruct I as [I|I], J as [J|J].
  - congruence.
  - exfalso. apply NI. apply (in_map fst) in J. cbn [fst] in J. assert (k = a) as <- by congruence. exact J.
  - exfalso. apply NI. apply (in_map fst) in I. cbn [fst] in I. assert (k = a) as <- by congruence. exact I.
  - eauto.
Qed.

Lemma late : forall reserved own s, std_ok reserved own s -> own_ok reserved own -> agrees own s ->
  Permutation (fold_left add_attr own (std_attrs [] s)) (std_attrs own s).
Proof.
  intros reserved own s OK OW AG. pose proof (std_keys _ _ _ OK OW) as K1. pose proof (std_keys _ _ _ (std_bare _ _ _ OK) (own_nil [])) as K2.
  apply keys_fst in K1. apply keys_fst in K2. pose proof (keys_fst _ (proj1 OW)) as K3.
  rewrite add_attrs by exact K3.
  assert (NL : forall k v, In (k, v) own -> ~ In (k, v) (ci_attr s) /\ k <> lit "ci" /\ k <> lit "xml:lang").
  { intros k v I. destruct OW as (_ & OF). rewrite Forall_forall in OF. destruct (OF _ I) as (_ & _ & _ & A & B). cbn [fst] in A, B.
    assert (k <> lit "ci") by (intros ->; apply A, alike_refl). assert (k <> lit "xml:lang") by (intros ->; apply B, alike_refl).
    repeat split; auto. unfold ci_attr. destruct (0 <? s_ci s); [|intros []]. intros [X|[]]. congruence. }
  assert (KK : forall k, In k (map fst (std_attrs [] s)) -> In k (map fst own) -> In k (map fst (s_cust s))).
  { intros k I J. apply in_map_iff in J. destruct J as ([k' v] & <- & J). cbn [fst] in *. destruct (NL _ _ J) as (_ & A & B).
    apply in_map_iff in I. destruct I as (a & EA & I). unfold std_attrs in I. cbn [app] in I. rewrite !in_app_iff, filter_In in I.
    destruct I as [I|[I|[I _]]].
    - exfalso. unfold ci_attr in I. destruct (0 <? s_ci s); [|destruct I]. destruct I as [<-|[]]. cbn [fst] in EA. congruence.
    - exfalso. unfold lang_attr, text_attr in I. destruct (s_lang s); [destruct I|]. destruct I as [<-|[]]. cbn [fst] in EA. congruence.
    - rewrite <- EA. apply in_map. exact I. }
  apply NoDup_Permutation.
  - apply (NoDup_map_inv fst). rewrite map_app. apply NoDup_app_intro; [exact K2| |].
    + clear - K3. induction own as [|a own IH]; [constructor|]. inversion K3 as [|? ? NI ND]; subst. cbn [filter].
      destruct (absent _ a); auto. cbn [map]. constructor; auto. intros I. apply NI. apply in_map_iff in I. destruct I as (b & E & I).
      apply filter_In in I. rewrite <- E. apply in_map. tauto.
    + intros k I J. apply in_map_iff in J. destruct J as (b & <- & J). apply filter_In in J. destruct J as (_ & J). apply absent_iff in J. auto.
  - apply (NoDup_map_inv fst). exact K1.
  - intros [k v]. rewrite in_app_iff, filter_In, absent_iff. cbn [fst].
    assert (S0 : In (k, v) (std_attrs [] s) <-> In (k, v) (ci_attr s) \/ In (k, v) (lang_attr s) \/ In (k, v) (s_cust s)).
    { unfold std_attrs. cbn [app]. rewrite !in_app_iff, filter_In, absent_iff. cbn [map fst In]. tauto. }
    assert (S1 : In (k, v) (std_attrs own s) <-> In (k, v) own \/ In (k, v) (ci_attr s) \/ In (k, v) (lang_attr s) \/
      (In (k, v) (s_cust s) /\ ~ In k (map fst own))).
    { unfold std_attrs. rewrite !in_app_iff, filter_In, absent_iff. cbn [fst]. tauto. }
    rewrite S0, S1. split.
    + intros [[I|[I|I]]|[I _]]; auto. destruct (in_dec (list_eq_dec N.eq_dec) k (map fst own)) as [J|J]; auto.
    + intros [I|[I|[I|[I J]]]]; auto.
      destruct (in_dec (list_eq_dec N.eq_dec) k (map fst (std_attrs [] s))) as [J|J]; auto. left. right. right.
      assert (KO : In k (map fst own)) by (apply (in_map fst) in I; exact I). pose proof (KK k J KO) as C. apply in_map_iff in C.
      destruct C as ([k' w] & E & C). cbn [fst] in E. subst k'. pose proof (AG k w C KO) as X. rewrite (keys_unique own k v w); auto.
Qed.

(** Adding attributes one after another. *)
Definition adds (own : list (list N * list N)) (n m : xnode) : Prop :=
  x_tag m = x_tag n /\ x_value m = x_value n /\ x_kids m = x_kids n /\ x_attrs m = fold_left add_attr own (x_attrs n).
Lemma adds_nil : forall n, adds [] n n.
Proof. intros. repeat split. Qed.
Lemma adds_trans : forall a b n m p, adds a n m -> adds b m p -> adds (a ++ b) n p.
Proof.
  intros a b n m p (A1 & A2 & A3 & A4) (B1 & B2 & B3 & B4). repeat split; try congruence. rewrite fold_left_app, <- A4. exact B4.
Qed.
Lemma adds_attr : forall k v n, adds [(k, v)] n (set_attr k v n).
Proof. intros. repeat split. Qed.
Lemma adds_text : forall k v n, adds (text_attr k v) n (set_text (lit k) v n).
Proof. intros k [|c v] n; repeat split. Qed.

(** A table of attributes with and without a value. *)
Definition piece (a : list N * option (list N)) : list (list N * list N) := match snd a with Some v => [(fst a, v)] | None => [] end.
Definition attrs_of (t : list (list N * option (list N))) : list (list N * list N) := concat (map piece t).
Lemma adds_opt : forall k o n, adds (piece (k, o)) n (set_opt k o n).
Proof. intros k [v|] n; repeat split. Qed.
Lemma attrs_key : forall t a, In a (attrs_of t) -> In (fst a, Some (snd a)) t.
Proof.
  intros t a I. unfold attrs_of in I. apply in_concat in I. destruct I as (l & IL & IA). apply in_map_iff in IL.
  destruct IL as ([k [v|]] & <- & IT); cbn in IA; [|destruct IA]. destruct IA as [<-|[]]. exact IT.
Qed.
Lemma attrs_nodup : forall t, NoDup (map (fun a => map small (fst a)) t) -> NoDup (keys (attrs_of t)).
Proof.
  induction t as [|[k o] t IH]; intros ND; [constructor|]. inversion ND as [|? ? NI ND']; subst. cbn [fst] in NI.
  unfold attrs_of. cbn [map concat]. fold (attrs_of t). destruct o as [v|]; cbn [piece snd fst app]; auto.
  cbn [keys map fst]. constructor; auto. intros I. apply NI. apply in_map_iff in I. destruct I as (b & E & I). apply attrs_key in I.
  apply in_map_iff. exists (fst b, Some (snd b)). split; auto.
Qed.
Definition pick (k : list N) (l : list (list N * list N)) : option (list N) :=
  option_map snd (find (fun a => beq (fst a) k) l).
Lemma pick_cons : forall k a l, pick k (a :: l) = if beq (fst a) k then Some (snd a) else pick k l.
Proof. intros. unfold pick. cbn [find]. destruct (beq (fst a) k); reflexivity. Qed.
Lemma pick_in : forall k v l, NoDup (map fst l) -> pick k l = Some v <-> In (k, v) l.
Proof.
  intros k v l. induction l as [|[a b] l IH]; intros ND; [split; [discriminate|intros []]|]. inversion ND as [|? ? NI ND']; subst. cbn [fst] in NI.
  rewrite pick_cons. cbn [fst snd]. destruct (beq a k) eqn:E.
  - apply beq_true in E. subst a. split; [intros X; left; congruence|]. intros [X|I]; [congruence|]. exfalso. apply NI. apply (in_map fst) in I. exact I.
  - rewrite IH by auto. split; [intros I; right; auto|]. intros [X|I]; auto. exfalso. assert (a = k) by congruence. apply beq_true in H. congruence.
Qed.
Lemma pick_same : forall k l m, NoDup (map fst l) -> NoDup (map fst m) -> (forall v, In (k, v) l <-> In (k, v) m) -> pick k l = pick k m.
Proof.
  intros k l m NL NM E. destruct (pick k l) as [v|] eqn:P.
  - symmetry. apply pick_in; auto. apply E, pick_in; auto.
  - destruct (pick k m) as [v|] eqn:Q; auto. apply pick_in in Q; auto. apply E, pick_in in Q; auto. congruence.
Qed.
Lemma pick_table : forall k o t, pick k (attrs_of ((k, o) :: t)) = match o with Some v => Some v | None => pick k (attrs_of t) end.
Proof. intros k [v|] t; [|reflexivity]. unfold attrs_of. cbn [map concat piece snd fst app]. rewrite pick_cons. cbn [fst]. rewrite beq_refl. reflexivity. Qed.
Lemma pick_skip : forall k k' o t, beq k' k = false -> pick k (attrs_of ((k', o) :: t)) = pick k (attrs_of t).
Proof. intros k k' [v|] t E; [|reflexivity]. unfold attrs_of. cbn [map concat piece snd fst app]. rewrite pick_cons. cbn [fst]. rewrite E. reflexivity. Qed.

(** Reading the standard attributes in any order. *)
Lemma std_fold : forall reserved own s L, std_ok reserved own s -> own_ok reserved own -> NoDup (map fst L) ->
  (forall a, In a L <-> In a (std_attrs own s)) ->
  exists s', fold_left (fun r a => obind r (fun s => read_attr s a)) L (Some std0) = Some s' /\ kept_std own s s'.
Proof.
  intros reserved own s L OK OW NDL MEM. pose proof (std_fine _ _ _ OK OW) as FI.
  destruct OK as (CI & LA & NDC & CU & RE). destruct OW as (ON & OF).
  assert (NL : forall a, In a own \/ In a (s_cust s) -> fst a <> lit "ci" /\ fst a <> lit "xml:lang").
  { intros a I. assert (~ alike (fst a) (lit "ci") /\ ~ alike (fst a) (lit "xml:lang")) as [X Y].
    { destruct I as [I|I]; [rewrite Forall_forall in OF; apply OF in I|rewrite Forall_forall in CU; apply CU in I]; tauto. }
    split; intros Z; [apply X|apply Y]; rewrite Z; apply alike_refl. }
  assert (CL : lit "ci" <> lit "xml:lang") by (vm_compute; discriminate).
  assert (INA : forall k v, In (k, v) L <->
    In (k, v) own \/ In (k, v) (ci_attr s) \/ In (k, v) (lang_attr s) \/ (In (k, v) (s_cust s) /\ ~ In k (map fst own))).
  { intros k v. rewrite MEM. unfold std_attrs. rewrite !in_app_iff, filter_In, absent_iff. cbn [fst]. reflexivity. }
  assert (INC : forall v, In (lit "ci", v) L <-> In (lit "ci", v) (ci_attr s)).
  { intros v. rewrite INA. split; [|auto]. intros [I|[I|[I|[I _]]]]; auto; exfalso.
    - destruct (NL _ (or_introl I)) as [X _]. apply X. reflexivity.
    - unfold lang_attr, text_attr in I. destruct (s_lang s); [destruct I|]. destruct I as [I|[]]. congruence.
    - destruct (NL _ (or_intror I)) as [X _]. apply X. reflexivity. }
  assert (INL : forall v, In (lit "xml:lang", v) L <-> In (lit "xml:lang", v) (lang_attr s)).
  { intros v. rewrite INA. split; [|auto]. intros [I|[I|[I|[I _]]]]; auto; exfalso.
    - destruct (NL _ (or_introl I)) as [_ X]. apply X. reflexivity.
    - unfold ci_attr in I. destruct (0 <? s_ci s); [|destruct I]. destruct I as [I|[]]. congruence.
    - destruct (NL _ (or_intror I)) as [_ X]. apply X. reflexivity. }
  destruct (read_fold (s_ci s) CI L std0) as (s' & F & C1 & C2 & L1 & L2 & A1 & M).
  - exact NDL.
  - apply Forall_forall. intros a I. apply MEM in I. rewrite Forall_forall in FI. apply FI in I. tauto.
  - intros v I. apply INC in I. unfold ci_attr in I. destruct (0 <? s_ci s); [|destruct I]. destruct I as [I|[]]. congruence.
  - intros k _ [].
  - constructor.
  - exists s'. split; [exact F|]. split; [|split; [|split; [exact A1|]]].
    + destruct (N.ltb_spec 0 (s_ci s)) as [P|P].
      * apply C1. exists (int_text (Z.of_N (s_ci s))). apply INC. unfold ci_attr. apply N.ltb_lt in P. rewrite P. left. reflexivity.
      * rewrite C2; [cbn; lia|]. intros v I. apply INC in I. unfold ci_attr in I. apply N.ltb_ge in P. rewrite P in I. destruct I.
    + destruct (s_lang s) as [|x y] eqn:EL.
      * apply L2. intros v I. apply INL in I. unfold lang_attr in I. rewrite EL in I. destruct I.
      * apply L1. apply INL. unfold lang_attr. rewrite EL. left. reflexivity.
    + intros k v. rewrite M. cbn [std0 s_cust In]. rewrite INA. split.
      * intros [[]|(I & N1 & N2)]. destruct I as [I|[I|[I|I]]]; auto; exfalso.
        -- unfold ci_attr in I. destruct (0 <? s_ci s); [|destruct I]. destruct I as [I|[]]. congruence.
        -- unfold lang_attr, text_attr in I. destruct (s_lang s); [destruct I|]. destruct I as [I|[]]. congruence.
      * intros I. right. assert (fst (k, v) <> lit "ci" /\ fst (k, v) <> lit "xml:lang") as [X Y].
        { apply NL. destruct I as [I|[I _]]; auto. }
        cbn [fst] in X, Y. split; [|auto]. destruct I as [I|I]; auto.
Qed.

(** The attributes that are not special. *)
Definition usual (special : list (list N)) (a : list N * list N) : bool := negb (existsb (beq (fst a)) special).
Lemma usual_iff : forall special a, usual special a = true <-> ~ In (fst a) special.
Proof.
  intros. unfold usual. split.
  - intros H I. assert (X : existsb (beq (fst a)) special = true) by (apply existsb_exists; exists (fst a); split; auto; apply beq_refl).
    rewrite X in H. discriminate.
  - intros H. destruct (existsb _ special) eqn:E; [|reflexivity]. apply existsb_exists in E. destruct E as (k & I & E). apply beq_true in E. congruence.
Qed.
Lemma filter_nodup : forall {A B} (f : A -> B) p l, NoDup (map f l) -> NoDup (map f (filter p l)).
Proof.
  intros A B f p l. induction l as [|a l IH]; intros ND; [constructor|]. inversion ND as [|? ? NI ND']; subst. cbn [filter].
  destruct (p a); auto. cbn [map]. constructor; auto. intros I. apply NI. apply in_map_iff in I. destruct I as (b & E & I).
  apply filter_In in I. rewrite <- E. apply in_map. tauto.
Qed.
Lemma usual_fold : forall special own s L, std_ok special [] s -> own_ok special own -> vocab special -> NoDup (map fst L) ->
  (forall a, In a L <-> In a (std_attrs own s)) ->
  exists s', fold_left (fun r a => obind r (fun s => read_attr s a)) (filter (usual special) L) (Some std0) = Some s' /\ kept_std [] s s'.
Proof.
  intros special own s L OK OW VO ND MEM. apply (std_fold special [] s); auto; [apply own_nil|apply filter_nodup; auto|].
  intros [k v]. rewrite filter_In, usual_iff, MEM. cbn [fst]. unfold std_attrs. rewrite !in_app_iff, !filter_In, !absent_iff. cbn [fst map In].
  unfold vocab in VO. rewrite Forall_forall in VO.
  assert (RE : In k special -> ~ In (k, v) (s_cust s)).
  { intros J I. destruct OK as (_ & _ & _ & _ & RE). apply (RE k v k I J), alike_refl. }
  assert (OI : In (k, v) own -> In k special).
  { intros I. destruct OW as (_ & OF). rewrite Forall_forall in OF. apply (OF _ I). }
  assert (CI : In (k, v) (ci_attr s) -> ~ In k special).
  { intros I J. unfold ci_attr in I. destruct (0 <? s_ci s); [|destruct I]. destruct I as [I|[]]. assert (lit "ci" = k) as <- by congruence.
    destruct (VO _ J) as (X & _). revert X. vm_compute. discriminate. }
  assert (LI : In (k, v) (lang_attr s) -> ~ In k special).
  { intros I J. unfold lang_attr, text_attr in I. destruct (s_lang s); [destruct I|]. destruct I as [I|[]]. assert (lit "xml:lang" = k) as <- by congruence.
    destruct (VO _ J) as (_ & X). revert X. vm_compute. discriminate. }
  assert (OK2 : In (k, v) (s_cust s) -> ~ In k (map fst own)).
  { intros I J. apply in_map_iff in J. destruct J as ([k' w] & E & J). cbn [fst] in E. subst k'. apply (in_map fst) in J as J2.
    destruct OW as (_ & OF). rewrite Forall_forall in OF. destruct (OF _ J) as (X & _). cbn [fst] in X. exact (RE X I). }
  tauto.
Qed.

Definition over {A B} (o : option A) (f : A -> B) (d : B) : B := match o with Some x => f x | None => d end.
Lemma pick_none : forall k (L : list (list N * list N)), ~ In k (map fst L) -> pick k L = None.
Proof.
  intros k L NI. unfold pick. destruct (find _ L) as [a|] eqn:E; [|reflexivity]. apply find_some in E. destruct E as (I & E). apply beq_true in E.
  exfalso. apply NI. rewrite <- E. apply in_map. exact I.
Qed.

Section Order.
Context (order : list (list N * list N) -> list (list N * list N)) (OR : any_order order).
(** The attributes of a tag are those of its counterpart. *)
Lemma read_members : forall special own s tag v n', std_ok special own s -> own_ok special own ->
  same (XNode tag (std_attrs own s) v []) n' ->
  NoDup (map fst (attr_map order n')) /\ forall a, In a (attr_map order n') <-> In a (std_attrs own s).
Proof.
  intros special own s tag v n' OK OW S. pose proof (std_keys _ _ _ OK OW) as ND. pose proof (std_fine _ _ _ OK OW) as FI.
  destruct (attr_map_same order OR _ n' S) as (AS & MEM); cbn [x_attrs].
  - apply keys_fst. exact ND.
  - eapply Forall_impl; [|exact FI]. intros a. cbv beta. tauto.
  - split; [apply ascending_nodup; exact AS|exact MEM].
Qed.
(** A special attribute is an own attribute. *)
Lemma special_pick : forall special own s k L, std_ok special [] s -> own_ok special own -> vocab special -> In k special ->
  NoDup (map fst L) -> (forall a, In a L <-> In a (std_attrs own s)) -> pick k L = pick k own.
Proof.
  intros special own s k L OK OW VO IK ND MEM. apply pick_same; auto; [apply keys_fst, OW|]. intros v. rewrite MEM.
  unfold std_attrs. rewrite !in_app_iff, filter_In. unfold vocab in VO. rewrite Forall_forall in VO. destruct (VO k IK) as (V1 & V2).
  split; [|auto]. intros [I|[I|[I|[I _]]]]; auto; exfalso.
  - unfold ci_attr in I. destruct (0 <? s_ci s); [|destruct I]. destruct I as [I|[]]. assert (lit "ci" = k) as <- by congruence. revert V1. vm_compute. discriminate.
  - unfold lang_attr, text_attr in I. destruct (s_lang s); [destruct I|]. destruct I as [I|[]]. assert (lit "xml:lang" = k) as <- by congruence. revert V2. vm_compute. discriminate.
  - destruct OK as (_ & _ & _ & _ & RE). apply (RE k v k I IK), alike_refl.
Qed.

End Order.
