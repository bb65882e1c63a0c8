(** Proofs about typed comments, part 6: properties by name and the calls of the application. *)
From Coq Require Import String Permutation Sorting.Sorted Lia.
From Verif Require Import Base BlockModel TextSpec XmlModel XmlSpec XmlProofs XmlProofs2 XmlProofs3 XmlProofs4 XmlProofs5
  CommentModel CommentSpec CommentProofs CommentProofs2 CommentProofs3 CommentProofs4 CommentProofs5.
Local Open Scope N_scope.
Local Open Scope list_scope.

(** ** A property by its name *)

Definition same_found (a b : option mprop) : Prop :=
  match a, b with Some p, Some q => kept_prop p q | None, None => True | _, _ => False end.
Lemma kept_find : forall name ps qs, Forall2 kept_prop ps qs ->
  same_found (find (fun p => beq (p_name p) name) ps) (find (fun p => beq (p_name p) name) qs).
Proof.
  intros name ps qs F. induction F as [|p q ps qs K F IH]; [exact Logic.I|]. cbn [find].
  assert (p_name q = p_name p) as -> by (destruct K as (_ & X & _); exact X). destruct (beq (p_name p) name); [exact K|exact IH].
Qed.
Lemma first_found : forall a b, Forall2 same_found a b -> same_found (first_some a) (first_some b).
Proof.
  intros a b F. induction F as [|x y a b K F IH]; [exact Logic.I|]. destruct x, y; cbn in K; try contradiction; cbn [first_some]; auto.
Qed.
Lemma kept_get : forall l l' name, kept_list l l' -> same_found (get_prop l name) (get_prop l' name).
Proof.
  intros l. induction l as [s nm desc props trees lists enums IT IL] using mlist_ind2. intros l' name K.
  inversion K as [s0 s1 name0 desc0 ps ps' ts ts' ls ls' es es' KS KP KT KL KE]; subst. cbn [get_prop].
  assert (M : forall u us us', Forall (fun l => forall l' name, kept_list l l' -> same_found (get_prop l name) (get_prop l' name)) us ->
    Forall2 kept_list us us' -> Forall2 same_found (map (fun t => get_prop t u) us) (map (fun t => get_prop t u) us')).
  { intros u us us' FO F. induction F as [|x y us us' KX F IH]; [constructor|]. inversion FO; subst. cbn [map]. constructor; auto. }
  assert (G : forall u, same_found (first_some (map (fun t => get_prop t u) trees ++ map (fun t => get_prop t u) lists))
                                   (first_some (map (fun t => get_prop t u) ts' ++ map (fun t => get_prop t u) ls'))).
  { intros u. apply first_found, Forall2_app; apply M; auto. }
  destruct (after_slash name); [apply G|].
  pose proof (kept_find name _ _ KP) as KF. unfold same_found in KF.
  destruct (find (fun p => beq (p_name p) name) props), (find (fun p => beq (p_name p) name) ps'); try contradiction; [exact KF|apply G].
Qed.

(** ** Calls *)

Lemma names_intro : forall props trees lists enums : list (list N),
  ascending props -> ascending trees -> ascending lists -> ascending enums ->
  ~ In [] props -> ~ In [] lists -> ~ In [] enums ->
  (forall n, In n lists -> In n props -> False) -> (forall n, In n lists -> In n trees -> False) ->
  (forall n, In n enums -> In n props -> False) -> (forall n, In n enums -> In n trees -> False) ->
  (forall n, In n enums -> In n lists -> False) -> names_ok props trees lists enums.
Proof.
  intros props trees lists enums A1 A2 A3 A4 E1 E2 E3 P1 P2 P3 P4 P5. refine (conj A1 (conj A2 (conj A3 (conj A4 (conj E1 (conj E2 (conj E3 (conj _ _)))))))).
  - intros n I. split; intros J; eauto.
  - intros n I. split; [|split]; intros J; eauto.
Qed.

Lemma dup_false : forall name l, is_dup name l = false ->
  name <> [] /\ ~ In name (map p_name (l_props l)) /\ ~ In name (map l_name (l_trees l)) /\
  ~ In name (map l_name (l_lists l)) /\ ~ In name (map n_name (l_enums l)).
Proof.
  intros name l D. unfold is_dup in D. rewrite !Bool.orb_false_iff in D. destruct D as ((((A & B) & C) & E) & F).
  rewrite !has_key_false in *. repeat split; auto. intros ->. discriminate.
Qed.
Lemma dup_true : forall name l, In name (map p_name (l_props l)) -> is_dup name l = true.
Proof. intros name l I. unfold is_dup. apply has_key_in in I. rewrite I. rewrite !Bool.orb_true_r. reflexivity. Qed.

Lemma emplace_all : forall {A} (P : A -> Prop) key x l, P x -> Forall P l -> Forall P (emplace key x l).
Proof.
  intros A P key x l PX F. induction l as [|y l IH]; cbn [emplace]; [auto|]. inversion F; subst.
  destruct (sless (key x) (key y)); [auto|]. destruct (sless (key y) (key x)); [|auto]. constructor; auto.
Qed.

Ltac names NE :=
  repeat match goal with H : In _ (map _ (emplace _ _ _)) |- _ => apply emplace_keys_sub in H; destruct H as [H|H]; [try subst|] end;
  try contradiction; try (exfalso; apply NE; congruence);
  match goal with
  | L : forall n, In n _ -> _, H : In ?n _ |- False => destruct (L n H) as (? & ?); contradiction
  | L : forall n, In n _ -> _, H : In ?n _ |- False => destruct (L n H) as (? & ? & ?); contradiction
  end.

Lemma add_prop_ok : forall p l, prop_ok p -> list_ok l -> list_ok (add_prop p l).
Proof.
  intros p l PO OK. unfold add_prop. destruct (is_dup (p_name p) l) eqn:D; [exact OK|].
  apply dup_false in D. destruct D as (NE & D1 & D2 & D3 & D4).
  inversion OK as [s name desc props trees lists enums SO LN TN LD NM PS TO LO EO]; subst.
  cbn [l_std l_name l_desc l_props l_trees l_lists l_enums] in *.
  destruct NM as (A1 & A2 & A3 & A4 & E1 & E2 & E3 & L & E). constructor; auto; [|apply emplace_all; auto].
  apply names_intro; auto; [apply emplace_ascending; auto| | | | | |]; try (intros I; names NE); intros n H I; names NE.
Qed.
Lemma add_prop_head : forall p l, l_std (add_prop p l) = l_std l /\ l_name (add_prop p l) = l_name l /\ l_desc (add_prop p l) = l_desc l /\
  l_trees (add_prop p l) = l_trees l /\ l_lists (add_prop p l) = l_lists l /\ l_enums (add_prop p l) = l_enums l.
Proof. intros p l. unfold add_prop. destruct (is_dup _ _); repeat split. Qed.
Lemma add_props_ok : forall ps l, Forall prop_ok ps -> list_ok l ->
  list_ok (fold_left (fun o p => add_prop p o) ps l) /\ l_name (fold_left (fun o p => add_prop p o) ps l) = l_name l.
Proof.
  induction ps as [|p ps IH]; intros l F OK; [auto|]. inversion F; subst. cbn [fold_left].
  destruct (IH (add_prop p l)) as (A & B); auto; [apply add_prop_ok; auto|]. split; [exact A|]. rewrite B. apply add_prop_head.
Qed.

Lemma props_of_ok : forall l, list_ok l -> Forall prop_ok (l_props l).
Proof. intros l OK. inversion OK; subst. auto. Qed.

Lemma add_tree_ok : forall t l, list_ok t -> list_ok l -> ~ In (l_name t) (map l_name (l_lists l)) ->
  ~ In (l_name t) (map n_name (l_enums l)) -> list_ok (add_tree t l).
Proof.
  intros t l TK OK NL NE. unfold add_tree.
  inversion OK as [s name desc props trees lists enums SO LN TN LD NM PS TO LO EO]; subst.
  cbn [l_std l_name l_desc l_props l_trees l_lists l_enums] in *.
  destruct (has_key l_name (l_name t) trees) eqn:HK.
  - assert (X : Forall list_ok (map (fun old => if beq (l_name old) (l_name t) then fold_left (fun o p => add_prop p o) (l_props t) old else old) trees) /\
      map l_name (map (fun old => if beq (l_name old) (l_name t) then fold_left (fun o p => add_prop p o) (l_props t) old else old) trees) = map l_name trees).
    { clear -TO TK. induction trees as [|x trees IH]; [split; [constructor|reflexivity]|]. inversion TO; subst. destruct IH as (A & B); auto.
      cbn [map]. rewrite B. destruct (beq (l_name x) (l_name t)); [|auto].
      destruct (add_props_ok (l_props t) x) as (C & D); auto; [apply props_of_ok; auto|]. rewrite D. auto. }
    destruct X as (X1 & X2). constructor; auto. rewrite X2. exact NM.
  - apply has_key_false in HK. destruct NM as (A1 & A2 & A3 & A4 & E1 & E2 & E3 & L & E).
    constructor; auto; [|apply emplace_all; auto].
    apply names_intro; auto; [apply emplace_ascending; auto| | | | |]; intros n H I; names NE.
Qed.
Lemma add_list_ok : forall t l, list_ok t -> list_ok l -> list_ok (add_list t l).
Proof.
  intros t l TK OK. unfold add_list. destruct (is_dup (l_name t) l) eqn:D; [exact OK|].
  apply dup_false in D. destruct D as (NE & D1 & D2 & D3 & D4).
  inversion OK as [s name desc props trees lists enums SO LN TN LD NM PS TO LO EO]; subst.
  cbn [l_std l_name l_desc l_props l_trees l_lists l_enums] in *.
  destruct NM as (A1 & A2 & A3 & A4 & E1 & E2 & E3 & L & E). constructor; auto; [|apply emplace_all; auto].
  apply names_intro; auto; [apply emplace_ascending; auto| | | | | |]; try (intros I; names NE); intros n H I; names NE.
Qed.
Lemma add_enum_ok : forall e l, enum_ok e -> list_ok l -> list_ok (add_enum e l).
Proof.
  intros e l TK OK. unfold add_enum. destruct (is_dup (n_name e) l) eqn:D; [exact OK|].
  apply dup_false in D. destruct D as (NE & D1 & D2 & D3 & D4).
  inversion OK as [s name desc props trees lists enums SO LN TN LD NM PS TO LO EO]; subst.
  cbn [l_std l_name l_desc l_props l_trees l_lists l_enums] in *.
  destruct NM as (A1 & A2 & A3 & A4 & E1 & E2 & E3 & L & E). constructor; auto; [|apply emplace_all; auto].
  apply names_intro; auto; [apply emplace_ascending; auto| | | | | |]; try (intros I; names NE); intros n H I; names NE.
Qed.

Lemma list0_ok : list_ok mlist0.
Proof.
  assert (L : line_ok []) by (exists []; split; [constructor|reflexivity]).
  constructor; auto; try reflexivity; try apply Forall_nil.
  - split; [reflexivity|]. split; [exact L|]. split; [apply NoDup_nil|]. split; [apply Forall_nil|]. intros k v o [].
  - repeat split; try apply SSorted_nil; auto.
Qed.

Lemma calls_ok : forall ops, Forall call_ok ops -> trees_first ops ->
  let l := fold_left do_call ops mlist0 in
  list_ok l /\ l_std l = std0 /\ l_name l = [] /\ l_desc l = [] /\
  (forall n, In n (map l_name (l_lists l)) \/ In n (map n_name (l_enums l)) -> exists op, In op ops /\ list_name op = Some n).
Proof.
  intros ops. induction ops as [|op ops IH] using rev_ind; intros F TF.
  - cbn. split; [exact list0_ok|]. repeat split. intros n [[]|[]].
  - apply Forall_app in F. destruct F as (F & FO). inversion FO as [|? ? CO _]; subst. rewrite fold_left_app. cbn [fold_left].
    destruct IH as (OK & H1 & H2 & H3 & NM); auto.
    { intros pre t post o E I. apply (TF pre t (post ++ [op]) o); auto. rewrite E, <- app_assoc. reflexivity. }
    set (l := fold_left do_call ops mlist0) in *.
    assert (OLD : forall n, In n (map l_name (l_lists l)) \/ In n (map n_name (l_enums l)) -> exists o, In o (ops ++ [op]) /\ list_name o = Some n).
    { intros n I. destruct (NM n I) as (o & IO & E). exists o. rewrite in_app_iff. auto. }
    assert (NEW : In op (ops ++ [op])) by (rewrite in_app_iff; right; left; reflexivity).
    destruct op as [p|t|t|e]; cbn [do_call call_ok] in *.
    + destruct (add_prop_head p l) as (-> & -> & -> & _ & -> & ->). split; [apply add_prop_ok; auto|]. auto.
    + split; [|cbn [add_tree l_std l_name l_desc l_lists l_enums]; auto]. apply add_tree_ok; auto.
      * intros I. destruct (NM _ (or_introl I)) as (o & IO & E). exact (TF ops t [] o eq_refl IO E).
      * intros I. destruct (NM _ (or_intror I)) as (o & IO & E). exact (TF ops t [] o eq_refl IO E).
    + split; [apply add_list_ok; auto|]. unfold add_list. destruct (is_dup _ _); [auto|]. cbn [l_std l_name l_desc l_lists l_enums].
      repeat split; auto. intros n [I|I]; [|apply OLD; auto]. apply emplace_keys_sub in I. destruct I as [->|I]; [eauto|apply OLD; auto].
    + split; [apply add_enum_ok; auto|]. unfold add_enum. destruct (is_dup _ _); [auto|]. cbn [l_std l_name l_desc l_lists l_enums].
      repeat split; auto. intros n [I|I]; [apply OLD; auto|]. apply emplace_keys_sub in I. destruct I as [->|I]; [eauto|apply OLD; auto].
Qed.

(** ** The properties of the header *)

Lemma find_emplace : forall x l k, ~ In (p_name x) (map p_name l) -> ascending (map p_name l) ->
  find (fun p => beq (p_name p) k) (emplace p_name x l) = if beq (p_name x) k then Some x else find (fun p => beq (p_name p) k) l.
Proof.
  intros x l k NI AS. induction l as [|y l IH]; cbn [emplace find]; [reflexivity|].
  cbn [map In] in NI. inversion AS as [|? ? AS' FA]; subst.
  destruct (sless (p_name x) (p_name y)) eqn:L0; [reflexivity|].
  destruct (sless (p_name y) (p_name x)) eqn:L.
  - cbn [find]. rewrite IH by tauto. destruct (beq (p_name y) k) eqn:EY; [|reflexivity].
    destruct (beq (p_name x) k) eqn:EX; [|reflexivity]. apply beq_true in EX. apply beq_true in EY. exfalso. apply NI. left. congruence.
  - exfalso. destruct (lt_total (p_name x) (p_name y)) as [[G|G]|G].
    + apply sless_lt in G. congruence.
    + apply NI. left. auto.
    + apply sless_lt in G. congruence.
Qed.

Definition hd_prop (op : hd_call) : mprop :=
  match op with
  | HSet n v => simple_prop (hd_text n) v
  | HIndex z => mkProp std0 (lit "Recorder.FileIndex") [] [] [] 2 false (int_text z)
  end.
Lemma do_hd_prop : forall c op, do_hd c op = mkC (c_tx c) (add_prop (hd_prop op) (c_common c)).
Proof. intros c []; reflexivity. Qed.

Lemma no_attrs : forall own, std_ok prop_keys own std0.
Proof.
  intros own. split; [reflexivity|]. split; [exists []; split; [constructor|reflexivity]|]. split; [apply NoDup_nil|]. split; [apply Forall_nil|].
  intros k v o [].
Qed.
Lemma line_text : forall s, line_ok s -> text_ok s.
Proof. intros s (cps & F & E). exists cps. split; [|exact E]. eapply Forall_impl; [|exact F]. cbv beta. tauto. Qed.

Lemma hd_prop_ok : forall op, hd_call_ok op -> prop_ok (hd_prop op).
Proof.
  intros op OK. assert (L0 : line_ok []) by (exists []; split; [constructor|reflexivity]).
  destruct op as [n v|z].
  - cbn [hd_prop hd_call_ok] in *. unfold prop_ok, simple_prop. cbn [p_std p_name p_desc p_unit p_ref p_type p_value].
    split; [apply no_attrs|]. split; [destruct n; apply line_lit; reflexivity|]. split; [destruct n; reflexivity|].
    repeat (split; [assumption|]). split; [lia|exact OK].
  - unfold prop_ok, hd_prop. cbn [p_std p_name p_desc p_unit p_ref p_type p_value].
    split; [apply no_attrs|]. split; [apply line_lit; reflexivity|]. split; [reflexivity|].
    repeat (split; [assumption|]). split; [lia|]. apply line_text. apply int_line.
Qed.

Lemma hd_calls : forall ops l, Forall hd_call_ok ops -> list_ok l -> l_trees l = [] -> l_lists l = [] -> l_enums l = [] -> forall t,
  exists l', fold_left do_hd ops (mkC t l) = mkC t l' /\ list_ok l' /\ l_std l' = l_std l /\ l_name l' = l_name l /\ l_desc l' = l_desc l /\
    l_trees l' = [] /\ l_lists l' = [] /\
    (forall k, k <> [] -> find (fun p => beq (p_name p) k) (l_props l') =
       match find (fun p => beq (p_name p) k) (l_props l) with
       | Some p => Some p
       | None => find (fun p => beq (p_name p) k) (map hd_prop ops)
       end).
Proof.
  induction ops as [|op ops IH]; intros l F OK HT HL HE t.
  - exists l. repeat split; auto. intros k NK. cbn [map find]. destruct (find _ _); reflexivity.
  - inversion F; subst. cbn [fold_left]. rewrite do_hd_prop. cbn [c_tx c_common].
    destruct (add_prop_head (hd_prop op) l) as (A1 & A2 & A3 & A4 & A5 & A6).
    destruct (IH (add_prop (hd_prop op) l)) with (t := t) as (l' & E & OK' & B1 & B2 & B3 & B4 & B5 & FI); auto; try congruence.
    { apply add_prop_ok; auto. apply hd_prop_ok. auto. }
    exists l'. repeat split; auto; try congruence. intros k NK. rewrite FI by auto. cbn [map find].
    unfold add_prop. destruct (is_dup (p_name (hd_prop op)) l) eqn:D.
    + destruct (find (fun p => beq (p_name p) k) (l_props l)) eqn:FN; [reflexivity|].
      destruct (beq (p_name (hd_prop op)) k) eqn:EK; [|reflexivity]. exfalso. apply beq_true in EK.
      unfold is_dup in D. rewrite HT, HL, HE, EK in D. cbn [has_key existsb] in D. rewrite !Bool.orb_false_r in D.
      apply Bool.orb_true_iff in D. destruct D as [D|D]; [apply beq_true in D; auto|].
      apply has_key_in in D. apply in_map_iff in D. destruct D as (p & PN & PI).
      pose proof (find_none _ _ FN p PI) as X. cbv beta in X. rewrite PN, beq_refl in X. discriminate.
    + apply dup_false in D. destruct D as (NE & D1 & _). cbn [l_props].
      assert (AS : ascending (map p_name (l_props l))) by (inversion OK as [s name desc props trees lists enums SO LN TN LD NM]; apply NM).
      rewrite find_emplace by auto. destruct (beq (p_name (hd_prop op)) k) eqn:EK; [|reflexivity].
      destruct (find (fun p => beq (p_name p) k) (l_props l)) eqn:FN; [|reflexivity]. exfalso. apply find_some in FN.
      destruct FN as (PI & PN). cbv beta in PN. apply beq_true in PN. apply beq_true in EK. apply D1. apply in_map_iff. exists m. split; [congruence|auto].
Qed.

Lemma find_set : forall n ops, match find (fun p => beq (p_name p) (hd_text n)) (map hd_prop ops) with Some p => p_value p | None => [] end = first_set n ops.
Proof.
  intros n ops. induction ops as [|op ops IH]; [reflexivity|]. cbn [map find first_set]. destruct op as [m v|z].
  - cbn [hd_prop simple_prop p_name]. destruct (beq (hd_text m) (hd_text n)); [reflexivity|exact IH].
  - cbn [hd_prop p_name]. assert (beq (lit "Recorder.FileIndex") (hd_text n) = false) as -> by (destruct n; reflexivity). exact IH.
Qed.
Lemma find_index : forall ops, find (fun p => beq (p_name p) (lit "Recorder.FileIndex")) (map hd_prop ops) =
  match find (fun op => match op with HIndex _ => true | _ => false end) ops with Some op => Some (hd_prop op) | None => None end.
Proof.
  induction ops as [|op ops IH]; [reflexivity|]. cbn [map find]. destruct op as [m v|z].
  - cbn [hd_prop simple_prop p_name]. assert (beq (hd_text m) (lit "Recorder.FileIndex") = false) as -> by (destruct m; reflexivity). exact IH.
  - reflexivity.
Qed.
Lemma first_index_find : forall ops, first_index ops =
  match find (fun op => match op with HIndex _ => true | _ => false end) ops with Some (HIndex z) => z | _ => (-1)%Z end.
Proof. induction ops as [|[] ops IH]; cbn; auto. Qed.

Lemma header_values : forall ops t c', Forall hd_call_ok ops -> kept_comment (fold_left do_hd ops (mkC t mlist0)) c' ->
  (forall n, value_of c' (hd_text n) = trim (first_set n ops)) /\ get_index c' = first_index ops.
Proof.
  intros ops t c' F (_ & K). destruct (hd_calls ops mlist0 F list0_ok eq_refl eq_refl eq_refl t) as (l & E & OK & _ & _ & _ & HT & HL & FI).
  rewrite E in K. cbn [c_common] in K.
  assert (G : forall k, k <> [] -> after_slash k = None ->
    get_prop l k = find (fun p => beq (p_name p) k) (map hd_prop ops)).
  { intros k NK AS. destruct l as [s nm desc props trees lists enums]. cbn [l_trees l_lists l_props] in *. subst. cbn [get_prop]. rewrite AS, FI by auto.
    change (l_props mlist0) with (@nil mprop). cbn [map app first_some].
    destruct (find (fun p => beq (p_name p) k) (map hd_prop ops)); reflexivity. }
  split.
  - intros n. unfold value_of. assert (NK : hd_text n <> []) by (destruct n; vm_compute; discriminate).
    assert (AS : after_slash (hd_text n) = None) by (destruct n; reflexivity).
    pose proof (kept_get l (c_common c') (hd_text n) K) as S. rewrite (G _ NK AS) in S. rewrite <- find_set.
    unfold same_found in S. destruct (find _ _) as [p|], (get_prop _ _) as [q|]; try contradiction; [|reflexivity].
    destruct S as (_ & _ & _ & _ & _ & _ & _ & V). exact V.
  - unfold get_index, value_of. assert (NK : lit "Recorder.FileIndex" <> []) by (vm_compute; discriminate).
    pose proof (kept_get l (c_common c') (lit "Recorder.FileIndex") K) as S. rewrite (G _ NK eq_refl) in S. rewrite find_index in S. rewrite first_index_find.
    destruct (find (fun op : hd_call => match op with HSet _ _ => false | HIndex _ => true end) ops) as [op|] eqn:FN.
    + apply find_some in FN. destruct FN as (IN & KD). destruct op as [|z]; [discriminate|]. unfold same_found in S.
      destruct (get_prop (c_common c') (lit "Recorder.FileIndex")) as [q|]; [|contradiction].
      destruct S as (_ & _ & _ & _ & _ & _ & _ & V). rewrite V. cbn [hd_prop p_value].
      rewrite Forall_forall in F. specialize (F _ IN). cbn [hd_call_ok] in F. rewrite int_trim.
      pose proof (stoll_int z F) as ST. destruct (int_head z) as (c & r & EH & _). rewrite EH in *. rewrite ST. reflexivity.
    + unfold same_found in S. destruct (get_prop (c_common c') _) as [q|]; [contradiction|]. reflexivity.
Qed.
