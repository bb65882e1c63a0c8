(** Proofs about the comments of channels, sources, events and units, part 3: texts with an offset,
    alternative names and formulas. *)
From Coq Require Import String Permutation Sorting.Sorted Lia.
From Verif Require Import Base BlockModel TextSpec XmlModel XmlSpec XmlProofs XmlProofs2 XmlProofs3 XmlProofs4 XmlProofs5
  CommentModel CommentSpec CommentProofs CommentProofs2 CommentProofs3 CommentProofs4 CommentProofs5 NoteModel NoteSpec NoteProofs NoteProofs2.
Local Open Scope N_scope.
Local Open Scope list_scope.

Section Order.
Context (order : list (list N * list N) -> list (list N * list N)) (OR : any_order order).

Ltac plain_tag :=
  match goal with
  | |- name_ok _ => apply name_lit; reflexivity
  | |- ~ In _ _ => apply colon_lit; reflexivity
  | |- _ <> _ => vm_compute; discriminate
  | |- _ = _ => reflexivity
  | |- _ => assumption
  end.

(** ** A text with an offset *)
Definition offset_attr (t : mstr) : list (list N * list N) :=
  piece (lit "offset", match t_off t with Some o => if 0 <? o then Some (int_text (Z.of_N o)) else None | None => None end).
Lemma text_vocab : vocab text_keys.
Proof. repeat constructor. Qed.
Lemma offset_own : forall t, own_ok text_keys (offset_attr t).
Proof.
  intros t. unfold offset_attr. destruct (t_off t) as [o|]; [|apply own_nil]. destruct (0 <? o); [|apply own_nil]. split.
  - apply apart_ok. reflexivity.
  - constructor; [|constructor]. cbn [fst snd]. split; [left; reflexivity|]. split; [plain_tag|]. split; [apply int_line|].
    split; intros A; apply ieq_alike in A; vm_compute in A; discriminate.
Qed.
Lemma link_written : forall t, str_ok t -> exists a, Permutation a (std_attrs (offset_attr t) (t_std t)) /\
  to_str (lit "linker_name") t = match t_text t with [] => [] | _ => [XNode (lit "linker_name") a (t_text t) []] end.
Proof.
  intros t (SO & TX). pose proof (offset_own t) as OW.
  exists (fold_left add_attr (offset_attr t) (std_attrs [] (t_std t))). split.
  { apply (late text_keys); [apply std_none; auto|auto|]. eapply none_agrees; eauto. }
  unfold to_str. destruct (t_text t) as [|c r] eqn:ET; [reflexivity|]. rewrite <- ET.
  change (beq (lit "linker_name") (lit "TX")) with false. change (beq (lit "linker_name") (lit "linker_name")) with true.
  assert (negb (beq (t_text t) []) || false = true) as -> by (rewrite ET; reflexivity). f_equal.
  rewrite new_node_shape by plain_tag. unfold set_value. cbn [x_tag x_attrs x_kids]. set (n := put_std _ _).
  assert (N0 : n = XNode (lit "linker_name") (std_attrs [] (t_std t)) (t_text t) []).
  { subst n. pose proof (std_written _ _ _ (XNode (lit "linker_name") [] (t_text t) []) SO (own_nil _) eq_refl) as W.
    destruct (put_std_shape (t_std t) (XNode (lit "linker_name") [] (t_text t) [])) as (A & B & C & _).
    destruct (put_std _ _) as [tg at_ vl ks]. cbn [x_tag x_attrs x_value x_kids] in *. congruence. }
  rewrite N0. unfold offset_attr. destruct (t_off t) as [o|]; [|reflexivity]. destruct (0 <? o); reflexivity.
Qed.
Lemma link_ok : forall t, str_ok t -> Forall node_ok (to_str (lit "linker_name") t).
Proof.
  intros t OK. destruct (link_written t OK) as (a & P & ->). destruct (t_text t) eqn:E; constructor; [|constructor].
  eapply perm_ok; [|exact P]. rewrite <- E. destruct OK as (SO & TX). pose proof (offset_own t) as OW.
  apply (std_none _ (offset_attr t)) in SO. constructor; auto; [plain_tag|apply keys_fst; eapply std_keys; eauto|eapply std_fine; eauto].
Qed.
Lemma link_fold : forall L t s', NoDup (map fst L) ->
  fold_left (fun r a => obind r (fun s => read_attr s a)) (filter (usual text_keys) L) (Some (t_std t)) = Some s' ->
  fold_left read_str_attr L t = mkStr s' (t_text t) (over (pick (lit "offset") L) stoull (t_off t)).
Proof.
  induction L as [|[k v] L IH]; intros t s' ND F.
  - cbn in F. assert (t_std t = s') as <- by congruence. destruct t. reflexivity.
  - inversion ND as [|? ? NI ND']; subst. cbn [fst] in NI. cbn [fold_left]. pose proof (pick_none k L NI) as PN.
    assert (NN : forall r, fold_left (fun r a => obind r (fun s => read_attr s a)) r None = None).
    { induction r as [|a r IHr]; [reflexivity|]. cbn [fold_left obind]. exact IHr. }
    cbn [filter] in F. rewrite pick_cons. cbn [fst snd]. destruct (usual text_keys (k, v)) eqn:U.
    + assert (NK : beq k (lit "offset") = false).
      { apply beq_false. intros ->. apply usual_iff in U. apply U. left. reflexivity. }
      rewrite NK. cbn [fold_left obind] in F. destruct (read_attr (t_std t) (k, v)) as [s1|] eqn:RA; [|rewrite NN in F; discriminate].
      assert (ST : read_str_attr t (k, v) = mkStr s1 (t_text t) (t_off t)).
      { unfold read_str_attr. unfold read_attr in RA. destruct (beq k (lit "ci") && negb (beq v [])).
        - destruct (stoll v); cbn [obind] in RA; [congruence|discriminate].
        - destruct (beq k (lit "xml:lang")); [congruence|]. rewrite NK. congruence. }
      rewrite ST. apply (IH (mkStr s1 (t_text t) (t_off t))); auto.
    + assert (k = lit "offset") as ->.
      { destruct (in_dec (list_eq_dec N.eq_dec) k text_keys) as [[I|[]]|I]; auto. exfalso.
        assert (usual text_keys (k, v) = true) by (apply usual_iff; exact I). congruence. }
      change (read_str_attr t (lit "offset", v)) with (mkStr (t_std t) (t_text t) (stoull v)).
      rewrite (IH _ s') by auto. rewrite PN, beq_refl. reflexivity.
Qed.
Lemma link_case : forall t ks, linker_ok t -> Forall2 same (to_str (lit "linker_name") t) ks ->
  (ks = [] /\ kept_linker t mstr0) \/
  (exists k, ks = [k] /\ x_tag k = lit "linker_name" /\ kept_linker t (from_str order k mstr0)).
Proof.
  intros t ks (OK & OB) S. destruct (link_written t OK) as (a & P & E). rewrite E in S. unfold kept_linker. destruct (t_text t) eqn:ET.
  - inversion S; subst. auto.
  - inversion S as [|? k ? r S1 S2]; subst. inversion S2; subst. right. rewrite <- ET in S1. apply (same_perm _ _ _ _ _ _ S1) in P.
    exists k. split; [reflexivity|]. split; [symmetry; exact (same_tag _ _ P)|]. destruct OK as (SO & TX). pose proof (offset_own t) as OW.
    pose proof (std_none _ (offset_attr t) _ SO) as SO'. pose proof text_vocab as VO.
    destruct (read_members order OR text_keys _ _ _ _ _ SO' OW P) as (ND & MEM).
    destruct (usual_fold text_keys _ _ _ SO OW VO ND MEM) as (s' & F & K).
    unfold from_str. rewrite (link_fold _ mstr0 s' ND F). cbn [t_std t_text t_off]. split; [exact K|]. split; [rewrite (value_same _ _ P), <- ET; reflexivity|].
    rewrite (special_pick text_keys (offset_attr t) (t_std t) (lit "offset") _ SO OW VO) by (auto; left; reflexivity).
    unfold offset_of in *. cbn [t_off mstr0]. unfold offset_attr. destruct (t_off t) as [o|]; [|reflexivity]. destruct (N.ltb_spec 0 o) as [LT|GE].
    + unfold piece. cbn [snd fst]. rewrite pick_cons. cbn [fst snd]. rewrite beq_refl. cbn [over]. rewrite stoull_int by exact OB. reflexivity.
    + cbn. lia.
Qed.

(** ** Alternative names *)
Definition names_attrs (a : altn) : list (list N * list N) := text_attr "name" (a_default a).
Definition strs (tag : list N) (ts : list mstr) : list xnode := map (str_node tag) (filter has_text ts).
Lemma to_strs_tag : forall tag ts, name_ok tag -> tag <> lit "linker_name" -> tag <> lit "TX" -> Forall str_ok ts ->
  concat (map (to_str tag) ts) = strs tag ts.
Proof.
  intros tag ts NT NL NX F. unfold strs. induction F as [|t ts OK F IH]; [reflexivity|]. cbn [map concat filter].
  rewrite to_str_opt by auto. rewrite IH. unfold opt_nodes. destruct (has_text t); reflexivity.
Qed.
Definition names_kids (a : altn) : list xnode :=
  strs (lit "name") (a_names a) ++ strs (lit "display") (a_display a) ++ strs (lit "vendor") (a_vendors a) ++
  strs (lit "description") (a_descs a).
Lemma strs_ok : forall tag ts, name_ok tag -> Forall str_ok ts -> Forall node_ok (strs tag ts).
Proof.
  intros tag ts NT F. unfold strs. apply Forall_forall. intros n I. apply in_map_iff in I. destruct I as (t & <- & I). apply filter_In in I.
  apply str_node_ok; auto. rewrite Forall_forall in F. apply F. tauto.
Qed.
Lemma names_own : forall a, line_ok (a_default a) -> own_ok names_keys (names_attrs a).
Proof.
  intros a LD. split; [unfold names_attrs, text_attr; destruct (a_default a); apply apart_ok; reflexivity|]. unfold names_attrs. known.
Qed.
Lemma names_vocab : vocab names_keys.
Proof. repeat constructor. Qed.
Lemma names_written : forall tag a, name_ok tag -> altn_ok a -> exists at_, Permutation at_ (std_attrs (names_attrs a) (a_std a)) /\
  to_names tag a = if a_active a then [XNode tag at_ [] (names_kids a)] else [].
Proof.
  intros tag a NT (SO & AG & LD & F1 & F2 & F3 & F4). pose proof (names_own a LD) as OW.
  exists (fold_left add_attr (names_attrs a) (std_attrs [] (a_std a))). split; [apply (late names_keys); auto|].
  unfold to_names. destruct (a_active a); [|reflexivity]. cbv zeta. f_equal.
  rewrite (to_strs_tag (lit "name")), (to_strs_tag (lit "display")), (to_strs_tag (lit "vendor")), (to_strs_tag (lit "description")) by plain_tag.
  fold (names_kids a). rewrite new_node_shape by auto. set (n0 := put_std _ _).
  assert (N0 : x_tag n0 = tag /\ x_value n0 = [] /\ x_kids n0 = [] /\ x_attrs n0 = std_attrs [] (a_std a)).
  { destruct (put_std_shape (a_std a) (XNode tag [] [] [])) as (A & B & C & _). repeat split; auto.
    apply (std_written []); auto; [eapply std_bare; eauto|apply own_nil]. }
  pose proof (adds_text "name" (a_default a) n0) as (B1 & B2 & B3 & B4). destruct N0 as (C1 & C2 & C3 & C4).
  unfold set_kids. rewrite B1, B2, B4, C1, C2, C4. reflexivity.
Qed.
Lemma names_ok_nodes : forall tag a, name_ok tag -> altn_ok a -> Forall node_ok (to_names tag a).
Proof.
  intros tag a NT OK. destruct (names_written tag a NT OK) as (at_ & P & ->). destruct (a_active a); constructor; [|constructor].
  eapply perm_ok; [|exact P]. destruct OK as (SO & AG & LD & F1 & F2 & F3 & F4). pose proof (names_own a LD) as OW. constructor; auto.
  - apply keys_fst. eapply std_keys; eauto.
  - eapply std_fine; eauto.
  - apply text_nil.
  - unfold names_kids. rewrite !Forall_app. repeat split; apply strs_ok; plain_tag.
Qed.
Lemma solid_filter : forall ts, filter solid (filter has_text ts) = filter solid ts.
Proof.
  induction ts as [|t ts IH]; [reflexivity|]. cbn [filter]. unfold has_text at 1. destruct (t_text t) eqn:E.
  - assert (solid t = false) as -> by (unfold solid; rewrite E; reflexivity). exact IH.
  - cbn [filter]. rewrite IH. reflexivity.
Qed.
Lemma add_solid : forall t t' l, kept_str t t' -> add_text t' l = if solid t then l ++ [t'] else l.
Proof. intros t t' l (_ & E & _). unfold add_text, solid. rewrite E. destruct (trim (t_text t)); reflexivity. Qed.

Definition name_slot (i : nat) (l : list mstr) (a : altn) : altn :=
  match i, a with
  | O, mkAlt s d ns ds vs es => mkAlt s d (ns ++ l) ds vs es
  | S O, mkAlt s d ns ds vs es => mkAlt s d ns (ds ++ l) vs es
  | S (S O), mkAlt s d ns ds vs es => mkAlt s d ns ds (vs ++ l) es
  | _, mkAlt s d ns ds vs es => mkAlt s d ns ds vs (es ++ l)
  end.
Lemma slot_nil : forall i a, name_slot i [] a = a.
Proof. intros [|[|[|i]]] []; cbn [name_slot]; rewrite app_nil_r; reflexivity. Qed.
Lemma slot_app : forall i l m a, name_slot i m (name_slot i l a) = name_slot i (l ++ m) a.
Proof. intros [|[|[|i]]] l m []; cbn [name_slot]; rewrite app_assoc; reflexivity. Qed.
Lemma slot_fold : forall tag i (p : mstr -> bool), (forall t k a, str_ok t -> same (str_node tag t) k -> kept_str t (from_str order k mstr0) ->
    read_name_kid order a k = if p t then name_slot i [from_str order k mstr0] a else a) ->
  forall ts ks a, Forall str_ok ts -> Forall2 same (map (str_node tag) ts) ks ->
  exists l, fold_left (read_name_kid order) ks a = name_slot i l a /\ Forall2 kept_str (filter p ts) l.
Proof.
  intros tag i p ST. induction ts as [|t ts IH]; intros ks a F S.
  - inversion S; subst. exists []. split; [symmetry; apply slot_nil|constructor].
  - cbn [map] in S. inversion S as [|? k ? r S1 S2]; subst. inversion F as [|? ? OK F']; subst. cbn [fold_left filter].
    pose proof (str_read order OR tag t k OK S1) as K. rewrite (ST t k a OK S1 K).
    destruct (p t).
    + destruct (IH r (name_slot i [from_str order k mstr0] a) F' S2) as (l & FO & KS). exists (from_str order k mstr0 :: l). rewrite FO, slot_app. split; [reflexivity|constructor; auto].
    + apply IH; auto.
Qed.
Lemma filter_Forall : forall {A} (P : A -> Prop) p l, Forall P l -> Forall P (filter p l).
Proof. intros A P p l F. apply Forall_forall. intros x I. apply filter_In in I. rewrite Forall_forall in F. apply F. tauto. Qed.
Lemma has_filter : forall ts, filter has_text (filter has_text ts) = filter has_text ts.
Proof. induction ts as [|t ts IH]; [reflexivity|]. cbn [filter]. destruct (has_text t) eqn:E; [|exact IH]. cbn [filter]. rewrite E, IH. reflexivity. Qed.

Lemma names_stored : forall a, a_active a = some_name a.
Proof. intros a. unfold a_active, some_name. destruct (a_names a), (a_display a), (a_vendors a), (a_descs a); reflexivity. Qed.
Lemma names_read : forall tag a at_ n', altn_ok a -> a_active a = true -> Permutation at_ (std_attrs (names_attrs a) (a_std a)) ->
  same (XNode tag at_ [] (names_kids a)) n' -> exists a', from_names order n' altn0 = Some a' /\ kept_altn a a'.
Proof.
  intros tag a at_ n' (SO & AG & LD & F1 & F2 & F3 & F4) AC P S. apply (fun S => same_perm _ _ _ _ _ _ S P) in S.
  pose proof (names_own a LD) as OW. pose proof names_vocab as VO. change (text_attr "name" (a_default a)) with (names_attrs a) in SO.
  destruct (std_read order OR names_keys (names_attrs a) (a_std a) _ n' SO OW S eq_refl) as (s' & FS & K).
  unfold from_names. change (a_std altn0) with std0. rewrite FS. cbn [obind].
  rewrite (text_read order OR names_keys (names_attrs a) (a_std a) (lit "name") tag [] (names_kids a) n' SO OW VO (or_introl eq_refl) S).
  unfold names_attrs at 1. rewrite found_text.
  pose proof (same_kids _ _ S) as SK. cbn [x_kids] in SK. unfold names_kids, strs in SK.
  apply Forall2_app_inv_l in SK. destruct SK as (k1 & kr & S1 & SK & E1). rewrite E1. clear E1.
  apply Forall2_app_inv_l in SK. destruct SK as (k2 & kr2 & S2 & SK & ->).
  apply Forall2_app_inv_l in SK. destruct SK as (k3 & k4 & S3 & S4 & ->). rewrite !fold_left_app.
  assert (TG : forall tg t k u, name_ok (lit tg) -> ~ In 58 (lit tg) -> same (str_node (lit tg) t) k -> is_tag u k = ieq u (lit tg)).
  { intros tg t k u NT NC SS. apply (tag_is tg t); auto. }
  eexists. split; [reflexivity|]. unfold kept_altn. rewrite <- names_stored, AC.
  destruct (slot_fold (lit "name") 0 solid) with (ts := filter has_text (a_names a)) (ks := k1)
    (a := mkAlt s' (trim (a_default a)) [] [] [] []) as (l1 & E1 & K1); [|apply filter_Forall; auto|exact S1|].
  { intros t k [s d ns ds vs es] OK SS KK. unfold read_name_kid. rewrite !(fun u => TG "name"%string t k u) by plain_tag.
    change (ieq (lit "name") (lit "name")) with true. cbv iota. rewrite (add_solid _ _ _ KK). destruct (solid t); reflexivity. }
  destruct (slot_fold (lit "display") 1 solid) with (ts := filter has_text (a_display a)) (ks := k2)
    (a := name_slot 0 l1 (mkAlt s' (trim (a_default a)) [] [] [] [])) as (l2 & E2 & K2); [|apply filter_Forall; auto|exact S2|].
  { intros t k [s d ns ds vs es] OK SS KK. unfold read_name_kid. rewrite !(fun u => TG "display"%string t k u) by plain_tag.
    change (ieq (lit "name") (lit "display")) with false. change (ieq (lit "display") (lit "display")) with true. cbv iota. rewrite (add_solid _ _ _ KK). destruct (solid t); reflexivity. }
  destruct (slot_fold (lit "vendor") 2 solid) with (ts := filter has_text (a_vendors a)) (ks := k3)
    (a := name_slot 1 l2 (name_slot 0 l1 (mkAlt s' (trim (a_default a)) [] [] [] []))) as (l3 & E3 & K3); [|apply filter_Forall; auto|exact S3|].
  { intros t k [s d ns ds vs es] OK SS KK. unfold read_name_kid. rewrite !(fun u => TG "vendor"%string t k u) by plain_tag.
    change (ieq (lit "name") (lit "vendor")) with false. change (ieq (lit "display") (lit "vendor")) with false. change (ieq (lit "vendor") (lit "vendor")) with true. cbv iota. rewrite (add_solid _ _ _ KK). destruct (solid t); reflexivity. }
  destruct (slot_fold (lit "description") 3 (fun _ => true)) with (ts := filter has_text (a_descs a)) (ks := k4)
    (a := name_slot 2 l3 (name_slot 1 l2 (name_slot 0 l1 (mkAlt s' (trim (a_default a)) [] [] [] [])))) as (l4 & E4 & K4); [|apply filter_Forall; auto|exact S4|].
  { intros t k [s d ns ds vs es] OK SS KK. unfold read_name_kid. rewrite !(fun u => TG "description"%string t k u) by plain_tag.
    change (ieq (lit "name") (lit "description")) with false. change (ieq (lit "display") (lit "description")) with false. change (ieq (lit "vendor") (lit "description")) with false.
    change (ieq (lit "description") (lit "description")) with true. reflexivity. }
  change (a_names altn0) with (@nil mstr). change (a_display altn0) with (@nil mstr). change (a_vendors altn0) with (@nil mstr). change (a_descs altn0) with (@nil mstr).
  rewrite E1, E2, E3, E4. cbn [name_slot app a_std a_default a_names a_display a_vendors a_descs].
  rewrite solid_filter in K1, K2, K3.
  assert (FT : forall l : list mstr, filter (fun _ => true) l = l) by (induction l as [|x l IH]; [reflexivity|cbn [filter]; f_equal; auto]).
  rewrite FT in K4. split; [exact K|]. split; [reflexivity|]. auto.
Qed.
Lemma names_case : forall tag a ks, name_ok tag -> altn_ok a -> Forall2 same (to_names tag a) ks ->
  (ks = [] /\ kept_altn a altn0) \/ (exists k a', ks = [k] /\ x_tag k = tag /\ from_names order k altn0 = Some a' /\ kept_altn a a').
Proof.
  intros tag a ks NT OK S. destruct (names_written tag a NT OK) as (at_ & P & E). rewrite E in S. destruct (a_active a) eqn:AC.
  - inversion S as [|? k ? r S1 S2]; subst. inversion S2; subst. right. destruct (names_read tag a at_ k OK AC P S1) as (a' & F & K).
    exists k, a'. split; [reflexivity|]. split; [symmetry; exact (same_tag _ _ S1)|]. auto.
  - inversion S; subst. left. split; [reflexivity|]. unfold kept_altn. rewrite <- names_stored, AC. reflexivity.
Qed.

(** ** Texts with own attributes *)
Lemma owned_written : forall reserved own s tag n v, name_ok tag -> std_ok reserved own s -> own_ok reserved own -> adds own (new_node tag) n ->
  set_value v (put_std s n) = XNode tag (std_attrs own s) v [].
Proof.
  intros reserved own s tag n v NT SO OW (A1 & A2 & A3 & A4). rewrite new_node_shape in * by auto. cbn [x_tag x_value x_kids x_attrs] in *.
  rewrite add_own in A4 by (apply keys_fst, OW). destruct (put_std_shape s n) as (B1 & B2 & B3 & _). pose proof (std_written _ _ _ n SO OW A4) as W.
  destruct (put_std s n) as [tg at_ vl kd]. cbn [x_tag x_value x_kids x_attrs] in *. unfold set_value. cbn [x_tag x_attrs x_kids]. congruence.
Qed.
Lemma owned_ok : forall reserved own s tag v, name_ok tag -> std_ok reserved own s -> own_ok reserved own -> text_ok v ->
  node_ok (XNode tag (std_attrs own s) v []).
Proof. intros. constructor; auto; [apply keys_fst; eapply std_keys; eauto|eapply std_fine; eauto]. Qed.
Lemma owned_read : forall reserved own s tag v n', std_ok reserved own s -> own_ok reserved own -> In (lit "offset") reserved ->
  ~ In (lit "offset") (map fst own) -> same (XNode tag (std_attrs own s) v []) n' ->
  let t' := from_str order n' mstr0 in kept_std own s (t_std t') /\ t_text t' = trim v /\ t_off t' = None.
Proof.
  intros reserved own s tag v n' SO OW IO NO S. destruct (read_members order OR _ _ _ _ _ _ SO OW S) as (ND & MEM).
  destruct (std_read order OR _ _ _ _ n' SO OW S eq_refl) as (s' & F & K). unfold from_std in F.
  assert (NOFF : forall v, ~ In (lit "offset", v) (attr_map order n')).
  { intros w I. apply MEM in I. unfold std_attrs in I. rewrite !in_app_iff, filter_In in I.
    destruct SO as (_ & _ & _ & _ & RE). destruct I as [I|[I|[I|[I _]]]].
    - apply (in_map fst) in I. contradiction.
    - unfold ci_attr in I. destruct (0 <? _); [|destruct I]. destruct I as [I|[]]. assert (X : lit "ci" = lit "offset") by congruence. revert X. vm_compute. discriminate.
    - unfold lang_attr, text_attr in I. destruct (s_lang _); [destruct I|]. destruct I as [I|[]]. assert (X : lit "xml:lang" = lit "offset") by congruence. revert X. vm_compute. discriminate.
    - apply NO. apply (RE _ _ (lit "offset") I); auto. apply alike_refl. }
  pose proof (str_fold _ _ _ [] None NOFF F) as G. change (mkStr std0 [] None) with mstr0 in G. cbv zeta. unfold from_str. rewrite G.
  cbn [t_std t_off t_text]. split; [exact K|]. split; [|reflexivity]. rewrite (value_same _ _ S). reflexivity.
Qed.

(** ** Syntaxes and variables *)
Definition syn_node (tag : list N) (custom : bool) (y : msyn) : xnode := XNode tag (std_attrs (syn_attrs custom y) (t_std (y_str y))) (y_name y) [].
Lemma syn_own : forall custom y, syn_ok custom y -> own_ok syn_keys (syn_attrs custom y).
Proof.
  intros custom y (_ & _ & LV & LS). unfold syn_attrs. split.
  - unfold text_attr. destruct custom, (y_version y), (y_source y); apply apart_ok; reflexivity.
  - rewrite Forall_app. split; [known|]. destruct custom; [known|constructor].
Qed.
Lemma syn_vocab : vocab syn_keys.
Proof. repeat constructor. Qed.
Lemma syn_written : forall tag custom y, name_ok tag -> beq tag (lit "custom_syntax") = custom -> syn_ok custom y ->
  to_syn tag y = syn_node tag custom y.
Proof.
  intros tag custom y NT E OK. pose proof (syn_own _ _ OK) as OW. destruct OK as (SO & _). unfold to_syn. rewrite E. cbv zeta.
  apply (owned_written syn_keys); auto. unfold syn_attrs. eapply adds_trans; [apply adds_text|]. destruct custom; [apply adds_text|apply adds_nil].
Qed.
Lemma syn_read : forall tag custom y n', syn_ok custom y -> same (syn_node tag custom y) n' -> kept_syn custom y (from_syn order n' syn0).
Proof.
  intros tag custom y n' OK S. pose proof (syn_own _ _ OK) as OW. pose proof syn_vocab as VO. destruct OK as (SO & TX & LV & LS).
  destruct (owned_read syn_keys _ _ tag (y_name y) n' SO OW) as (K & T & O); [cbn; auto| |exact S|].
  { unfold syn_attrs, text_attr. destruct custom, (y_version y), (y_source y); cbn [app map fst In]; intros I;
      repeat (destruct I as [I|I]; [revert I; vm_compute; discriminate|]); exact I. }
  unfold kept_syn, from_syn, y_name at 1. cbn [y_str y_version y_source syn0]. split; [exact K|]. split; [exact T|]. split; [exact O|].
  rewrite (text_read order OR _ _ _ (lit "version") _ _ _ n' SO OW VO (or_introl eq_refl) S).
  rewrite (text_read order OR _ _ _ (lit "source") _ _ _ n' SO OW VO (or_intror (or_introl eq_refl)) S).
  unfold syn_attrs. rewrite !find_app_key. split.
  - pose proof (found_text "version" (y_version y)) as X. destruct (find _ (text_attr "version" _)) as [[]|]; [exact X|].
    destruct custom; [rewrite find_text_other by reflexivity|]; exact X.
  - rewrite (find_text_other "version") by reflexivity. destruct custom; [apply (found_text "source")|reflexivity].
Qed.

Definition var_node (v : mvar) : xnode := XNode (lit "var") (std_attrs (var_attrs v) (t_std (v_str v))) (v_name v) [].
Lemma line_app : forall a b, line_ok a -> line_ok b -> line_ok (a ++ b).
Proof.
  intros a b (ca & FA & ->) (cb & FB & ->). exists (ca ++ cb). split; [apply Forall_app; auto|]. unfold utf8_text. rewrite map_app, concat_app. reflexivity.
Qed.
Lemma index_line : forall l, line_ok (index_text l).
Proof.
  induction l as [|n l IH]; [apply line_lit; reflexivity|]. cbn [index_text]. destruct l as [|m l]; [apply int_line|].
  apply line_app; [apply int_line|]. apply (line_app [32]); [apply line_lit; reflexivity|exact IH].
Qed.
Lemma var_own : forall v, var_ok v -> own_ok var_keys (var_attrs v).
Proof.
  intros v (_ & _ & L1 & L2 & L3 & L4 & L5 & L6). pose proof (index_line (v_index v)) as LI. unfold var_attrs. split.
  - rewrite !text_piece.
    set (t := [(lit "cn", some_text (v_cn v)); (lit "cs", some_text (v_cs v)); (lit "cp", some_text (v_cp v)); (lit "gn", some_text (v_gn v));
      (lit "gs", some_text (v_gs v)); (lit "gp", some_text (v_gp v)); (lit "idx_list_pattern", some_text (index_text (v_index v)));
      (lit "raw", if v_raw v then Some (lit "true") else None)]).
    assert (E : (if v_raw v then [(lit "raw", lit "true")] else []) = piece (lit "raw", if v_raw v then Some (lit "true") else None))
      by (destruct (v_raw v); reflexivity).
    rewrite E. assert (A := attrs_nodup t). unfold attrs_of in A. cbn [t map concat] in A. rewrite app_nil_r in A. apply A.
    apply apart_ok. vm_compute. reflexivity.
  - rewrite !Forall_app. repeat split; try (known; fail).
    destruct (v_raw v); constructor; [|constructor]. cbn [fst snd]. split; [cbn; auto 12|]. split; [plain_tag|]. split; [apply line_lit; reflexivity|].
    split; intros A; apply ieq_alike in A; vm_compute in A; discriminate.
Qed.
Lemma var_vocab : vocab var_keys.
Proof. repeat constructor. Qed.
Lemma var_written : forall v, var_ok v -> to_var v = var_node v.
Proof.
  intros v OK. pose proof (var_own _ OK) as OW. destruct OK as (SO & _). unfold to_var. cbv zeta.
  apply (owned_written var_keys); auto; [plain_tag|]. unfold var_attrs.
  do 7 (eapply adds_trans; [apply adds_text|]). destruct (v_raw v); [apply adds_attr|apply adds_nil].
Qed.
Lemma var_ok_node : forall v, var_ok v -> node_ok (var_node v).
Proof. intros v OK. pose proof (var_own _ OK) as OW. destruct OK as (SO & TX & _). apply (owned_ok var_keys); auto. plain_tag. Qed.
Lemma raw_not_offset : forall v, ~ In (lit "offset") (map fst (var_attrs v)).
Proof.
  intros v. unfold var_attrs. rewrite !map_app, !in_app_iff.
  assert (T : forall k x, lit k <> lit "offset" -> ~ In (lit "offset") (map fst (text_attr k x))).
  { intros k [|c x] NE; [intros []|]. cbn. intros [E|[]]. contradiction. }
  intros I. repeat (destruct I as [I|I]; [revert I; apply T; vm_compute; discriminate|]).
  destruct (v_raw v); [|destruct I]. destruct I as [I|[]]. revert I. vm_compute. discriminate.
Qed.
Lemma var_read : forall v n', var_ok v -> same (var_node v) n' -> kept_var v (from_var order n' var0).
Proof.
  intros v n' OK S. pose proof (var_own _ OK) as OW. pose proof var_vocab as VO. destruct OK as (SO & TX & L1 & L2 & L3 & L4 & L5 & L6).
  destruct (owned_read var_keys _ _ (lit "var") (v_name v) n' SO OW) as (K & T & O); [cbn; auto 12|apply raw_not_offset|exact S|].
  unfold kept_var, from_var, v_name at 1. cbn [v_str v_cn v_cs v_cp v_gn v_gs v_gp v_index v_raw var0].
  split; [exact K|]. split; [exact T|]. split; [exact O|].
  assert (TR : forall k, In k var_keys -> attr_text order k n' = found (find (fun '(a, _) => ieq a k) (var_attrs v))).
  { intros k IK. eapply text_read; eauto. }
  unfold attr_bool. rewrite (attr_read order OR var_keys (var_attrs v) (t_std (v_str v)) (lit "raw") (lit "var") (v_name v) [] n'); auto; [|cbn; auto 12].
  rewrite !TR by (cbn; auto 12). unfold var_attrs. rewrite !find_app_key.
  assert (Z : forall k x, found (match find (fun '(a, _) => ieq a (lit k)) (text_attr k x) with Some y => Some y | None => None end) = trim x).
  { intros k x. rewrite <- (found_text k x). destruct (find _ _); reflexivity. }
  repeat split.
  - rewrite (find_text_other "cs"), (find_text_other "cp"), (find_text_other "gn"), (find_text_other "gs"), (find_text_other "gp"), (find_text_other "idx_list_pattern"), find_none_ro by reflexivity. apply Z.
  - rewrite (find_text_other "cn"), (find_text_other "cp"), (find_text_other "gn"), (find_text_other "gs"), (find_text_other "gp"), (find_text_other "idx_list_pattern"), find_none_ro by reflexivity. apply Z.
  - rewrite (find_text_other "cn"), (find_text_other "cs"), (find_text_other "gn"), (find_text_other "gs"), (find_text_other "gp"), (find_text_other "idx_list_pattern"), find_none_ro by reflexivity. apply Z.
  - rewrite (find_text_other "cn"), (find_text_other "cs"), (find_text_other "cp"), (find_text_other "gs"), (find_text_other "gp"), (find_text_other "idx_list_pattern"), find_none_ro by reflexivity. apply Z.
  - rewrite (find_text_other "cn"), (find_text_other "cs"), (find_text_other "cp"), (find_text_other "gn"), (find_text_other "gp"), (find_text_other "idx_list_pattern"), find_none_ro by reflexivity. apply Z.
  - rewrite (find_text_other "cn"), (find_text_other "cs"), (find_text_other "cp"), (find_text_other "gn"), (find_text_other "gs"), (find_text_other "idx_list_pattern"), find_none_ro by reflexivity. apply Z.
  - rewrite (find_text_other "cn"), (find_text_other "cs"), (find_text_other "cp"), (find_text_other "gn"), (find_text_other "gs"), (find_text_other "gp"), (find_text_other "idx_list_pattern") by reflexivity.
    destruct (v_raw v); reflexivity.
Qed.

(** ** Formulas *)
Definition vars_nodes (vs : list mvar) : list xnode :=
  match vs with [] => [] | _ => [XNode (lit "variables") [] [] (map var_node vs)] end.
Definition form_kids (f : formula) : list xnode :=
  syn_node (lit "syntax") false (f_syntax f) :: map (syn_node (lit "custom_syntax") true) (f_custom f) ++ vars_nodes (f_vars f).
Definition form_node (f : formula) : xnode := XNode (lit "formula") (std_attrs [] (f_std f)) [] (form_kids f).
Lemma form_written : forall f, formula_ok f -> to_formula f = if f_active f then [form_node f] else [].
Proof.
  intros f (SO & SY & CU & _ & VA & _). unfold to_formula. destruct (f_active f); [|reflexivity]. f_equal.
  rewrite (syn_written (lit "syntax") false) by plain_tag.
  assert (E1 : map (to_syn (lit "custom_syntax")) (f_custom f) = map (syn_node (lit "custom_syntax") true) (f_custom f)).
  { apply map_ext_in. intros y I. rewrite Forall_forall in CU. apply syn_written; [plain_tag|reflexivity|auto]. }
  assert (E2 : match f_vars f with [] => [] | vs => [set_kids (map to_var vs) (new_node (lit "variables"))] end = vars_nodes (f_vars f)).
  { assert (E : map to_var (f_vars f) = map var_node (f_vars f)).
    { apply map_ext_in. intros y I. rewrite Forall_forall in VA. apply var_written. auto. }
    unfold vars_nodes. destruct (f_vars f); [reflexivity|]. rewrite E, new_node_shape by plain_tag. reflexivity. }
  rewrite E1, E2. fold (form_kids f). rewrite new_node_shape by plain_tag.
  pose proof (std_written _ _ _ (XNode (lit "formula") [] [] []) SO (own_nil _) eq_refl) as W.
  destruct (put_std_shape (f_std f) (XNode (lit "formula") [] [] [])) as (A & B & C & _).
  destruct (put_std _ _) as [tg at_ vl ks]. cbn [x_tag x_attrs x_value x_kids] in *. unfold form_node, set_kids. cbn [x_tag x_attrs x_value]. congruence.
Qed.
Lemma form_ok : forall f, formula_ok f -> Forall node_ok (to_formula f).
Proof.
  intros f OK. rewrite form_written by auto. destruct (f_active f); constructor; [|constructor]. destruct OK as (SO & SY & CU & _ & VA & _).
  constructor; [plain_tag|apply keys_fst; eapply std_keys; [exact SO|apply own_nil]|eapply std_fine; [exact SO|apply own_nil]|apply text_nil|].
  assert (SN : forall tag custom y, name_ok tag -> syn_ok custom y -> node_ok (syn_node tag custom y)).
  { intros tag custom y NT Y. pose proof (syn_own _ _ Y). destruct Y as (Y1 & Y2 & _). apply (owned_ok syn_keys); auto. }
  unfold form_kids. constructor; [apply SN; [plain_tag|auto]|]. apply Forall_app. split.
  - apply Forall_forall. intros n I. apply in_map_iff in I. destruct I as (y & <- & I). rewrite Forall_forall in CU. apply SN; [plain_tag|auto].
  - unfold vars_nodes. destruct (f_vars f) as [|v vs] eqn:E; [constructor|]. rewrite <- E in *. constructor; [|constructor]. apply plain_ok; [plain_tag|].
    apply Forall_forall. intros n I. apply in_map_iff in I. destruct I as (y & <- & I). rewrite Forall_forall in VA. apply var_ok_node. auto.
Qed.

Lemma customs_fold : forall ys ks s y0 ys0 vs, Forall2 same (map (syn_node (lit "custom_syntax") true) ys) ks -> Forall (syn_ok true) ys ->
  ascending (map y_name ys0 ++ map y_name ys) -> ~ In [] (map y_name ys) -> Forall tight (map y_name ys) ->
  exists ys', fold_left (read_form_kid order) ks (mkForm s y0 ys0 vs) = mkForm s y0 (ys0 ++ ys') vs /\ Forall2 (kept_syn true) ys ys'.
Proof.
  induction ys as [|y ys IH]; intros ks s y0 ys0 vs S F AS NE TI.
  - inversion S; subst. exists []. rewrite app_nil_r. split; [reflexivity|constructor].
  - cbn [map] in S. inversion S as [|? k ? r S1 S2]; subst. inversion F; subst. inversion TI as [|? ? T1 TI']; subst. cbn [fold_left].
    assert (TG : x_tag k = lit "custom_syntax") by (rewrite <- (same_tag _ _ S1); reflexivity).
    assert (NC : ~ In 58 (lit "custom_syntax")) by plain_tag.
    unfold read_form_kid at 2. rewrite !(fun u => tag_test u k _ TG NC).
    change (ieq (lit "syntax") (lit "custom_syntax")) with false. change (ieq (lit "custom_syntax") (lit "custom_syntax")) with true. cbv iota.
    pose proof (syn_read _ true y k H1 S1) as KC. set (y' := from_syn order k syn0) in *.
    assert (PN : y_name y' = y_name y) by (destruct KC as (_ & X & _); unfold tight in T1; congruence).
    cbn [map In] in AS, NE.
    assert (AS' : ascending (map y_name (ys0 ++ [y']) ++ map y_name ys)).
    { rewrite map_app. cbn [map]. rewrite PN, <- app_assoc. exact AS. }
    destruct (last_key y_name ys0 y' _ AS') as (LT & _).
    assert (AD : add_syn y' (mkForm s y0 ys0 vs) = mkForm s y0 (ys0 ++ [y']) vs).
    { unfold add_syn. cbn [f_std f_syntax f_custom f_vars]. rewrite emplace_last by exact LT. rewrite PN. destruct (y_name y) eqn:EX; [exfalso; apply NE; left; auto|reflexivity]. }
    rewrite AD. destruct (IH r s y0 (ys0 ++ [y']) vs) as (ys' & FO & KS); auto.
    exists (y' :: ys'). rewrite FO, <- app_assoc. split; [reflexivity|]. constructor; auto.
Qed.
Lemma vars_fold : forall xs ks s y0 ys xs0, Forall2 same (map var_node xs) ks -> Forall var_ok xs ->
  ascending (map v_name xs0 ++ map v_name xs) -> ~ In [] (map v_name xs) -> Forall tight (map v_name xs) ->
  exists xs', fold_left (fun f x => add_var (from_var order x var0) f) (filter (is_tag (lit "var")) ks) (mkForm s y0 ys xs0) =
    mkForm s y0 ys (xs0 ++ xs') /\ Forall2 kept_var xs xs'.
Proof.
  induction xs as [|x xs IH]; intros ks s y0 ys xs0 S F AS NE TI.
  - inversion S; subst. exists []. rewrite app_nil_r. split; [reflexivity|constructor].
  - cbn [map] in S. inversion S as [|? k ? r S1 S2]; subst. inversion F; subst. inversion TI as [|? ? T1 TI']; subst. cbn [filter].
    assert (is_tag (lit "var") k = true) as -> by (rewrite <- (same_is_tag _ _ _ S1); reflexivity).
    cbn [fold_left]. pose proof (var_read x k H1 S1) as KC. set (x' := from_var order k var0) in *.
    assert (PN : v_name x' = v_name x) by (destruct KC as (_ & X & _); unfold tight in T1; congruence).
    cbn [map In] in AS, NE.
    assert (AS' : ascending (map v_name (xs0 ++ [x']) ++ map v_name xs)).
    { rewrite map_app. cbn [map]. rewrite PN, <- app_assoc. exact AS. }
    destruct (last_key v_name xs0 x' _ AS') as (LT & _).
    assert (AD : add_var x' (mkForm s y0 ys xs0) = mkForm s y0 ys (xs0 ++ [x'])).
    { unfold add_var. cbn [f_std f_syntax f_custom f_vars]. rewrite emplace_last by exact LT. rewrite PN. destruct (v_name x) eqn:EX; [exfalso; apply NE; left; auto|reflexivity]. }
    rewrite AD. destruct (IH r s y0 ys (xs0 ++ [x'])) as (xs' & FO & KS); auto.
    exists (x' :: xs'). rewrite FO, <- app_assoc. split; [reflexivity|]. constructor; auto.
Qed.
Lemma form_stored : forall f, f_active f = some_syntax f.
Proof. reflexivity. Qed.
Lemma form_read : forall f n', formula_ok f -> f_active f = true -> same (form_node f) n' ->
  exists f', from_formula order n' form0 = Some f' /\ kept_formula f f'.
Proof.
  intros f n' (SO & SY & CU & (AC & NC & TC) & VA & (AV & NV & TV)) ACT S.
  destruct (std_read order OR [] [] (f_std f) _ n' SO (own_nil _) S eq_refl) as (s' & FS & K).
  unfold from_formula. change (f_std form0) with std0. rewrite FS. cbn [obind]. eexists. split; [reflexivity|]. unfold kept_formula. rewrite <- form_stored, ACT.
  pose proof (same_kids _ _ S) as SK. cbn [form_node x_kids] in SK. unfold form_kids in SK.
  destruct (x_kids n') as [|k1 kr] eqn:EK; [inversion SK|]. apply f2_cons in SK. destruct SK as (S1 & SK).
  apply Forall2_app_inv_l in SK. destruct SK as (k2 & k3 & S2 & S3 & E2). rewrite E2. clear E2. cbn [fold_left]. rewrite fold_left_app.
  assert (R1 : read_form_kid order (mkForm s' (f_syntax form0) (f_custom form0) (f_vars form0)) k1 = mkForm s' (from_syn order k1 syn0) [] []).
  { assert (TG : x_tag k1 = lit "syntax") by (rewrite <- (same_tag _ _ S1); reflexivity).
    assert (N58 : ~ In 58 (lit "syntax")) by plain_tag. unfold read_form_kid. rewrite (tag_test (lit "syntax") k1 _ TG N58). reflexivity. }
  rewrite R1. destruct (customs_fold (f_custom f) k2 s' (from_syn order k1 syn0) [] []) as (ys' & F2 & K2); auto. rewrite F2. cbn [app].
  assert (R3 : exists xs', Forall2 kept_var (f_vars f) xs' /\ fold_left (read_form_kid order) k3 (mkForm s' (from_syn order k1 syn0) ys' []) =
    mkForm s' (from_syn order k1 syn0) ys' xs').
  { unfold vars_nodes in S3. destruct (f_vars f) as [|x xs] eqn:EX.
    - inversion S3; subst. exists []. split; [constructor|reflexivity].
    - inversion S3 as [|? k ? r T1 T2]; subst. inversion T2; subst. cbn [fold_left].
      assert (TG : x_tag k = lit "variables") by (rewrite <- (same_tag _ _ T1); reflexivity).
      assert (N58 : ~ In 58 (lit "variables")) by plain_tag. unfold read_form_kid. rewrite !(fun u => tag_test u k _ TG N58).
      change (ieq (lit "syntax") (lit "variables")) with false. change (ieq (lit "custom_syntax") (lit "variables")) with false.
      change (ieq (lit "variables") (lit "variables")) with true. cbv iota.
      pose proof (same_kids _ _ T1) as SK2. cbn [x_kids] in SK2.
      destruct (vars_fold (x :: xs) (x_kids k) s' (from_syn order k1 syn0) ys' []) as (xs' & FO & KS); auto. exists xs'. split; [exact KS|exact FO]. }
  destruct R3 as (xs' & K3 & R3). rewrite R3. cbn [f_std f_syntax f_custom f_vars]. split; [exact K|]. split; [|auto].
  apply (syn_read (lit "syntax")); auto.
Qed.
Lemma form_case : forall f ks, formula_ok f -> Forall2 same (to_formula f) ks ->
  (ks = [] /\ kept_formula f form0) \/ (exists k f', ks = [k] /\ x_tag k = lit "formula" /\ from_formula order k form0 = Some f' /\ kept_formula f f').
Proof.
  intros f ks OK S. rewrite form_written in S by auto. destruct (f_active f) eqn:AC.
  - inversion S as [|? k ? r S1 S2]; subst. inversion S2; subst. right. destruct (form_read f k OK AC S1) as (f' & F & K).
    exists k, f'. split; [reflexivity|]. split; [symmetry; exact (same_tag _ _ S1)|]. auto.
  - inversion S; subst. left. split; [reflexivity|]. unfold kept_formula. rewrite <- form_stored, AC. reflexivity.
Qed.

End Order.
