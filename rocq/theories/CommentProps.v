(** C83: a typed comment is read back as it was set. *)
From Coq Require Import String Permutation Sorting.Sorted Lia.
From Verif Require Import Base BlockModel TextSpec XmlModel XmlSpec XmlProofs XmlProofs2 XmlProofs3 XmlProofs4 XmlProofs5
  CommentModel CommentSpec CommentProofs CommentProofs2 CommentProofs3 CommentProofs4 CommentProofs5 CommentProofs6.
Local Open Scope N_scope.
Local Open Scope list_scope.

(** For every comment with texts that XML can hold - the text, and properties, trees, lists and enumerates
    of any depth, with their attributes - set at a block and read from the stored text: the text, every
    property, tree, list and enumerate are as they were set, but for white space at the ends of values. *)
Theorem C83_md : forall order block c s, any_order order -> name_ok (block ++ lit "comment") -> comment_ok c ->
  text_of order (to_md block c) s ->
  exists c', from_text (from_md order) describe_md s comment0 = Some c' /\ kept_comment c c'.
Proof. intros order block c s OR. exact (md_back order OR block c s). Qed.
Print Assumptions C83_md.

(** The comment of the file history: also the tool, its vendor and version, and the user. *)
Theorem C83_fh : forall order c s, any_order order -> fh_ok c -> text_of order (to_fh c) s ->
  exists c', from_text (from_fh order) describe_fh s fh0 = Some c' /\ kept_fh c c'.
Proof. intros order c s OR. exact (fh_back order OR c s). Qed.
Print Assumptions C83_fh.

(** The comment of the header: also the time source and the constants. *)
Theorem C83_hd : forall order c s, any_order order -> hdc_ok c -> text_of order (to_hd c) s ->
  exists c', from_text (from_hd order) describe_hd s hdc0 = Some c' /\ kept_hd c c'.
Proof. intros order c s OR. exact (hd_back order OR c s). Qed.
Print Assumptions C83_hd.

(** GetProperty finds the same property, or none, before and after. *)
Theorem C83_property : forall l l' name, kept_list l l' ->
  (get_prop l name = None /\ get_prop l' name = None) \/
  (exists p p', get_prop l name = Some p /\ get_prop l' name = Some p' /\ kept_prop p p').
Proof.
  intros l l' name K. pose proof (kept_get l l' name K) as S. unfold same_found in S.
  destruct (get_prop l name) as [p|], (get_prop l' name) as [q|]; try contradiction; [right; eauto|left; auto].
Qed.
Print Assumptions C83_property.

(** Whatever properties, trees, lists and enumerates an application adds to a comment, in whatever order,
    names in use included, as long as no tree is added with the name of an earlier list or enumerate: what
    the comment holds then is read back. *)
Theorem C83_calls : forall order block t ops s, any_order order -> name_ok (block ++ lit "comment") -> str_ok t ->
  Forall call_ok ops -> trees_first ops ->
  text_of order (to_md block (mkC t (fold_left do_call ops mlist0))) s ->
  exists c', from_text (from_md order) describe_md s comment0 = Some c' /\
    t_text (c_tx c') = trim (t_text t) /\ kept_list (fold_left do_call ops mlist0) (c_common c').
Proof.
  intros order block t ops s OR NB TO F TF TX. destruct (calls_ok ops F TF) as (OK & A & B & C & _).
  destruct (md_back order OR block (mkC t (fold_left do_call ops mlist0)) s NB) as (c' & E & K1 & K2); auto.
  { split; [exact TO|]. cbn [c_common]. auto. }
  exists c'. split; [exact E|]. split; [|exact K2]. destruct K1 as (_ & X & _). exact X.
Qed.
Print Assumptions C83_calls.

(** Author, department, project, subject, measurement, recorder and file index: whatever calls set them,
    the comment read back gives for each the value of its first call, or none. *)
Theorem C83_header : forall order t ops time consts s, any_order order -> str_ok t -> Forall hd_call_ok ops ->
  hdc_ok (mkHdc comment0 time consts) ->
  text_of order (to_hd (mkHdc (fold_left do_hd ops (mkC t mlist0)) time consts)) s ->
  exists c', from_text (from_hd order) describe_hd s hdc0 = Some c' /\
    t_text (c_tx (hd_md c')) = trim (t_text t) /\
    (forall n, value_of (hd_md c') (hd_text n) = trim (first_set n ops)) /\ get_index (hd_md c') = first_index ops.
Proof.
  intros order t ops time consts s OR TO F (_ & H1 & H2 & H3 & H4) TX.
  destruct (hd_calls ops mlist0 F list0_ok eq_refl eq_refl eq_refl t) as (l & E & OK & A & B & C & _).
  destruct (hd_back order OR (mkHdc (fold_left do_hd ops (mkC t mlist0)) time consts) s) as (c' & R & K & _); auto.
  { rewrite E. split; [|auto]. cbn [hd_md]. split; [exact TO|]. cbn [c_common]. auto. }
  exists c'. split; [exact R|]. destruct (header_values ops t _ F K) as (V & I). split; [|auto].
  cbn [hd_md] in K. rewrite E in K. destruct K as ((_ & X & _) & _). exact X.
Qed.
Print Assumptions C83_header.

(** ** A case with every part *)

Definition id_order (l : list (list N * list N)) : list (list N * list N) := l.
Definition p1 : mprop := mkProp (mkStd 7 (lit "en") [(lit "origin", lit "a & b")]) (lit "speed") (lit "of the car") (lit "km/h") [] 3 true (lit " 12.5 ").
Definition inner : mlist := MList std0 (lit "inner") (lit "deep") [simple_prop (lit "depth") (lit "2")] [] [] [].
Definition tree1 : mlist := MList std0 (lit "tree") [] [simple_prop (lit "x") (lit "1")] [inner] [] [].
Definition list1 : mlist := MList std0 (lit "list") [] [simple_prop (lit "y") (lit "<&>")] [] [] [].
Definition enum1 : menum := mkEnum (simple_prop (lit "kinds") []) [mkStr std0 (lit "one") None; mkStr std0 (lit "two") None].
Definition ops1 : list call := [AddTree tree1; AddProperty p1; AddList list1; AddEnumerate enum1; AddProperty (simple_prop (lit "speed") (lit "no"))].
Definition text1 : mstr := mkStr std0 (lit "a 'comment' ") None.
Definition got1 : option comment :=
  from_text (from_md id_order) describe_md (trim (write_string id_order (Some (to_md (lit "CG") (mkC text1 (fold_left do_call ops1 mlist0))))))
    comment0.

Lemma any_id : any_order id_order.
Proof. intros l. apply Permutation_refl. Qed.
Lemma text_lit : forall s, forallb (fun c => (32 <=? c) && (c <? 128)) s = true -> text_ok s.
Proof. intros s H. apply line_text, line_lit, H. Qed.
Lemma std0_ok : forall r o, std_ok r o std0.
Proof.
  intros r o. split; [reflexivity|]. split; [apply line_lit; reflexivity|]. split; [apply NoDup_nil|]. split; [apply Forall_nil|].
  intros k v x [].
Qed.
Lemma simple_ok : forall n v, forallb (fun c => (32 <=? c) && (c <? 128)) n = true -> tight n -> forallb (fun c => (32 <=? c) && (c <? 128)) v = true ->
  prop_ok (simple_prop n v).
Proof.
  intros n v A T B. unfold prop_ok, simple_prop. cbn [p_std p_name p_desc p_unit p_ref p_type p_value].
  split; [apply std0_ok|]. split; [apply line_lit, A|]. split; [exact T|]. repeat (split; [apply line_lit; reflexivity|]).
  split; [lia|apply text_lit, B].
Qed.
Lemma p1_ok : prop_ok p1.
Proof.
  unfold prop_ok, p1. cbn [p_std p_name p_desc p_unit p_ref p_type p_value].
  split; [|repeat (split; [first [apply line_lit; reflexivity|reflexivity]|]); split; [lia|apply text_lit; reflexivity]].
  split; [reflexivity|]. split; [apply line_lit; reflexivity|]. split; [cbn [s_cust map]; constructor; [intros []|apply NoDup_nil]|].
  split.
  - constructor; [|constructor]. split; [apply name_okb_ok; reflexivity|]. split; [apply line_lit; reflexivity|].
    split; vm_compute; discriminate.
  - intros k v o [I|[]] J L. exfalso. assert (k = lit "origin") as -> by congruence.
    destruct J as [<-|[<-|[<-|[<-|[<-|[<-|[]]]]]]]; revert L; vm_compute; discriminate.
Qed.
Lemma names_lit : forall a b c d : list (list N), ascending a -> ascending b -> ascending c -> ascending d ->
  forallb (fun n => negb (beq n [])) (a ++ c ++ d) = true ->
  forallb (fun n => negb (existsb (beq n) (a ++ b))) c = true ->
  forallb (fun n => negb (existsb (beq n) (a ++ b ++ c))) d = true -> names_ok a b c d.
Proof.
  intros a b c d A B C D N1 N2 N3. rewrite forallb_forall in N1, N2, N3.
  assert (X : forall l, (forall n, In n l -> negb (beq n []) = true) -> ~ In [] l).
  { intros l H I. apply H in I. discriminate. }
  assert (Y : forall n l, negb (existsb (beq n) l) = true -> ~ In n l).
  { intros n l H I. apply Bool.negb_true_iff in H.
    assert (T : existsb (beq n) l = true) by (apply existsb_exists; exists n; split; [exact I|apply beq_refl]). congruence. }
  apply names_intro; auto.
  - apply X. intros n I. apply N1. rewrite !in_app_iff. auto.
  - apply X. intros n I. apply N1. rewrite !in_app_iff. auto.
  - apply X. intros n I. apply N1. rewrite !in_app_iff. auto.
  - intros n I J. apply (Y n _ (N2 n I)). rewrite !in_app_iff. auto.
  - intros n I J. apply (Y n _ (N2 n I)). rewrite !in_app_iff. auto.
  - intros n I J. apply (Y n _ (N3 n I)). rewrite !in_app_iff. auto.
  - intros n I J. apply (Y n _ (N3 n I)). rewrite !in_app_iff. auto.
  - intros n I J. apply (Y n _ (N3 n I)). rewrite !in_app_iff. auto.
Qed.
Lemma one_name : forall n, ascending [n].
Proof. intros n. apply SSorted_cons; [apply SSorted_nil|apply Forall_nil]. Qed.
Lemma leaf_ok : forall n d p ts, forallb (fun c => (32 <=? c) && (c <? 128)) n = true -> tight n ->
  forallb (fun c => (32 <=? c) && (c <? 128)) d = true -> prop_ok p -> p_name p <> [] -> Forall list_ok ts -> ascending (map l_name ts) ->
  list_ok (MList std0 n d [p] ts [] []).
Proof.
  intros n d p ts A T D P NP TO TA. constructor; auto; [apply std0_ok|apply line_lit, A|apply line_lit, D|].
  apply names_lit; auto; [apply one_name|apply SSorted_nil|apply SSorted_nil|]. cbn [map app forallb].
  destruct (p_name p); [contradiction|reflexivity].
Qed.
Lemma str_lit : forall s, forallb (fun c => (32 <=? c) && (c <? 128)) s = true -> str_ok (mkStr std0 s None).
Proof. intros s H. split; [apply std0_ok|apply text_lit, H]. Qed.

Lemma ops1_ok : Forall call_ok ops1.
Proof.
  assert (I : list_ok inner).
  { apply leaf_ok; try reflexivity; [apply simple_ok; reflexivity|vm_compute; discriminate|apply Forall_nil|apply SSorted_nil]. }
  repeat apply Forall_cons; try apply Forall_nil; cbn [call_ok].
  - apply leaf_ok; try reflexivity; [apply simple_ok; reflexivity|vm_compute; discriminate|constructor; [exact I|constructor]|apply one_name].
  - exact p1_ok.
  - apply leaf_ok; try reflexivity; [apply simple_ok; reflexivity|vm_compute; discriminate|apply Forall_nil|apply SSorted_nil].
  - split; [apply simple_ok; reflexivity|]. repeat apply Forall_cons; try apply Forall_nil; apply str_lit; reflexivity.
  - apply simple_ok; reflexivity.
Qed.
Lemma ops1_first : trees_first ops1.
Proof.
  intros pre t post op E I. destruct pre as [|a pre]; [destruct I|]. exfalso. unfold ops1 in E. cbn [app] in E.
  assert (F : In (AddTree t) [AddProperty p1; AddList list1; AddEnumerate enum1; AddProperty (simple_prop (lit "speed") (lit "no"))]).
  { assert (X : [AddProperty p1; AddList list1; AddEnumerate enum1; AddProperty (simple_prop (lit "speed") (lit "no"))] = pre ++ AddTree t :: post) by congruence.
    rewrite X, in_app_iff. right. left. reflexivity. }
  destruct F as [F|[F|[F|[F|[]]]]]; discriminate.
Qed.
Definition shown (c : option comment) : option (list N * option mprop * option mprop * option (list (list N)) * list N) :=
  match c with
  | Some c => Some (t_text (c_tx c), get_prop (c_common c) (lit "depth"), get_prop (c_common c) (lit "speed"),
      match l_enums (c_common c) with e :: _ => Some (map t_text (n_values e)) | [] => None end, value_of c (lit "list/y"))
  | None => None
  end.
Example C83_witness :
  name_ok (lit "CG" ++ lit "comment") /\ str_ok text1 /\ Forall call_ok ops1 /\ trees_first ops1 /\
  shown got1 = Some (lit "a 'comment'", Some (mkProp (mkStd 0 [] [(lit "name", lit "depth")]) (lit "depth") [] [] [] 0 false (lit "2")),
    Some (mkProp (mkStd 7 (lit "en") [(lit "desc", lit "of the car"); (lit "name", lit "speed"); (lit "origin", lit "a & b"); (lit "ro", lit "true"); (lit "type", lit "float"); (lit "unit", lit "km/h")])
            (lit "speed") (lit "of the car") (lit "km/h") [] 3 true (lit "12.5")),
    Some [lit "one"; lit "two"], lit "<&>").
Proof.
  split; [apply name_okb_ok; reflexivity|]. split; [apply str_lit; reflexivity|]. split; [exact ops1_ok|]. split; [exact ops1_first|].
  vm_compute. reflexivity.
Qed.

(** ** What is not kept *)

Definition again (c : comment) : option comment :=
  from_text (from_md id_order) describe_md (write_string id_order (Some (to_md (lit "HD") c))) comment0.

(** A value that is set a second time is ignored: the author stays the first one. *)
Theorem C83_twice_refuted : ~ forall c n v, value_of (set_hd n v c) (hd_text n) = v.
Proof.
  intros H. specialize (H (set_hd HAuthor (lit "A") comment0) HAuthor (lit "B")). revert H. vm_compute. discriminate.
Qed.
Print Assumptions C83_twice_refuted.

Definition described : comment := mkC mstr0 (add_prop (mkProp std0 (lit "p") (lit "old") [] [] 0 false (lit "1")) mlist0).
Definition clear_desc (c : comment) : comment :=
  mkC (c_tx c) (match c_common c with MList s n d ps ts ls es =>
    MList s n d (map (fun p => mkProp (p_std p) (p_name p) [] (p_unit p) (p_ref p) (p_type p) (p_ro p) (p_value p)) ps) ts ls es end).
Lemma clear_case : match again described with
  | Some c => match again (clear_desc c) with Some c' => match get_prop (c_common c') (lit "p") with Some p => p_desc p | None => [] end | None => [] end
  | None => []
  end = lit "old".
Proof. vm_compute. reflexivity. Qed.
(** A description that is cleared in a comment that was read comes back when the comment is stored and
    read again: the reading has kept it among the custom attributes. *)
Theorem C83_clear_refuted : ~ forall c c1 c2 p, again c = Some c1 -> again (clear_desc c1) = Some c2 ->
  get_prop (c_common c2) (lit "p") = Some p -> p_desc p = [].
Proof.
  intros H. pose proof clear_case as K. destruct (again described) as [c1|] eqn:A; [|revert K; vm_compute; discriminate].
  destruct (again (clear_desc c1)) as [c2|] eqn:B; [|revert K; vm_compute; discriminate].
  destruct (get_prop (c_common c2) (lit "p")) as [p|] eqn:C; [|revert K; vm_compute; discriminate].
  rewrite (H _ _ _ _ A B C) in K. revert K. vm_compute. discriminate.
Qed.
Print Assumptions C83_clear_refuted.

Definition hexed : comment := mkC mstr0 (add_prop (mkProp std0 (lit "p") [] [] [] 8 false (lit "1F")) mlist0).
Lemma hex_case : match again hexed with Some c => match get_prop (c_common c) (lit "p") with Some p => p_type p | None => 0 end | None => 0 end = 2.
Proof. vm_compute. reflexivity. Qed.
(** A hexadecimal integer is read as an integer: both types are stored as the same text. *)
Theorem C83_hex_refuted : ~ forall c c1 p p1, comment_ok c -> again c = Some c1 -> get_prop (c_common c) (lit "p") = Some p ->
  get_prop (c_common c1) (lit "p") = Some p1 -> p_type p1 = p_type p.
Proof.
  intros H. pose proof hex_case as K. destruct (again hexed) as [c1|] eqn:A; [|discriminate].
  destruct (get_prop (c_common c1) (lit "p")) as [p|] eqn:C; [|discriminate].
  assert (O : comment_ok hexed).
  { split; [apply str_lit; reflexivity|]. split; [|auto]. apply add_prop_ok; [|exact list0_ok].
    unfold prop_ok. cbn [p_std p_name p_desc p_unit p_ref p_type p_value]. split; [apply std0_ok|].
    split; [apply line_lit; reflexivity|]. split; [reflexivity|]. repeat (split; [apply line_lit; reflexivity|]). split; [lia|apply text_lit; reflexivity]. }
  specialize (H _ _ _ _ O A eq_refl C). rewrite H in K. revert K. vm_compute. discriminate.
Qed.
Print Assumptions C83_hex_refuted.

Definition ops2 : list call := [AddList (MList std0 (lit "n") [] [simple_prop (lit "in list") (lit "1")] [] [] []);
  AddTree (MList std0 (lit "n") [] [simple_prop (lit "in tree") (lit "2")] [] [] [])].
Lemma tree_case : match again (mkC mstr0 (fold_left do_call ops2 mlist0)) with
  | Some c => Some (value_of c (lit "in list"), value_of c (lit "in tree")) | None => None end = Some ([], lit "2").
Proof. vm_compute. reflexivity. Qed.
(** A list and everything in it is lost on reading when a tree with the same name was added after it. *)
Theorem C83_tree_refuted : ~ forall ops c, Forall call_ok ops -> again (mkC mstr0 (fold_left do_call ops mlist0)) = Some c ->
  value_of c (lit "in list") = value_of (mkC mstr0 (fold_left do_call ops mlist0)) (lit "in list").
Proof.
  intros H. pose proof tree_case as K. destruct (again (mkC mstr0 (fold_left do_call ops2 mlist0))) as [c|] eqn:A; [|discriminate].
  assert (X : value_of c (lit "in list") = []) by congruence. rewrite (H ops2 c) in X; auto.
  - revert X. vm_compute. discriminate.
  - repeat apply Forall_cons; try apply Forall_nil; cbn [call_ok]; (apply leaf_ok; try reflexivity;
      [apply simple_ok; reflexivity|vm_compute; discriminate|apply Forall_nil|apply SSorted_nil]).
Qed.
Print Assumptions C83_tree_refuted.

(** A property with '/' in its name is stored but never found by its name. *)
Theorem C83_slash_refuted : ~ forall p l, prop_ok p -> is_dup (p_name p) l = false -> get_prop (add_prop p l) (p_name p) = Some p.
Proof.
  intros H. specialize (H (simple_prop (lit "km/h") (lit "1")) mlist0 ltac:(apply simple_ok; reflexivity) eq_refl).
  revert H. vm_compute. discriminate.
Qed.
Print Assumptions C83_slash_refuted.

(** A property whose history index is 2^63 or more is stored but makes the reading fail. *)
Theorem C83_index_refuted : ~ forall ci, ci < 2 ^ 64 ->
  again (mkC mstr0 (add_prop (mkProp (mkStd ci [] []) (lit "p") [] [] [] 0 false (lit "1")) mlist0)) <> None.
Proof. intros H. apply (H (2 ^ 63) ltac:(reflexivity)). vm_compute. reflexivity. Qed.
Print Assumptions C83_index_refuted.
