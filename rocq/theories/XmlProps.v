(** Properties C76, C77 and C78: the XML of comments and properties, and the properties of the header. *)
From Coq Require Import String Permutation.
From Verif Require Import Base BlockModel BlockSpec TextSpec XmlModel XmlSpec XmlProofs XmlProofs2 XmlProofs3 XmlProofs4 XmlProofs5 XmlProofs6 XmlProofs7 XmlProofs8.
Local Open Scope N_scope.
Local Open Scope list_scope.

(* ------------------------------------------------------------------ *)
(** ** C76: a tree of tags is read as it was written *)

(** For every tree of tags with texts that XML can hold, whatever the order in which the attributes are
    listed: the parser reads the written text to its end and finds the same tags, attributes and values;
    also when the white space at the ends of the text is dropped. *)
Theorem C76_xml : forall order n, any_order order -> node_ok n ->
  exists n', parse_string (write_string order (Some n)) = (Some n', true) /\ same n n'.
Proof. intros order n OR OK. exact (parse_written order OR n OK). Qed.
Print Assumptions C76_xml.

Theorem C76_trimmed : forall order n, any_order order -> node_ok n ->
  exists n', parse_string (trim (write_string order (Some n))) = (Some n', true) /\ same n n'.
Proof. intros order n OR OK. exact (parse_trimmed order OR n OK). Qed.
Print Assumptions C76_trimmed.

(** Two trees that are not the same are never written as the same text. *)
Theorem C76_distinct : forall o1 o2 n1 n2, any_order o1 -> any_order o2 -> node_ok n1 -> node_ok n2 ->
  write_string o1 (Some n1) = write_string o2 (Some n2) -> exists n, same n1 n /\ same n2 n.
Proof.
  intros o1 o2 n1 n2 O1 O2 K1 K2 W. destruct (C76_xml o1 n1 O1 K1) as (a & P1 & S1).
  destruct (C76_xml o2 n2 O2 K2) as (b & P2 & S2). exists a. split; [exact S1|].
  rewrite W in P1. assert (a = b) as -> by congruence. exact S2.
Qed.
Print Assumptions C76_distinct.

Definition nc (s : string) : list N := lit s.
Definition sample : xnode :=
  XNode (lit "HDcomment") [] []
    [XNode (lit "TX") [] (lit "a < b & 'c'") [];
     XNode (lit "common_properties") [] []
       [XNode (lit "e") [(lit "name", lit "author"); (lit "type", lit "string")] [206; 169] []]].
Example C76_witness : node_ok sample /\ any_order (fun l => rev l) /\
  List.length (write_string (fun l => rev l) (Some sample)) <> 0%nat.
Proof.
  split; [|split; [intros l; apply Permutation_rev|discriminate]].
  apply good_ok. unfold sample.
  assert (T : forall s, forallb (fun c => (32 <=? c) && (c <? 128)) s = true -> text_ok s)
    by (intros s H; apply line_text, line_okb, H).
  assert (U : text_ok [206; 169]).
  { exists [937]. split; [|reflexivity]. constructor; [|constructor]. right. right. left. lia. }
  pose proof text_nil as TN.
  repeat first
    [ apply good_level | apply Forall_nil | apply Forall_cons | apply name_okb_ok; reflexivity | apply lit_no_colon; reflexivity
    | exact U | exact TN | apply T; reflexivity | split; [cbn; auto 10|apply line_okb; reflexivity]
    | apply NoDup_nil | apply NoDup_cons; [cbn; intuition discriminate|] ].
Qed.

Lemma control_value :
  parse_string (write_string (fun l => l) (Some (XNode (lit "HDcomment") [] []
    [XNode (lit "TX") [] [97; 1] []; XNode (lit "time_source") [] (lit "gps") []]))) =
  (Some (XNode (lit "HDcomment") [] [10; 32; 32] [XNode (lit "TX") [] [97] []]), false).
Proof. vm_compute. reflexivity. Qed.
(** A value with characters below 32 other than tab and line feed is written but not read: the reading
    ends at it. *)
Theorem C76_control_refuted : ~ forall n, exists n', parse_string (write_string (fun l => l) (Some n)) = (Some n', true).
Proof.
  intros H. destruct (H (XNode (lit "HDcomment") [] []
    [XNode (lit "TX") [] [97; 1] []; XNode (lit "time_source") [] (lit "gps") []])) as (n' & E).
  rewrite control_value in E. discriminate.
Qed.
Print Assumptions C76_control_refuted.

Lemma mixed_value :
  fst (parse_string (write_string (fun l => l) (Some (XNode (lit "e") [] (lit "5") [XNode (lit "e") [] [] []])))) =
  Some (XNode (lit "e") [] [10; 32; 32; 10] [XNode (lit "e") [] [] []]).
Proof. vm_compute. reflexivity. Qed.
(** A tag with a value and children is written without its value. *)
Theorem C76_mixed_refuted : ~ forall n, node_ok n -> exists n',
  fst (parse_string (write_string (fun l => l) (Some n))) = Some n' /\ value_text n' = value_text n.
Proof.
  intros H. destruct (H (XNode (lit "e") [] (lit "5") [XNode (lit "e") [] [] []])) as (n' & E & V).
  - apply good_ok. pose proof text_nil as TN.
    assert (T5 : text_ok (lit "5")) by (apply line_text, line_okb; reflexivity).
    repeat first
      [ apply good_level | apply Forall_nil | apply Forall_cons | apply name_okb_ok; reflexivity | apply lit_no_colon; reflexivity
      | exact TN | exact T5 | apply NoDup_nil ].
  - rewrite mixed_value in E. assert (X : n' = XNode (lit "e") [] [10; 32; 32; 10] [XNode (lit "e") [] [] []]) by congruence.
    subst n'. revert V. vm_compute. discriminate.
Qed.
Print Assumptions C76_mixed_refuted.

(* ------------------------------------------------------------------ *)
(** ** C77: the properties of a block after any calls *)

(** After any calls of the setters on the comment of a block, a text property is the last text set for
    its tag, and empty if there is none. *)
Theorem C77_string : forall order root ops t v, any_order order -> name_ok root -> ~ In 58 root ->
  Forall md_op_ok ops -> tag_name t -> last_string t ops v ->
  get_string t (md_run order root ops) = trim v.
Proof.
  intros order root ops t v OR N1 N2 F T L. destruct (run_string order OR root t ops v N1 N2 T F L) as (n & M & -> & V).
  rewrite (get_string_view order OR) by auto. exact V.
Qed.
Print Assumptions C77_string.

(** A common property that is never set as a tree has the last value set. *)
Theorem C77_common : forall order root ops name v, any_order order -> name_ok root -> ~ In 58 root ->
  Forall md_op_ok ops -> name <> [] -> never_tree name ops -> last_common name ops v ->
  e_value (e_base (get_common order name (md_run order root ops))) = trim v /\
  e_tree (get_common order name (md_run order root ops)) = [].
Proof.
  intros order root ops name v OR N1 N2 F NN NT L.
  destruct (run_common order OR root name ops v N1 N2 NN F NT L) as (n & M & -> & T & V).
  destruct (get_common_value order OR name n M T) as [-> ->]. auto.
Qed.
Print Assumptions C77_common.

(** A common property, or a tree of them, that is set once is read back with everything that is kept,
    whatever is set before and after it under other names. *)
Theorem C77_once : forall order root ops1 e ops2, any_order order -> name_ok root -> ~ In 58 root ->
  Forall md_op_ok (ops1 ++ SetCommon e :: ops2) -> e_name (e_base e) <> [] -> names_differ e ->
  Forall (fun op => ~ sets_common (e_name (e_base e)) op) (ops1 ++ ops2) ->
  get_common order (e_name (e_base e)) (md_run order root (ops1 ++ SetCommon e :: ops2)) = kept e.
Proof. intros order root ops1 e ops2 OR. exact (run_once order OR root ops1 e ops2). Qed.
Print Assumptions C77_once.

(** Writing the comment as a block at the end of a file and reading the block again changes no property:
    every getter returns after the reading what it returned before the writing. *)
Theorem C77_file : forall order root ops f, any_order order -> name_ok root -> ~ In 58 root -> Forall md_op_ok ops ->
  (0 < length f)%nat -> N.of_nat (25 + length (md_run order root ops)) < 2 ^ 64 ->
  exists f' b t, write_tx4 (md_run order root ops) f = Ok (f', b) /\
    (forall g, tx4_text (f' ++ g) (b_pos b) = Ok t) /\
    (forall tag, get_string tag t = get_string tag (md_run order root ops)) /\
    (forall name, get_common order name t = get_common order name (md_run order root ops)).
Proof.
  intros order root ops f OR N1 N2 F NE B. destruct (run_mds order OR root ops N1 N2 F) as (n & M & R). rewrite R in *.
  destruct (stored_text order OR n f M NE B) as (f' & b & W & T). exists f', b, (trim (write order 0 n)).
  split; [exact W|]. split; [exact T|]. split.
  - intros tag. rewrite (get_string_trim order OR), (get_string_view order OR) by auto. reflexivity.
  - intros name. apply (get_common_trim order OR). exact M.
Qed.
Print Assumptions C77_file.

(** After any calls the comment is XML that is read to its end. *)
Theorem C77_readable : forall order root ops, any_order order -> name_ok root -> ~ In 58 root -> Forall md_op_ok ops ->
  exists n, parse_string (md_run order root ops) = (Some n, true).
Proof.
  intros order root ops OR N1 N2 F. destruct (run_mds order OR root ops N1 N2 F) as (n & M & ->).
  destruct (parse_mds order OR n M) as (n' & P & _). exists n'. exact P.
Qed.
Print Assumptions C77_readable.

Definition plain (name value : list N) : ebase := mkE name [] [] [] [] [] value false (-1).
Definition w_speed : ebase := mkE (lit "speed") (lit "of car") (lit "m/s") [] (lit "float") [] (lit "1.5") true 3.
Definition w_tree : etag := ETag (plain (lit "car") []) [ETag w_speed []; ETag (plain (lit "colour") (lit "red")) []].
Definition w_ops : list md_op :=
  [SetString (lit "TX") (lit "old"); SetCommon w_tree; SetCommon (ETag (plain (lit "driver") (lit "A")) []);
   SetString (lit "tx") (lit " new "); SetCommon (ETag (plain (lit "driver") (lit "B<")) [])].

Lemma w_line : forall s, forallb (fun c => (32 <=? c) && (c <? 128)) s = true -> line_ok s.
Proof. exact line_okb. Qed.
Ltac base_solve := unfold base_ok; cbn [e_name e_desc e_unit e_ref e_type e_lang e_value];
  repeat split; try (apply w_line; reflexivity); apply line_text, w_line; reflexivity.
Lemma w_ops_ok : Forall md_op_ok w_ops.
Proof.
  assert (TX : tag_name (lit "TX")) by apply tx_name.
  assert (tx : tag_name (lit "tx")).
  { split; [apply name_okb_ok; reflexivity|]. split; [apply lit_no_colon; reflexivity|discriminate]. }
  unfold w_ops. repeat first [apply Forall_cons | apply Forall_nil]; cbn [md_op_ok].
  - split; [exact TX|apply line_text, w_line; reflexivity].
  - constructor; [base_solve|]. constructor; [|constructor; [|constructor]]; (constructor; [base_solve|constructor]).
  - constructor; [base_solve|constructor].
  - split; [exact tx|apply line_text, w_line; reflexivity].
  - constructor; [base_solve|constructor].
Qed.
Example C77_witness :
  Forall md_op_ok w_ops /\ last_string (lit "TX") w_ops (lit " new ") /\
  last_common (lit "Driver") w_ops (lit "B<") /\ never_tree (lit "Driver") w_ops /\ names_differ w_tree /\
  get_common (fun l => l) (lit "CAR") (md_run (fun l => l) (lit "HDcomment") w_ops) = kept w_tree.
Proof.
  split; [exact w_ops_ok|]. split; [|split; [|split; [|split]]].
  - unfold w_ops. apply (ls_other _ [_; _; _; _]); [|exact Logic.I]. apply (ls_set _ [_; _; _]). reflexivity.
  - unfold w_ops. apply (lc_set _ [_; _; _; _] (plain (lit "driver") (lit "B<"))). reflexivity.
  - intros e I A. unfold w_ops in I. cbn [In] in I.
    repeat (destruct I as [I|I]; [try discriminate I; injection I as <-; try reflexivity; discriminate A|]). contradiction.
  - constructor.
    + apply NoDup_cons; [cbn; intuition discriminate|]. apply NoDup_cons; [cbn; tauto|apply NoDup_nil].
    + constructor; [|constructor; [|constructor]]; (constructor; constructor).
  - vm_compute. reflexivity.
Qed.

Definition unit_ops : list md_op :=
  [SetCommon (ETag (mkE (lit "speed") [] (lit "m/s") [] [] [] (lit "1") false (-1)) []);
   SetCommon (ETag (mkE (lit "speed") [] (lit "km/h") [] [] [] (lit "2") false (-1)) [])].
Lemma unit_kept : let e := get_common (fun l => l) (lit "speed") (md_run (fun l => l) (lit "CNcomment") unit_ops) in
  e_value (e_base e) = lit "2" /\ e_unit (e_base e) = lit "m/s".
Proof. vm_compute. split; reflexivity. Qed.
(** A property that is set again keeps its old description, unit and type: an attribute that is there is
    not changed. *)
Theorem C77_attributes_refuted : ~ forall ops b,
  get_common (fun l => l) (e_name b) (md_run (fun l => l) (lit "CNcomment") (ops ++ [SetCommon (ETag b [])])) = kept (ETag b []).
Proof.
  intros H. specialize (H [SetCommon (ETag (mkE (lit "speed") [] (lit "m/s") [] [] [] (lit "1") false (-1)) [])]
    (mkE (lit "speed") [] (lit "km/h") [] [] [] (lit "2") false (-1))).
  pose proof unit_kept as [_ U]. cbv zeta in U. unfold unit_ops in U. cbn [app e_name] in H. rewrite H in U. discriminate U.
Qed.
Print Assumptions C77_attributes_refuted.

Definition case_ops : list md_op :=
  [SetCommon (ETag (plain (lit "Speed") (lit "1")) []); SetCommon (ETag (plain (lit "speed") (lit "2")) [])].
Lemma case_lost : e_value (e_base (get_common (fun l => l) (lit "Speed") (md_run (fun l => l) (lit "CNcomment") case_ops))) = lit "2".
Proof. vm_compute. reflexivity. Qed.
(** Two properties whose names differ in upper and lower case only are one: the second value replaces
    the first. *)
Theorem C77_case_refuted : ~ forall b1 b2, e_name b1 <> e_name b2 ->
  e_value (e_base (get_common (fun l => l) (e_name b1)
    (md_run (fun l => l) (lit "CNcomment") [SetCommon (ETag b1 []); SetCommon (ETag b2 [])]))) = trim (e_value b1).
Proof.
  intros H. specialize (H (plain (lit "Speed") (lit "1")) (plain (lit "speed") (lit "2")) ltac:(discriminate)).
  pose proof case_lost as L. unfold case_ops in L. cbn [plain e_name e_value] in *. rewrite H in L. discriminate L.
Qed.
Print Assumptions C77_case_refuted.

Definition tree_ops : list md_op :=
  [SetCommon (ETag (plain (lit "car") []) [ETag (plain (lit "colour") (lit "red")) []]);
   SetCommon (ETag (plain (lit "car") (lit "none")) [])].
Lemma tree_hides : e_value (e_base (get_common (fun l => l) (lit "car") (md_run (fun l => l) (lit "CNcomment") tree_ops))) = [].
Proof. vm_compute. reflexivity. Qed.
(** A plain value set under the name of a tree is written but not seen: the tree is returned. *)
Theorem C77_tree_refuted : ~ forall ops name v, last_common name ops v ->
  e_value (e_base (get_common (fun l => l) name (md_run (fun l => l) (lit "CNcomment") ops))) = trim v.
Proof.
  intros H. specialize (H tree_ops (lit "car") (lit "none")).
  rewrite tree_hides in H. assert (X : [] = trim (lit "none")); [|discriminate X]. apply H.
  unfold tree_ops. apply (lc_set _ [_] (plain (lit "car") (lit "none"))). reflexivity.
Qed.
Print Assumptions C77_tree_refuted.

Definition again_tree : etag := ETag (plain (lit "car") []) [ETag (plain (lit "doors") (lit "5")) []].
Definition again_ops : list md_op :=
  [SetCommon (ETag (plain (lit "car") []) [ETag (plain (lit "colour") (lit "red")) []]); SetCommon again_tree].
Lemma tree_stale : List.length (e_tree (get_common (fun l => l) (lit "car") (md_run (fun l => l) (lit "CNcomment") again_ops))) = 2%nat.
Proof. vm_compute. reflexivity. Qed.
(** A tree that is set again with fewer properties keeps those of the first time. *)
Theorem C77_stale_refuted : ~ forall ops e, names_differ e ->
  e_tree (get_common (fun l => l) (e_name (e_base e)) (md_run (fun l => l) (lit "CNcomment") (ops ++ [SetCommon e]))) = e_tree (kept e).
Proof.
  intros H. specialize (H [SetCommon (ETag (plain (lit "car") []) [ETag (plain (lit "colour") (lit "red")) []])] again_tree).
  pose proof tree_stale as L. unfold again_ops in L. cbn [app] in H. cbn [again_tree plain e_base e_name] in H.
  fold again_tree in H. rewrite H in L; [discriminate L|]. constructor.
  - apply NoDup_cons; [cbn; tauto|apply NoDup_nil].
  - constructor; [|constructor]. constructor; constructor.
Qed.
Print Assumptions C77_stale_refuted.

Lemma plain_erased : set_string (fun l => l) (lit "time_source") (lit "gps") (lit "hello") = [].
Proof. vm_compute. reflexivity. Qed.
(** Setting a text property of a comment that is plain text erases the comment. *)
Theorem C77_plain_refuted : ~ forall text t v, tag_name t -> text_ok v -> get_string t (set_string (fun l => l) t v text) = trim v.
Proof.
  intros H. specialize (H (lit "hello") (lit "time_source") (lit "gps")). rewrite plain_erased in H.
  assert (X : get_string (lit "time_source") [] = trim (lit "gps")); [|vm_compute in X; discriminate X]. apply H.
  - split; [apply name_okb_ok; reflexivity|]. split; [apply lit_no_colon; reflexivity|discriminate].
  - apply line_text, line_okb. reflexivity.
Qed.
Print Assumptions C77_plain_refuted.

Definition drop_ops : list md_op :=
  [SetString (lit "a") []; SetString (lit "b") (lit "kept"); SetString (lit "a") [1]; SetString (lit "c") (lit "x")].
Lemma drop_lost : get_string (lit "b") (md_run (fun l => l) (lit "CNcomment") drop_ops) = [].
Proof. vm_compute. reflexivity. Qed.
(** One text with a control character makes the next setter drop the properties that follow it in the
    comment. *)
Theorem C77_control_refuted : ~ forall ops t v, last_string t ops v ->
  get_string t (md_run (fun l => l) (lit "CNcomment") ops) = trim v.
Proof.
  intros H. specialize (H drop_ops (lit "b") (lit "kept")). rewrite drop_lost in H.
  assert (X : [] = trim (lit "kept")); [|discriminate X]. apply H. unfold drop_ops.
  apply (ls_other _ [_; _; _]); [|intros A; discriminate A]. apply (ls_other _ [_; _]); [|intros A; discriminate A].
  apply (ls_set _ [_]). reflexivity.
Qed.
Print Assumptions C77_control_refuted.

(* ------------------------------------------------------------------ *)
(** ** C78: the properties of the header after any calls *)

(** After any calls of the setters on a new header, each getter returns what was last set with its own
    setter, without the white space at the ends; the file index is the last number set, or 0. *)
Theorem C78_header : forall order ops, any_order order -> Forall hd_op_ok ops ->
  (forall p, hd_prop_text p (hd_run order ops) = trim (last_of (puts p) [] ops)) /\
  hd_index (hd_run order ops) = last_of indexes 0%Z ops /\
  hd_description (hd_run order ops) = trim (last_of describes [] ops).
Proof.
  intros order ops OR F. destruct (run_header order OR ops F) as (n & ST & VP & VI & VD). split; [|split].
  - intros p. unfold hd_prop_text. rewrite (get_view order OR _ _ n ST). apply VP.
  - unfold hd_index. fold i_key. rewrite (get_view order OR _ _ n ST), VI.
    destruct (last_index ops) as [[-> ->]|(z & -> & ->)]; [reflexivity|]. cbn [index_text].
    pose proof (int_text_nil z) as NZ. destruct (int_text z) as [|c r] eqn:E; [congruence|]. rewrite <- E. apply read_int_text.
  - rewrite (describe_view order OR _ n ST). exact VD.
Qed.
Print Assumptions C78_header.

(** The same after the header was written to a file and read again. *)
Theorem C78_file : forall order ops f, any_order order -> Forall hd_op_ok ops -> ops <> [] ->
  (0 < length f)%nat -> N.of_nat (25 + length (hd_run order ops)) < 2 ^ 64 ->
  exists f' b t, write_tx4 (hd_run order ops) f = Ok (f', b) /\
    (forall g, tx4_text (f' ++ g) (b_pos b) = Ok t) /\
    (forall p, hd_prop_text p t = trim (last_of (puts p) [] ops)) /\
    hd_index t = last_of indexes 0%Z ops /\
    hd_description t = trim (last_of describes [] ops).
Proof.
  intros order ops f OR F NO NE B. destruct (C78_header order ops OR F) as (HP & HI & HD).
  destruct (run_header_text order OR ops F NO) as (n & ST & R). pose proof ST as (M & _). rewrite R in *.
  destruct (stored_text order OR n f M NE B) as (f' & b & W & T). exists f', b, (trim (write order 0 n)).
  split; [exact W|]. split; [exact T|]. split; [|split].
  - intros p. rewrite <- HP. unfold hd_prop_text. apply (hd_get_trim order OR). exact M.
  - rewrite <- HI. unfold hd_index. rewrite (hd_get_trim order OR) by exact M. reflexivity.
  - rewrite <- HD, (hd_description_trim order OR), (describe_view order OR _ n ST) by exact M. reflexivity.
Qed.
Print Assumptions C78_file.

Definition h_ops : list hd_op :=
  [HdPut Author (lit "me"); HdDescribe (lit "a & b"); HdIndex (-7); HdPut Project (lit "<p>"); HdPut Author (lit " you ")].
Example C78_witness : Forall hd_op_ok h_ops /\ last_of (puts Author) [] h_ops = lit " you " /\
  hd_prop_text Author (hd_run (fun l => l) h_ops) = lit "you" /\ hd_index (hd_run (fun l => l) h_ops) = (-7)%Z /\
  hd_description (hd_run (fun l => l) h_ops) = lit "a & b".
Proof.
  split; [|split; [reflexivity|split; [vm_compute; reflexivity|split; vm_compute; reflexivity]]].
  unfold h_ops. repeat first [apply Forall_cons | apply Forall_nil]; cbn [hd_op_ok]; try exact Logic.I; apply line_text, line_okb; reflexivity.
Qed.

Example C78_file_witness : match write_tx4 (hd_run (fun l => l) h_ops) (repeat 0 64) with
  | Ok (f', b) => match tx4_text f' (b_pos b) with
      | Ok t => t <> hd_run (fun l => l) h_ops /\ hd_prop_text Project t = lit "<p>" /\ hd_index t = (-7)%Z
      | _ => False end
  | _ => False end.
Proof. vm_compute. split; [discriminate|split; reflexivity]. Qed.

Lemma comment_lost : hd_description (hd_put (fun l => l) Author (lit "me") (lit "hello")) = [].
Proof. vm_compute. reflexivity. Qed.
(** A header whose comment is plain text loses it when a property is set. *)
Theorem C78_comment_refuted : ~ forall md p v, text_ok v -> hd_description (hd_put (fun l => l) p v md) = hd_description md.
Proof.
  intros H. specialize (H (lit "hello") Author (lit "me")). rewrite comment_lost in H.
  assert (X : [] = hd_description (lit "hello")); [|vm_compute in X; discriminate X]. apply H. apply line_text, line_okb. reflexivity.
Qed.
Print Assumptions C78_comment_refuted.
