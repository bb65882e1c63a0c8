(** C87: the comments of channels, sources, events and units are read back as they were set. *)
From Coq Require Import String Permutation Sorting.Sorted Lia.
From Verif Require Import Base BlockModel BlockProofs TextSpec XmlModel XmlSpec XmlProofs XmlProofs2 XmlProofs3 XmlProofs4 XmlProofs5
  CommentModel CommentSpec CommentProofs CommentProofs2 CommentProofs3 CommentProofs4 CommentProofs5 CommentProofs6 CommentProps
  NoteModel NoteSpec NoteProofs NoteProofs2 NoteProofs3 NoteProofs4.
Local Open Scope N_scope.
Local Open Scope list_scope.

(** A comment with a text, properties, alternative names and a formula, set at any kind of block: all of
    it is read back from the stored text as it was set. *)
Theorem C87_comment : forall order block c s, any_order order -> name_ok (block ++ lit "comment") -> wcom_ok c ->
  text_of order (to_wcom block c) s ->
  exists c', from_text (from_wcom order) describe_w s wcom0 = Some c' /\ kept_wcom c c'.
Proof. intros order block c s OR. exact (wcom_back order OR block c s). Qed.
Print Assumptions C87_comment.

(** The comment of a channel: also the name and address in the linker file, the monotony of the axis, the
    raster and the address. [print] and [scan] are whatever conversions between floating point numbers and
    texts are in use. *)
Theorem C87_channel : forall print scan order c s, any_order order -> cn_ok print c -> text_of order (to_cn print c) s ->
  exists c', from_text (from_cn scan order) describe_cn s cncom0 = Some c' /\ kept_cn print scan c c'.
Proof. intros print scan order c s OR. exact (cn_back print scan order OR c s). Qed.
Print Assumptions C87_channel.

(** The comment of an event: the text, the properties, the formula, the intervals and the timeout. *)
Theorem C87_event : forall print scan order c s, any_order order -> ev_ok print c -> text_of order (to_ev print c) s ->
  exists c', from_text (from_ev scan order) describe_ev s evcom0 = Some c' /\ kept_ev print scan c c'.
Proof. intros print scan order c s OR. exact (ev_back print scan order OR c s). Qed.
Print Assumptions C87_event.

(** The comment of a source: the text, the properties, and the alternative names of the source, of its
    path and of its bus, and the protocol. *)
Theorem C87_source : forall order c s, any_order order -> si_ok c -> text_of order (to_si c) s ->
  exists c', from_text (from_si order) describe_si s sicom0 = Some c' /\ kept_si c c'.
Proof. intros order c s OR. exact (si_back order OR c s). Qed.
Print Assumptions C87_source.

(** A unit of a channel or of a conversion: also the name of the unit it refers to. *)
Theorem C87_unit : forall order block c s, any_order order -> name_ok (block ++ lit "unit") -> unit_ok c ->
  text_of order (to_unit block c) s ->
  exists c', from_text (from_unit order) describe_unit s unitc0 = Some c' /\ kept_unit c c'.
Proof. intros order block c s OR. exact (unit_back order OR block c s). Qed.
Print Assumptions C87_unit.

Lemma number_cons : forall type n, number_text type n <> [].
Proof.
  intros type n. unfold number_text. destruct (type =? 8); [discriminate|]. destruct (int_head (Z.of_N n)) as (c & r & -> & _). discriminate.
Qed.
Lemma number_trim : forall type n, trim (number_text type n) = number_text type n.
Proof.
  intros type n. unfold number_text. destruct (type =? 8); [|apply int_trim].
  assert (F : Forall hexch (hex_digits 16 n [])) by (apply hex_digits_ch; constructor).
  assert (L : is_space (last (hex_text n) 0) = false).
  { unfold hex_text. destruct (hex_digits_head 15 n []) as (c & r & E). rewrite E in *. clear E. revert c F. induction r as [|d r IH]; intros c F; inversion F; subst.
    - cbn. apply hexch_space. auto.
    - specialize (IH d H2). change (lit "0x" ++ c :: d :: r) with (48 :: 120 :: c :: d :: r). change (lit "0x" ++ d :: r) with (48 :: 120 :: d :: r) in IH. exact IH. }
  unfold trim, rtrim. rewrite (ltrim_id (hex_text n)) by (left; reflexivity). rewrite ltrim_id by (left; rewrite hd_rev; exact L). apply rev_involutive.
Qed.
Lemma int_ascii : forall z, Forall (fun c => c < 58) (int_text z).
Proof.
  intros z. unfold int_text. apply Forall_app. split; [destruct (z <? 0)%Z; repeat constructor; lia|].
  eapply Forall_impl; [|apply uint_bytes_range]. cbv beta. lia.
Qed.
Lemma number_get : forall type n, n < 2 ^ 64 -> match (match after_0x (number_text type n) with
  | Some h => stoull16 h | None => match number_text type n with [] => None | t => stoull t end end) with Some n => n | None => 0 end = n.
Proof.
  intros type n B. unfold number_text. destruct (type =? 8).
  - rewrite after_hex, stoull16_hex by exact B. reflexivity.
  - pose proof (stoull_int n B) as I. destruct (int_head (Z.of_N n)) as (c & r & E & _ & _ & _).
    assert (A : after_0x (int_text (Z.of_N n)) = None).
    { destruct (after_0x (int_text (Z.of_N n))) as [h|] eqn:AX; [|reflexivity]. exfalso. clear I.
      pose proof (int_ascii (Z.of_N n)) as D. unfold after_0x in AX. rewrite E in *. clear E. change (lit "0x") with [48; 120] in AX. cbn [strip] in AX. destruct (48 =? c); [|discriminate].
      destruct r as [|x r]; [discriminate|]. destruct (N.eqb_spec 120 x) as [<-|]; [|discriminate].
      inversion D as [|? ? _ D2]; subst. inversion D2; subst. lia. }
    rewrite A. destruct (int_text (Z.of_N n)) eqn:E2; [discriminate|]. rewrite I. reflexivity.
Qed.
(** A number below 2^64 that is set, with whatever type, in a comment is the number that is got from it, and
    the number that is got from the comment read back: in every place where numbers are kept. *)
Theorem C87_number : forall print scan type q q' n, n < 2 ^ 64 ->
  get_number (set_number n q) = n /\
  (kept_opt_num print scan type (set_number n q) q' -> get_number q' = n).
Proof.
  intros print scan type q q' n B. split; [apply number_get; exact B|]. intros K. unfold kept_opt_num in K. cbn [q_text set_number] in K.
  pose proof (number_cons (q_type q) n) as NE. destruct (number_text (q_type q) n) as [|h t] eqn:E; [contradiction|].
  destruct K as (_ & T & _). cbn [q_text set_number] in T. rewrite number_trim in T. unfold get_number. rewrite T. apply number_get. exact B.
Qed.
Print Assumptions C87_number.

(** ** A case with every part *)

Definition ascii (s : list N) : bool := forallb (fun c => (32 <=? c) && (c <? 128)) s.
Definition text (s : list N) : mstr := mkStr std0 s None.
Definition syn1 : msyn := mkSyn (text (lit "a + b")) (lit "1.1") [].
Definition custom1 : msyn := mkSyn (text (lit "sum(a)")) (lit "2") (lit "tool").
Definition var1 : mvar := mkVar (text (lit "a")) (lit "Speed") (lit "cs") [] (lit "Group") [] (lit "gp") [] true.
Definition form1 : formula := mkForm std0 syn1 [custom1] [var1].
Definition names1 : altn := mkAlt std0 (lit "main") [text (lit "n1"); text (lit "n2")] [text (lit "shown")] [] [text (lit "why")].
Definition w1 : wcom := mkW (mkC (text (lit "a comment")) mlist0) names1 form1.
Definition dec1 : num := mkNum std0 (lit "0.01") true 3 (Some 4) None true (Some 7) None None (lit "s") [].
Definition addr1 : num := set_number 48879 (mkNum std0 [] false 8 (Some 2) (Some 65535) false None None None [] []).
Definition cn1 : cncom := mkCn w1 (mkStr std0 (lit "_speed") (Some 12)) addr1 (Some 3) dec1 addr1.
Definition ev1 : evcom := mkEv w1 dec1 (num0 3) dec1.
Definition si1 : sicom := mkSi w1 names1 altn0 (text (lit "XCP")).
Definition unit1 : unitc := mkUnit w1 (text (lit "km/h")).
Definition print1 (d : N) : list N := int_text (Z.of_N d).
Definition scan1 (s : list N) : option N := stoull s.

Lemma line_a : forall s, ascii s = true -> line_ok s.
Proof. exact line_lit. Qed.
Lemma none_agree : forall own, agrees own std0.
Proof. intros own k v []. Qed.
Lemma names_plain : forall d a b c e, ascii d = true -> forallb ascii (a ++ b ++ c ++ e) = true ->
  altn_ok (mkAlt std0 d (map text a) (map text b) (map text c) (map text e)).
Proof.
  intros d a b c e D F. assert (X : forall l, forallb ascii l = true -> Forall str_ok (map text l)).
  { intros l H. rewrite forallb_forall in H. apply Forall_forall. intros x I. apply in_map_iff in I. destruct I as (y & <- & I). apply str_lit. apply H. exact I. }
  rewrite !forallb_app in F. repeat match goal with H : _ && _ = true |- _ => apply andb_prop in H; destruct H end.
  unfold altn_ok. cbn [a_std a_default a_names a_display a_vendors a_descs].
  split; [apply std0_ok|]. split; [apply none_agree|]. split; [apply line_a, D|]. auto.
Qed.
Lemma altn0_ok : altn_ok altn0.
Proof. exact (names_plain [] [] [] [] [] eq_refl eq_refl). Qed.
Lemma names1_ok : altn_ok names1.
Proof. exact (names_plain (lit "main") [lit "n1"; lit "n2"] [lit "shown"] [] [lit "why"] eq_refl eq_refl). Qed.
Lemma syn_plain : forall custom t v s, ascii t = true -> ascii v = true -> ascii s = true -> syn_ok custom (mkSyn (text t) v s).
Proof.
  intros custom t v s A B C. unfold syn_ok, y_name. cbn [y_str t_std t_text y_version y_source text].
  split; [apply std0_ok|]. split; [apply text_lit, A|]. split; apply line_a; auto.
Qed.
Lemma var_plain : forall t a b c d e f i r, forallb ascii [t; a; b; c; d; e; f] = true -> var_ok (mkVar (text t) a b c d e f i r).
Proof.
  intros t a b c d e f i r H. cbn [forallb] in H. repeat match goal with H : _ && _ = true |- _ => apply andb_prop in H; destruct H end.
  unfold var_ok, v_name. cbn [v_str t_std t_text v_cn v_cs v_cp v_gn v_gs v_gp text].
  split; [apply std0_ok|]. split; [apply text_lit; auto|]. repeat split; apply line_a; auto.
Qed.
Lemma none_named : named_ok [].
Proof. split; [constructor|]. split; [intros []|constructor]. Qed.
Lemma one_named : forall n, n <> [] -> tight n -> named_ok [n].
Proof. intros n NE T. split; [apply one_name|]. split; [intros [E|[]]; congruence|constructor; [exact T|constructor]]. Qed.
Lemma form_plain : forall y ys vs, syn_ok false y -> Forall (syn_ok true) ys -> named_ok (map y_name ys) -> Forall var_ok vs -> named_ok (map v_name vs) ->
  formula_ok (mkForm std0 y ys vs).
Proof. intros. unfold formula_ok. cbn [f_std f_syntax f_custom f_vars]. split; [apply std0_ok|]. auto. Qed.
Lemma form0_ok : formula_ok form0.
Proof. apply form_plain; try apply none_named; try constructor. exact (proj1 (syn_plain false [] (lit "1.0") [] eq_refl eq_refl eq_refl)). exact (proj2 (syn_plain false [] (lit "1.0") [] eq_refl eq_refl eq_refl)). Qed.
Lemma form1_ok : formula_ok form1.
Proof.
  apply form_plain.
  - apply syn_plain; reflexivity.
  - constructor; [apply syn_plain; reflexivity|constructor].
  - apply one_named; [vm_compute; discriminate|reflexivity].
  - constructor; [apply var_plain; reflexivity|constructor].
  - apply one_named; [vm_compute; discriminate|reflexivity].
Qed.
Lemma w_plain : forall t a f, ascii t = true -> altn_ok a -> formula_ok f -> wcom_ok (mkW (mkC (text t) mlist0) a f).
Proof.
  intros t a f T A F. split; [|auto]. cbn [w_md]. split; [apply str_lit, T|]. cbn [c_common]. split; [exact list0_ok|auto].
Qed.
Lemma num_plain : forall print s tr ty ct mk be mi ma av u r, ascii s = true -> ascii u = true -> ascii r = true ->
  (forall n, ct = Some n -> n < 2 ^ 64) -> (forall n, mk = Some n -> n < 2 ^ 64) -> (forall n, line_ok (print n)) ->
  num_ok print (mkNum std0 s tr ty ct mk be mi ma av u r).
Proof.
  intros print s tr ty ct mk be mi ma av u r A B C D E F. unfold num_ok. cbn [q_std q_text q_count q_mask q_min q_max q_avg q_unit q_ref].
  assert (L : forall d, limit_ok print d) by (intros [d|]; [apply F|exact Logic.I]).
  split; [apply std0_ok|]. split; [apply text_lit, A|]. repeat (split; [auto using line_a|]). apply line_a. auto.
Qed.
Lemma print1_line : forall n, line_ok (print1 n).
Proof. intros n. apply int_line. Qed.
Lemma num0_ok : forall ty, num_ok print1 (num0 ty).
Proof. intros ty. apply num_plain; try reflexivity; try discriminate. exact print1_line. Qed.
Lemma dec1_ok : num_ok print1 dec1.
Proof. apply num_plain; try reflexivity; try discriminate; [|exact print1_line]. intros n E. assert (X : Some 4 = Some n) by exact E. assert (n = 4) as -> by congruence. reflexivity. Qed.
Lemma addr1_ok : num_ok print1 addr1.
Proof.
  apply num_plain; try reflexivity; [| |exact print1_line].
  - intros n E. assert (X : Some 2 = Some n) by exact E. assert (n = 2) as -> by congruence. reflexivity.
  - intros n E. assert (X : Some 65535 = Some n) by exact E. assert (n = 65535) as -> by congruence. reflexivity.
Qed.

Definition stored (n : xnode) : list N := write_string id_order (Some n).
Definition cn_again (c : cncom) : option cncom := from_text (from_cn scan1 id_order) describe_cn (stored (to_cn print1 c)) cncom0.
Definition ev_again (c : evcom) : option evcom := from_text (from_ev scan1 id_order) describe_ev (stored (to_ev print1 c)) evcom0.
Definition si_again (c : sicom) : option sicom := from_text (from_si id_order) describe_si (stored (to_si c)) sicom0.
Definition unit_again (c : unitc) : option unitc := from_text (from_unit id_order) describe_unit (stored (to_unit (lit "CN") c)) unitc0.
Definition w_shown (w : wcom) : list (list N) :=
  t_text (c_tx (w_md w)) :: a_default (w_names w) :: map t_text (a_names (w_names w) ++ a_display (w_names w) ++ a_descs (w_names w)) ++
  y_name (f_syntax (w_form w)) :: map y_source (f_custom (w_form w)) ++ map v_cn (f_vars (w_form w)).
Lemma cn1_case : option_map (fun c => (w_shown (cn_w c), offset_of (cn_linker c), get_number (cn_laddr c), bit_mask (cn_laddr c), cn_mono c,
    (q_text (cn_raster c), q_min (cn_raster c), q_unit (cn_raster c), q_be (cn_raster c), byte_count (cn_raster c)))) (cn_again cn1) =
  Some ([lit "a comment"; lit "main"; lit "n1"; lit "n2"; lit "shown"; lit "why"; lit "a + b"; lit "tool"; lit "Speed"], 12, 48879, 65535, Some 3,
    (lit "0.01", Some 7, lit "s", true, 4)).
Proof. vm_compute. reflexivity. Qed.
Lemma rest_case : (option_map (fun c => (q_text (ev_pre c), q_text (ev_post c), q_trig (ev_timeout c))) (ev_again ev1),
    option_map (fun c => (a_default (si_path c), a_default (si_bus c), t_text (si_protocol c))) (si_again si1),
    option_map (fun c => (w_shown (u_w c), t_text (u_ref c))) (unit_again unit1)) =
  (Some (lit "0.01", [], true), Some (lit "main", [], lit "XCP"), Some (w_shown w1, lit "km/h")).
Proof. vm_compute. reflexivity. Qed.
Lemma w1_ok : wcom_ok w1.
Proof. apply w_plain; [reflexivity|exact names1_ok|exact form1_ok]. Qed.
Lemma w0_ok : wcom_ok wcom0.
Proof. exact (w_plain [] altn0 form0 eq_refl altn0_ok form0_ok). Qed.
Lemma cn1_ok : cn_ok print1 cn1.
Proof.
  unfold cn_ok. cbn [cn_w cn_linker cn_laddr cn_raster cn_addr cn_mono cn1]. split; [exact w1_ok|]. split; [split; [|reflexivity]; split; [apply std0_ok|apply text_lit; reflexivity]|].
  split; [exact addr1_ok|]. split; [exact dec1_ok|]. split; [exact addr1_ok|]. intros m E. assert (X : Some 3 = Some m) by exact E. assert (m = 3) as -> by congruence. lia.
Qed.
Lemma ev1_ok : ev_ok print1 ev1.
Proof. unfold ev_ok. cbn [ev_w ev_pre ev_post ev_timeout ev1]. split; [exact w1_ok|]. split; [exact dec1_ok|]. split; [apply num0_ok|exact dec1_ok]. Qed.
Lemma si1_ok : si_ok si1.
Proof. unfold si_ok. cbn [si_w si_path si_bus si_protocol si1]. split; [exact w1_ok|]. split; [exact names1_ok|]. split; [exact altn0_ok|apply str_lit; reflexivity]. Qed.
Lemma unit1_ok : unit_ok unit1.
Proof. unfold unit_ok. cbn [u_w u_ref unit1]. split; [exact w1_ok|]. split; [apply std0_ok|]. split; [apply none_agree|apply line_a; reflexivity]. Qed.
Example C87_witness : cn_ok print1 cn1 /\ ev_ok print1 ev1 /\ si_ok si1 /\ unit_ok unit1 /\ any_order id_order /\ option_map (fun c => (get_number (cn_addr c), cn_mono c)) (cn_again cn1) = Some (48879, Some 3).
Proof.
  split; [exact cn1_ok|]. split; [exact ev1_ok|]. split; [exact si1_ok|]. split; [exact unit1_ok|]. split; [exact any_id|]. vm_compute. reflexivity.
Qed.

(** ** What is not kept *)

Definition w_again (c : wcom) : option wcom := from_text (from_wcom id_order) describe_w (stored (to_wcom (lit "CG") c)) wcom0.

Definition indexed : wcom := mkW comment0 altn0 (mkForm std0 syn1 [] [mkVar (text (lit "a")) (lit "Speed") [] [] [] [] [] [2; 3] false]).
Lemma index_case : option_map (fun c => map v_index (f_vars (w_form c))) (w_again indexed) = Some [[]].
Proof. vm_compute. reflexivity. Qed.
(** The array indexes of a formula's variable are lost: they are written as one attribute and looked for
    in another. *)
Theorem C87_array_refuted : ~ forall c c', wcom_ok c -> w_again c = Some c' ->
  map v_index (f_vars (w_form c')) = map v_index (f_vars (w_form c)).
Proof.
  intros H. pose proof index_case as K. destruct (w_again indexed) as [c'|] eqn:E; [|discriminate].
  cbn [option_map] in K. assert (X : map v_index (f_vars (w_form c')) = [[]]) by congruence. rewrite (H indexed c') in X; auto; [discriminate|].
  apply (w_plain []); [reflexivity|exact altn0_ok|]. apply form_plain; try constructor.
  - apply std0_ok.
  - exact (proj2 (syn_plain false (lit "a + b") (lit "1.1") [] eq_refl eq_refl eq_refl)).
  - constructor.
  - split; [intros []|constructor].
  - apply var_plain; reflexivity.
  - constructor.
  - apply one_name.
  - split; [intros [E2|[]]; discriminate|constructor; [reflexivity|constructor]].
Qed.
Print Assumptions C87_array_refuted.

Definition unnamed : wcom := mkW comment0 (mkAlt std0 (lit "main") [] [] [] []) form0.
Lemma unnamed_case : option_map (fun c => a_default (w_names c)) (w_again unnamed) = Some [].
Proof. vm_compute. reflexivity. Qed.
(** A default name without alternative names is not stored. *)
Theorem C87_default_refuted : ~ forall c c', wcom_ok c -> w_again c = Some c' -> a_default (w_names c') = a_default (w_names c).
Proof.
  intros H. pose proof unnamed_case as K. destruct (w_again unnamed) as [c'|] eqn:E; [|discriminate].
  cbn [option_map] in K. assert (X : a_default (w_names c') = []) by congruence. rewrite (H unnamed c') in X; auto; [discriminate|].
  apply (w_plain []); [reflexivity| |exact form0_ok]. exact (names_plain (lit "main") [] [] [] [] eq_refl eq_refl).
Qed.
Print Assumptions C87_default_refuted.

Definition vars_only : wcom := mkW comment0 altn0 (mkForm std0 syn0 [] [var1]).
Lemma vars_case : option_map (fun c => length (f_vars (w_form c))) (w_again vars_only) = Some O.
Proof. vm_compute. reflexivity. Qed.
(** Variables and custom syntaxes without the text of a formula are not stored. *)
Theorem C87_variables_refuted : ~ forall c c', wcom_ok c -> w_again c = Some c' -> length (f_vars (w_form c')) = length (f_vars (w_form c)).
Proof.
  intros H. pose proof vars_case as K. destruct (w_again vars_only) as [c'|] eqn:E; [|discriminate].
  cbn [option_map] in K. assert (X : length (f_vars (w_form c')) = O) by congruence. rewrite (H vars_only c') in X; auto; [discriminate|].
  apply (w_plain []); [reflexivity|exact altn0_ok|]. apply form_plain.
  - exact (syn_plain false [] (lit "1.0") [] eq_refl eq_refl eq_refl).
  - constructor.
  - exact none_named.
  - constructor; [apply var_plain; reflexivity|constructor].
  - apply one_named; [vm_compute; discriminate|reflexivity].
Qed.
Print Assumptions C87_variables_refuted.

Lemma ev_names_case : option_map (fun c => length (a_names (w_names (ev_w c)))) (ev_again ev1) = Some O.
Proof. vm_compute. reflexivity. Qed.
(** The alternative names of an event are not stored. *)
Theorem C87_event_names_refuted : ~ forall c c', ev_ok print1 c -> ev_again c = Some c' ->
  length (a_names (w_names (ev_w c'))) = length (a_names (w_names (ev_w c))).
Proof.
  intros H. pose proof ev_names_case as K. destruct (ev_again ev1) as [c'|] eqn:E; [|discriminate].
  cbn [option_map] in K. assert (X : length (a_names (w_names (ev_w c'))) = O) by congruence. rewrite (H ev1 c') in X; auto; [discriminate|exact ev1_ok].
Qed.
Print Assumptions C87_event_names_refuted.

Lemma si_form_case : option_map (fun c => y_name (f_syntax (w_form (si_w c)))) (si_again si1) = Some [].
Proof. vm_compute. reflexivity. Qed.
(** The formula of a source's comment is not stored. *)
Theorem C87_source_formula_refuted : ~ forall c c', si_ok c -> si_again c = Some c' ->
  y_name (f_syntax (w_form (si_w c'))) = y_name (f_syntax (w_form (si_w c))).
Proof.
  intros H. pose proof si_form_case as K. destruct (si_again si1) as [c'|] eqn:E; [|discriminate].
  cbn [option_map] in K. assert (X : y_name (f_syntax (w_form (si_w c'))) = []) by congruence. rewrite (H si1 c') in X; auto; [discriminate|exact si1_ok].
Qed.
Print Assumptions C87_source_formula_refuted.

Lemma type_case : option_map (fun c => q_type (cn_raster c)) (cn_again cn1) = Some 1.
Proof. vm_compute. reflexivity. Qed.
(** The data type of a number is not stored: a raster set as a float is a decimal in the comment read
    back. *)
Theorem C87_type_refuted : ~ forall c c', cn_ok print1 c -> cn_again c = Some c' -> q_type (cn_raster c') = q_type (cn_raster c).
Proof.
  intros H. pose proof type_case as K. destruct (cn_again cn1) as [c'|] eqn:E; [|discriminate].
  cbn [option_map] in K. assert (X : q_type (cn_raster c') = 1) by congruence. rewrite (H cn1 c') in X; auto; [discriminate|exact cn1_ok].
Qed.
Print Assumptions C87_type_refuted.

Definition rename (d : list N) (c : wcom) : wcom :=
  mkW (w_md c) (mkAlt (a_std (w_names c)) d (a_names (w_names c)) (a_display (w_names c)) (a_vendors (w_names c)) (a_descs (w_names c))) (w_form c).
Lemma rename_case : match w_again w1 with Some c => option_map (fun c => a_default (w_names c)) (w_again (rename (lit "other") c)) | None => None end = Some (lit "main").
Proof. vm_compute. reflexivity. Qed.
(** A default name that is changed in a comment that was read is the old one when the comment is stored
    and read again: the reading has kept the old one among the custom attributes. *)
Theorem C87_rename_refuted : ~ forall c c1 c2, wcom_ok c -> w_again c = Some c1 -> w_again (rename (lit "other") c1) = Some c2 ->
  a_default (w_names c2) = lit "other".
Proof.
  intros H. pose proof rename_case as K. destruct (w_again w1) as [c1|] eqn:A; [|discriminate].
  destruct (w_again (rename (lit "other") c1)) as [c2|] eqn:B; [|discriminate]. cbn [option_map] in K.
  assert (X : a_default (w_names c2) = lit "main") by congruence. rewrite (H w1 c1 c2 w1_ok A B) in X. discriminate.
Qed.
Print Assumptions C87_rename_refuted.
