(** C88: the computation method in a conversion's comment is read back as it was set. *)
From Coq Require Import String Permutation Sorting.Sorted Lia.
From Verif Require Import Base BlockModel BlockProofs TextSpec XmlModel XmlSpec XmlProofs XmlProofs2 XmlProofs3 XmlProofs4 XmlProofs5
  CommentModel CommentSpec CommentProofs CommentProofs2 CommentProofs3 CommentProofs4 CommentProofs5 CommentProofs6 CommentProps
  NoteModel NoteSpec NoteProofs NoteProofs2 NoteProofs3 NoteProofs4 NoteProps MethModel MethSpec MethProofs MethProofs2.
Local Open Scope N_scope.
Local Open Scope list_scope.

(** The comment of a conversion with any text, properties, names, formula and computation method: the
    category, the unit, every constraint with a limit, every scale in its order with limits, constants and
    coefficients, and the default values are read back. [print] and [scan] are whatever conversions between
    floating point numbers and texts are in use. *)
Theorem C88_method : forall print scan order c s, any_order order -> cc_ok print c -> text_of order (to_cc print c) s ->
  exists c', from_text (from_cc scan order) describe_cc s cccom0 = Some c' /\ kept_cc print scan c c'.
Proof. intros print scan order c s OR. exact (cc_back print scan order OR c s). Qed.
Print Assumptions C88_method.

(** If numbers are read as they were printed, then the numbers of a scale, its limits and the default value
    are exactly those that were set. *)
Theorem C88_exact : forall print scan order c s, any_order order -> cc_ok print c -> text_of order (to_cc print c) s ->
  (forall d, scan (trim (print d)) = d) ->
  exists c', from_text (from_cc scan order) describe_cc s cccom0 = Some c' /\
    map (fun z => (i_limit (k_lower (z_con z)), i_limit (k_upper (z_con z)), z_float z, z_nums z, z_dens z)) (h_scales (cc_meth c')) =
    map (fun z => (i_limit (k_lower (z_con z)), i_limit (k_upper (z_con z)), z_float z, z_nums z, z_dens z)) (h_scales (cc_meth c)) /\
    h_float (cc_meth c') = h_float (cc_meth c).
Proof.
  intros print scan order c s OR OK TX EX. destruct (C88_method print scan order c s OR OK TX) as (c' & E & (_ & M)). exists c'. split; [exact E|].
  assert (EA : forall d, again print scan d = d) by exact EX.
  assert (EO : forall o : option N, option_map (again print scan) o = o) by (intros [d|]; [cbn [option_map]; rewrite EA|]; reflexivity).
  assert (EL : forall l, map (again print scan) l = l) by (intros l; rewrite (map_ext _ (fun d => d) EA); apply map_id).
  destruct M as (M1 & M2). destruct (h_active (cc_meth c)) eqn:A.
  - assert (NO : ~ only_category (cc_meth c)) by (intros OC; apply active_case in OC; congruence).
    destruct (M2 NO) as (_ & _ & _ & _ & _ & _ & _ & KZ & KF & _). split; [|rewrite KF; apply EO].
    clear - KZ EO EL. induction KZ as [|z z' l l' K F IH]; [reflexivity|]. cbn [map]. rewrite IH. f_equal.
    destruct K as ((L1 & _) & (L2 & _) & _ & _ & K3 & _ & K4 & K5 & _). rewrite L1, L2, K3, K4, K5, !EO, !EL. reflexivity.
  - apply active_case in A. rewrite (M1 A). rewrite A. split; reflexivity.
Qed.
Print Assumptions C88_exact.

(** A comment with a method declares the prefix of the tags of the method; one without has no attributes. *)
Theorem C88_prefix : forall print c,
  (~ only_category (cc_meth c) -> x_attrs (to_cc print c) = [(lit "xmlns:ho", lit "http://www.asam.net/xml")]) /\
  (only_category (cc_meth c) -> x_attrs (to_cc print c) = []).
Proof.
  intros print c. rewrite to_cc_shape. cbn [x_attrs]. unfold cc_attrs. split.
  - intros NO. destruct (h_active (cc_meth c)) eqn:A; [reflexivity|]. exfalso. apply NO. apply active_case. exact A.
  - intros OC. apply active_case in OC. rewrite OC. reflexivity.
Qed.
Print Assumptions C88_prefix.

(** ** A case with every part *)
Definition from1 (s : list N) : N := match stoull s with Some n => n | None => 0 end.
Definition lim (d t : N) : interval := mkIv (Some d) t.
Definition scale1 : scale := mkSc (mkCon (lim 0 1) (lim 10 0) 0) [text (lit "low")] (Some 5) (Some (lit "five")) [1; 2; 3] [4; 5] (lit "x + 1").
Definition scale2 : scale := mkSc (mkCon (lim 11 2) iv0 0) [] None (Some (lit "high")) [] [7] [].
Definition meth1 : method := mkMeth [] [] [] 2 (lit "km_h") [mkCon (lim 1 0) (lim 250 1) 1; mkCon iv0 (lim 9 2) 5] [mkCon (lim 3 1) iv0 0]
  [scale1; scale2] (Some 42) (Some (lit "other")).
Definition cc1 : cccom := mkCc w1 meth1.
Definition cc_again (c : cccom) : option cccom := from_text (from_cc from1 id_order) describe_cc (stored (to_cc print1 c)) cccom0.
Lemma cc1_case : option_map cc_meth (cc_again cc1) = Some meth1.
Proof. vm_compute. reflexivity. Qed.
Lemma number1_ok : forall d, number_ok print1 d.
Proof. intros d. apply line_text. apply print1_line. Qed.
Lemma iv1_ok : forall d t, t <= 2 -> iv_ok print1 (mkIv d t).
Proof. intros d t LE. split; [intros; apply number1_ok|exact LE]. Qed.
Lemma con1_ok : forall a t b u v, t <= 2 -> u <= 2 -> v <= 5 -> con_ok print1 (mkCon (mkIv a t) (mkIv b u) v).
Proof. intros. split; [apply iv1_ok; auto|]. split; [apply iv1_ok; auto|auto]. Qed.
Lemma nums1_ok : forall l, Forall (number_ok print1) l.
Proof. intros l. apply Forall_forall. intros d _. apply number1_ok. Qed.
Lemma const1_ok : forall f t, (forall s, t = Some s -> text_ok s) -> const_ok print1 f t.
Proof. intros f t H. split; [intros; apply number1_ok|exact H]. Qed.
Lemma some_text : forall x s, ascii x = true -> Some x = Some s -> text_ok s.
Proof. intros x s A E. assert (s = x) as -> by congruence. apply text_lit. exact A. Qed.
Lemma none_text : forall s : list N, None = Some s -> text_ok s.
Proof. discriminate. Qed.
Lemma scale1_ok : scale_ok print1 scale1.
Proof.
  split; [apply con1_ok; lia|]. split; [constructor; [apply str_lit; reflexivity|constructor]|]. split; [apply const1_ok; intros s; apply some_text; reflexivity|].
  split; [apply nums1_ok|]. split; [apply nums1_ok|]. apply text_lit. reflexivity.
Qed.
Lemma scale2_ok : scale_ok print1 scale2.
Proof.
  split; [apply con1_ok; lia|]. split; [constructor|]. split; [apply const1_ok; intros s; apply some_text; reflexivity|].
  split; [apply nums1_ok|]. split; [apply nums1_ok|]. apply text_lit. reflexivity.
Qed.
Lemma meth1_ok : meth_ok print1 meth1.
Proof.
  split; [apply text_lit; reflexivity|]. split; [constructor|]. split; [constructor|]. split; [cbn [h_cat meth1]; lia|]. split; [apply line_a; reflexivity|].
  split; [constructor; [apply con1_ok; lia|constructor; [apply con1_ok; lia|constructor]]|].
  split; [constructor; [apply con1_ok; lia|constructor]|].
  split; [constructor; [exact scale1_ok|constructor; [exact scale2_ok|constructor]]|]. apply const1_ok. intros s. apply some_text. reflexivity.
Qed.
Lemma cc1_ok : cc_ok print1 cc1.
Proof. split; [exact w1_ok|exact meth1_ok]. Qed.
Example C88_witness : cc_ok print1 cc1 /\ any_order id_order /\ text_of id_order (to_cc print1 cc1) (stored (to_cc print1 cc1)) /\
  ~ only_category (cc_meth cc1) /\ option_map cc_meth (cc_again cc1) = Some meth1.
Proof. split; [exact cc1_ok|]. split; [exact any_id|]. split; [left; reflexivity|]. split; [intros E; discriminate E|exact cc1_case]. Qed.

(** The text of a small method: the tags and the texts of types and categories are those of the standard. *)
Definition small : cccom := mkCc wcom0 (mkMeth [] [] [] 1 (lit "km_h") [mkCon (lim 3 0) (lim 4 2) 1] [] [] (Some 7) None).
Definition lines (l : list (list N)) : list N := concat (map (fun s => s ++ [10]) l).
Example C88_text_witness : stored (to_cc print1 small) = lines
  [lit "<CCcomment xmlns:ho='http://www.asam.net/xml'>"; lit "  <TX/>"; lit "  <ho:COMPU-METHOD>";
   lit "    <ho:CATEGORY>LINEAR</ho:CATEGORY>"; lit "    <ho:UNIT-REF ID-REF='km_h'/>"; lit "    <ho:PHYS-CONSTRS>";
   lit "      <ho:SCALE-CONSTR VALIDITY='NOT-VALID'>"; lit "        <ho:LOWER-LIMIT INTERVAL-TYPE='OPEN'>3</ho:LOWER-LIMIT>";
   lit "        <ho:UPPER-LIMIT INTERVAL-TYPE='INFINITE'>4</ho:UPPER-LIMIT>"; lit "      </ho:SCALE-CONSTR>"; lit "    </ho:PHYS-CONSTRS>";
   lit "    <ho:COMPU-INTERNAL-TO-PHYS>"; lit "      <ho:COMPU-DEFAULT-VALUE>"; lit "        <ho:V>7</ho:V>";
   lit "      </ho:COMPU-DEFAULT-VALUE>"; lit "    </ho:COMPU-INTERNAL-TO-PHYS>"; lit "  </ho:COMPU-METHOD>"; lit "</CCcomment>"].
Proof. vm_compute. reflexivity. Qed.

(** ** What is not kept *)
Lemma plain_meth : forall m, meth_ok print1 m -> cc_ok print1 (mkCc wcom0 m).
Proof. intros m OK. split; [exact w0_ok|exact OK]. Qed.

Definition named : method := mkMeth (lit "speed") [text (lit "Speed of the car")] [text (lit "why")] 1 [] [] [] [] None None.
Lemma named_case : option_map (fun c => (h_short (cc_meth c), h_longs (cc_meth c), h_descs (cc_meth c), h_cat (cc_meth c))) (cc_again (mkCc wcom0 named)) = Some ([], [], [], 1).
Proof. vm_compute. reflexivity. Qed.
Lemma named_ok : meth_ok print1 named.
Proof.
  split; [apply text_lit; reflexivity|]. split; [constructor; [apply str_lit; reflexivity|constructor]|]. split; [constructor; [apply str_lit; reflexivity|constructor]|].
  split; [cbn [h_cat named]; lia|]. split; [apply line_a; reflexivity|]. split; [constructor|]. split; [constructor|]. split; [constructor|]. apply const1_ok. exact none_text.
Qed.
(** The short name, the long names and the descriptions of a computation method are written as tags of the
    method and looked for in another tag: they are lost. *)
Theorem C88_names_refuted : ~ forall c c', cc_ok print1 c -> cc_again c = Some c' -> h_short (cc_meth c') = h_short (cc_meth c).
Proof.
  intros H. pose proof named_case as K. destruct (cc_again (mkCc wcom0 named)) as [c'|] eqn:E; [|discriminate]. cbn [option_map] in K.
  assert (X : h_short (cc_meth c') = []) by congruence. rewrite (H _ c' (plain_meth _ named_ok) E) in X. discriminate.
Qed.
Print Assumptions C88_names_refuted.

Definition invalid : method := mkMeth [] [] [] 0 [] [] [] [mkSc (mkCon (lim 1 1) iv0 1) [] None None [] [] []] None None.
Lemma invalid_case : option_map (fun c => map (fun z => k_valid (z_con z)) (h_scales (cc_meth c))) (cc_again (mkCc wcom0 invalid)) = Some [0].
Proof. vm_compute. reflexivity. Qed.
Lemma invalid_ok : meth_ok print1 invalid.
Proof.
  split; [apply text_lit; reflexivity|]. split; [constructor|]. split; [constructor|]. split; [cbn [h_cat invalid]; lia|]. split; [apply line_a; reflexivity|].
  split; [constructor|]. split; [constructor|]. split; [|apply const1_ok; exact none_text]. constructor; [|constructor].
  split; [apply con1_ok; lia|]. split; [constructor|]. split; [apply const1_ok; exact none_text|]. split; [constructor|]. split; [constructor|]. apply text_lit. reflexivity.
Qed.
(** A scale has a validity that can be set, but it is neither written nor read: a scale that is not valid
    is read as valid. *)
Theorem C88_validity_refuted : ~ forall c c', cc_ok print1 c -> cc_again c = Some c' ->
  map (fun z => k_valid (z_con z)) (h_scales (cc_meth c')) = map (fun z => k_valid (z_con z)) (h_scales (cc_meth c)).
Proof.
  intros H. pose proof invalid_case as K. destruct (cc_again (mkCc wcom0 invalid)) as [c'|] eqn:E; [|discriminate]. cbn [option_map] in K.
  assert (X : map (fun z => k_valid (z_con z)) (h_scales (cc_meth c')) = [0]) by congruence. rewrite (H _ c' (plain_meth _ invalid_ok) E) in X. discriminate.
Qed.
Print Assumptions C88_validity_refuted.

Definition open_end : method := mkMeth [] [] [] 0 [] [mkCon (lim 1 1) (mkIv None 2) 0] [] [] None None.
Lemma open_case : option_map (fun c => map (fun k => i_type (k_upper k)) (h_phys (cc_meth c))) (cc_again (mkCc wcom0 open_end)) = Some [1].
Proof. vm_compute. reflexivity. Qed.
Lemma open_ok : meth_ok print1 open_end.
Proof.
  split; [apply text_lit; reflexivity|]. split; [constructor|]. split; [constructor|]. split; [cbn [h_cat open_end]; lia|]. split; [apply line_a; reflexivity|].
  split; [constructor; [apply con1_ok; lia|constructor]|]. split; [constructor|]. split; [constructor|]. apply const1_ok. exact none_text.
Qed.
(** A limit that is set to infinite, and so has no value, is not stored: it is read as closed. *)
Theorem C88_infinite_refuted : ~ forall c c', cc_ok print1 c -> cc_again c = Some c' ->
  map (fun k => i_type (k_upper k)) (h_phys (cc_meth c')) = map (fun k => i_type (k_upper k)) (h_phys (cc_meth c)).
Proof.
  intros H. pose proof open_case as K. destruct (cc_again (mkCc wcom0 open_end)) as [c'|] eqn:E; [|discriminate]. cbn [option_map] in K.
  assert (X : map (fun k => i_type (k_upper k)) (h_phys (cc_meth c')) = [1]) by congruence. rewrite (H _ c' (plain_meth _ open_ok) E) in X. discriminate.
Qed.
Print Assumptions C88_infinite_refuted.

Definition category_only : method := mkMeth [] [] [] 1 [] [] [] [] None None.
Lemma category_case : option_map (fun c => h_cat (cc_meth c)) (cc_again (mkCc wcom0 category_only)) = Some 0.
Proof. vm_compute. reflexivity. Qed.
Lemma category_ok : meth_ok print1 category_only.
Proof.
  split; [apply text_lit; reflexivity|]. split; [constructor|]. split; [constructor|]. split; [cbn [h_cat category_only]; lia|]. split; [apply line_a; reflexivity|].
  split; [constructor|]. split; [constructor|]. split; [constructor|]. apply const1_ok. exact none_text.
Qed.
(** A method of which only the category is set is not stored: it is read as identical. *)
Theorem C88_category_refuted : ~ forall c c', cc_ok print1 c -> cc_again c = Some c' -> h_cat (cc_meth c') = h_cat (cc_meth c).
Proof.
  intros H. pose proof category_case as K. destruct (cc_again (mkCc wcom0 category_only)) as [c'|] eqn:E; [|discriminate]. cbn [option_map] in K.
  assert (X : h_cat (cc_meth c') = 0) by congruence. rewrite (H _ c' (plain_meth _ category_ok) E) in X. discriminate.
Qed.
Print Assumptions C88_category_refuted.

(** The floating point numbers 1234567.0 and 1234568.0. *)
Definition d1 : N := 4698053236609777664.
Definition d2 : N := 4698053240904744960.
Definition default_of (d : N) : method := mkMeth [] [] [] 0 [] [] [] [] (Some d) None.
Lemma default_ok : forall print d, text_ok (print d) -> cc_ok print (mkCc wcom0 (default_of d)).
Proof.
  intros print d T. split; [exact w0_ok|].
  split; [apply text_lit; reflexivity|]. split; [constructor|]. split; [constructor|]. split; [cbn [cc_meth default_of h_cat]; lia|]. split; [apply line_a; reflexivity|].
  split; [constructor|]. split; [constructor|]. split; [constructor|]. split; [|exact none_text]. intros x E. cbn [cc_meth default_of h_float] in E.
  assert (x = d) as -> by congruence. exact T.
Qed.
(** Numbers are written with six digits, as the streams of the C++ library do if no precision is set: then
    1234567 and 1234568 have the same text, so that, however it is read, one of them is not kept. *)
Theorem C88_digits_refuted : forall print scan order, any_order order ->
  print d1 = lit "1.23457e+06" -> print d2 = lit "1.23457e+06" ->
  ~ forall c c' s, cc_ok print c -> text_of order (to_cc print c) s ->
      from_text (from_cc scan order) describe_cc s cccom0 = Some c' -> h_float (cc_meth c') = h_float (cc_meth c).
Proof.
  intros print scan order OR P1 P2 H.
  assert (G : forall d, print d = lit "1.23457e+06" -> Some (again print scan d) = Some d).
  { intros d P. assert (OK : cc_ok print (mkCc wcom0 (default_of d))) by (apply default_ok; rewrite P; apply text_lit; reflexivity).
    destruct (C88_method print scan order _ (write_string order (Some (to_cc print (mkCc wcom0 (default_of d))))) OR OK (or_introl eq_refl)) as (c' & E & (_ & (_ & K))).
    specialize (H _ _ _ OK (or_introl eq_refl) E). cbn [cc_meth default_of h_float] in H. rewrite <- H. symmetry.
    destruct K as (_ & _ & _ & _ & _ & _ & _ & _ & K & _); [intros X; discriminate X|]. exact K. }
  pose proof (G d1 P1) as G1. pose proof (G d2 P2) as G2. unfold again in G1, G2. rewrite P1 in G1. rewrite P2 in G2. rewrite G1 in G2. vm_compute in G2. discriminate G2.
Qed.
Print Assumptions C88_digits_refuted.
(** A conversion to text that meets the premises, and can be read back for all other numbers. *)
Definition print6 (d : N) : list N := if (d =? d1) || (d =? d2) then lit "1.23457e+06" else print1 d.
Example C88_digits_witness : print6 d1 = lit "1.23457e+06" /\ print6 d2 = lit "1.23457e+06" /\ print6 5 = lit "5" /\ d1 <> d2.
Proof. split; [reflexivity|]. split; [reflexivity|]. split; [vm_compute; reflexivity|]. vm_compute. discriminate. Qed.
