(** C89: the unit specification in the header's comment is read back as it was set. *)
From Coq Require Import String Permutation Sorting.Sorted Lia.
From Verif Require Import Base BlockModel BlockProofs TextSpec XmlModel XmlSpec XmlProofs XmlProofs2 XmlProofs3 XmlProofs4 XmlProofs5
  CommentModel CommentSpec CommentProofs CommentProofs2 CommentProofs3 CommentProofs4 CommentProofs5 CommentProofs6 CommentProps
  NoteModel NoteSpec NoteProofs NoteProofs2 NoteProofs3 NoteProofs4 NoteProps MethModel MethSpec MethProofs MethProofs2 MethProps
  UnitModel UnitSpec UnitProofs.
Local Open Scope N_scope.
Local Open Scope list_scope.

(** The comment of the header with any text, constants, properties and unit specification: the revisions with
    their company revisions and modifications, the dimensions with five of their exponents, the groups with
    names, category and references, and the units with factor, offset and dimension are read back. [print]
    and [scan] are whatever conversions between floating point numbers and texts are in use. *)
Theorem C89_units : forall print scan order c s, any_order order -> hdu_ok print c -> text_of order (to_hdu print c) s ->
  exists c', from_text (from_hdu scan order) describe_hdu s hducom0 = Some c' /\ kept_hdu print scan c c'.
Proof. intros print scan order c s OR. exact (hdu_back order OR print scan c s). Qed.
Print Assumptions C89_units.

(** Whatever calls were made to add revisions, dimensions, groups and units: of those with the same name the
    first is read back, nothing else is, and the revisions are in the order of the calls. *)
Theorem C89_calls : forall print scan order h ops s, any_order order -> hdc_ok h -> Forall (scall_ok print) ops ->
  text_of order (to_hdu print (mkHdu h (fold_left do_scall ops spec0))) s ->
  exists c', from_text (from_hdu scan order) describe_hdu s hducom0 = Some c' /\
    Forall2 kept_rev (revs_of ops) (sp_revs (hu_spec c')) /\
    (forall d, first_of dm_id (dims_of ops) d -> exists d', In d' (sp_dims (hu_spec c')) /\ kept_dim print scan d d') /\
    (forall d', In d' (sp_dims (hu_spec c')) -> exists d, first_of dm_id (dims_of ops) d /\ kept_dim print scan d d') /\
    (forall g, first_of gr_name (groups_of ops) g -> exists g', In g' (sp_groups (hu_spec c')) /\ kept_group g g') /\
    (forall g', In g' (sp_groups (hu_spec c')) -> exists g, first_of gr_name (groups_of ops) g /\ kept_group g g') /\
    (forall u, first_of un_id (units_of ops) u -> exists u', In u' (sp_units (hu_spec c')) /\ kept_hunit print scan u u') /\
    (forall u', In u' (sp_units (hu_spec c')) -> exists u, first_of un_id (units_of ops) u /\ kept_hunit print scan u u').
Proof.
  intros print scan order h ops s OR HO CO TX.
  destruct (C89_units print scan order (mkHdu h (fold_left do_scall ops spec0)) s OR) as (c' & E & K); [split; [exact HO|apply calls_ok; exact CO]|exact TX|].
  exists c'. split; [exact E|]. destruct K as (_ & (K1 & K2 & K3 & K4)). cbn [hu_spec] in *. rewrite calls_state in K1, K2, K3, K4.
  cbn [sp_revs sp_dims sp_groups sp_units] in K1, K2, K3, K4. split; [exact K1|].
  apply kept_in in K2, K3, K4. destruct K2 as (A1 & A2), K3 as (B1 & B2), K4 as (D1 & D2).
  pose proof (proj1 (proj2 (added_all dm_id (dims_of ops)))) as FD. pose proof (proj1 (proj2 (added_all gr_name (groups_of ops)))) as FG.
  pose proof (proj1 (proj2 (added_all un_id (units_of ops)))) as FU.
  split; [intros d F; apply A1, FD, F|]. split; [intros d I; destruct (A2 d I) as (x & J & K); apply FD in J; eauto|].
  split; [intros d F; apply B1, FG, F|]. split; [intros d I; destruct (B2 d I) as (x & J & K); apply FG in J; eauto|].
  split; [intros d F; apply D1, FU, F|]. intros d I; destruct (D2 d I) as (x & J & K); apply FU in J; eauto.
Qed.
Print Assumptions C89_calls.

(** If numbers are read as they were printed, then so are the factors of the units, and the offsets and
    exponents up to the sign of zero. *)
Definition same_number (a b : N) : Prop := b = a \/ null a = true /\ b = 0.
Theorem C89_exact : forall print scan order c s, any_order order -> hdu_ok print c -> text_of order (to_hdu print c) s ->
  (forall d, scan (trim (print d)) = d) ->
  exists c', from_text (from_hdu scan order) describe_hdu s hducom0 = Some c' /\
    Forall2 (fun u u' => un_id u' = un_id u /\ un_factor u' = un_factor u /\ same_number (un_offset u) (un_offset u'))
      (sp_units (hu_spec c)) (sp_units (hu_spec c')) /\
    Forall2 (fun d d' => dm_id d' = dm_id d /\ same_number (dm_len d) (dm_len d') /\ same_number (dm_mass d) (dm_mass d') /\
                         same_number (dm_time d) (dm_time d') /\ same_number (dm_cur d) (dm_cur d') /\ same_number (dm_temp d) (dm_temp d'))
      (sp_dims (hu_spec c)) (sp_dims (hu_spec c')).
Proof.
  intros print scan order c s OR OK TX EX. destruct (C89_units print scan order c s OR OK TX) as (c' & E & (_ & (_ & KD & _ & KU))). exists c'. split; [exact E|].
  assert (EA : forall d, again print scan d = d) by exact EX.
  assert (EE : forall d, same_number d (kept_exp print scan d)).
  { intros d. unfold same_number, kept_exp. destruct (null d); [right; auto|left; apply EA]. }
  split.
  - eapply kept_impl; [|exact KU]. cbv beta. intros u u' ->. cbn [un_id un_factor un_offset]. rewrite !EA. split; [reflexivity|].
    unfold plain, same_number. destruct (N.eqb_spec (un_factor u) 0x3FF0000000000000) as [->|NE]; [|cbn [andb]; auto]. cbn [andb].
    destruct (null (un_offset u)); auto.
  - eapply kept_impl; [|exact KD]. cbv beta. intros d d' ->. cbn [dm_id dm_len dm_mass dm_time dm_cur dm_temp]. auto 10.
Qed.
Print Assumptions C89_exact.

(** A comment with a unit specification declares the prefix of its tags; one without has no attributes. *)
Theorem C89_prefix : forall print c, hdc_ok (hu_hd c) ->
  (hu_spec c <> spec0 -> x_attrs (to_hdu print c) = [(lit "xmlns:ho", lit "http://www.asam.net/xml")]) /\
  (hu_spec c = spec0 -> x_attrs (to_hdu print c) = []).
Proof.
  intros print c OK. rewrite to_hdu_shape by exact OK. cbn [x_attrs]. unfold hdu_attrs. split.
  - intros NO. destruct (sp_active (hu_spec c)) eqn:A; [reflexivity|]. exfalso. apply NO. apply inactive_spec. exact A.
  - intros OC. apply inactive_spec in OC. rewrite OC. reflexivity.
Qed.
Print Assumptions C89_prefix.

(** ** A case with every part *)
Definition rev1 : revis := mkRv (lit "me") (lit "1.0") (lit "draft") (lit "2024-01-02") [mkCo (lit "ACME") [] (lit "done"); mkCo [] (lit "B") []]
  [mkMo (lit "all new") (lit "none"); mkMo [] []].
Definition rev2 : revis := mkRv [] (lit "2.0") [] [] [] [].
Definition noname : details := det0.
Definition speed : dim := mkDim (lit "speed") noname 5 0 7 0 0 0 0.
Definition force : dim := mkDim (lit "force") noname 1 2 3 0 9 0 0.
Definition si : group := mkGr (mkDet (lit "SI") [text (lit "SI units")] [text (lit "of the world")]) 0 [lit "kmh"; lit "ms"].
Definition eq1 : group := mkGr (mkDet (lit "EQ") [] []) 1 [].
Definition kmh : hunit := mkUn (lit "kmh") noname (lit "km/h") 36 0 (lit "speed").
Definition ms : hunit := mkUn (lit "ms") noname (lit "m/s") one 0 (lit "speed").
Definition ms_too : hunit := mkUn (lit "ms") noname (lit "other") one 5 [].
Definition calls1 : list scall := [CUnit ms; CRev rev1; CDim speed; CUnit ms_too; CGroup si; CUnit kmh; CDim force; CGroup eq1; CRev rev2].
Definition spec1 : uspec := mkSp [rev1; rev2] [force; speed] [eq1; si] [kmh; ms].
Definition hd1 : hdc := mkHdc (mkC (text (lit "drive")) mlist0) (text (lit "GPS")) [(text (lit "PI"), lit "3")].
Definition hdu1 : hducom := mkHdu hd1 spec1.
Definition hdu_again (c : hducom) : option hducom := from_text (from_hdu from1 id_order) describe_hdu (stored (to_hdu print1 c)) hducom0.
Lemma hdu1_calls : fold_left do_scall calls1 spec0 = spec1.
Proof. vm_compute. reflexivity. Qed.
Lemma hdu1_case : option_map (fun c => (hu_spec c, t_text (hd_time (hu_hd c)))) (hdu_again hdu1) = Some (spec1, lit "GPS").
Proof. vm_compute. reflexivity. Qed.
Lemma no_det_ok : det_ok det0.
Proof. split; [apply text_lit; reflexivity|]. split; constructor. Qed.
Lemma rev1_ok : rev_ok rev1.
Proof.
  split; [apply line_a; reflexivity|]. split; [apply text_lit; reflexivity|]. split; [apply text_lit; reflexivity|]. split; [apply text_lit; reflexivity|].
  split; repeat constructor; try (apply text_lit; reflexivity).
Qed.
Lemma rev2_ok : rev_ok rev2.
Proof.
  split; [apply line_a; reflexivity|]. split; [apply text_lit; reflexivity|]. split; [apply text_lit; reflexivity|]. split; [apply text_lit; reflexivity|].
  split; constructor.
Qed.
Lemma dim1_ok : forall i e a b c d f g h, ascii i = true -> trim i = i -> det_ok e -> dim_ok print1 (mkDim i e a b c d f g h).
Proof.
  intros. split; [apply line_a; auto|]. split; [assumption|]. split; [assumption|]. repeat (split; [apply number1_ok|]). apply number1_ok.
Qed.
Lemma unit1_ok : forall i e n f o d, ascii i = true -> trim i = i -> det_ok e -> ascii n = true -> ascii d = true -> hunit_ok print1 (mkUn i e n f o d).
Proof.
  intros. split; [apply line_a; auto|]. split; [assumption|]. split; [assumption|]. split; [apply text_lit; assumption|].
  split; [apply number1_ok|]. split; [apply number1_ok|]. apply text_lit. assumption.
Qed.
Lemma si_group_ok : group_ok si.
Proof.
  split; [split; [apply text_lit; reflexivity|]; split; (constructor; [apply str_lit; reflexivity|constructor])|]. split; [vm_compute; reflexivity|].
  split; [cbn [gr_cat si]; lia|]. split; [constructor; [apply line_a; reflexivity|constructor; [apply line_a; reflexivity|constructor]]|].
  split; [constructor; [vm_compute; reflexivity|constructor; [vm_compute; reflexivity|constructor]]|].
  constructor; [constructor; constructor|]. constructor; [|constructor]. apply sless_lt. reflexivity.
Qed.
Lemma eq_group_ok : group_ok eq1.
Proof.
  split; [split; [apply text_lit; reflexivity|]; split; constructor|]. split; [vm_compute; reflexivity|]. split; [cbn [gr_cat eq1]; lia|].
  split; [constructor|]. split; constructor.
Qed.
Lemma calls1_ok : Forall (scall_ok print1) calls1.
Proof.
  constructor; [apply unit1_ok; try reflexivity; apply no_det_ok|]. constructor; [exact rev1_ok|]. constructor; [apply dim1_ok; try reflexivity; apply no_det_ok|].
  constructor; [apply unit1_ok; try reflexivity; apply no_det_ok|]. constructor; [exact si_group_ok|]. constructor; [apply unit1_ok; try reflexivity; apply no_det_ok|].
  constructor; [apply dim1_ok; try reflexivity; apply no_det_ok|]. constructor; [exact eq_group_ok|]. constructor; [exact rev2_ok|constructor].
Qed.
Lemma hd1_ok : hdc_ok hd1.
Proof.
  split; [split; [apply str_lit; reflexivity|split; [exact list0_ok|auto]]|]. split; [apply str_lit; reflexivity|]. split; [|split].
  - constructor; [|constructor]. split; [apply std0_ok|]. split; [apply line_a; reflexivity|]. split; [vm_compute; reflexivity|apply text_lit; reflexivity].
  - constructor; constructor.
  - intros [X|[]]. discriminate X.
Qed.
Lemma hdu1_ok : hdu_ok print1 hdu1.
Proof. split; [exact hd1_ok|]. cbn [hu_spec hdu1]. rewrite <- hdu1_calls. apply calls_ok. exact calls1_ok. Qed.
Example C89_witness : hdu_ok print1 hdu1 /\ Forall (scall_ok print1) calls1 /\ any_order id_order /\
  text_of id_order (to_hdu print1 hdu1) (stored (to_hdu print1 hdu1)) /\
  option_map (fun c => (hu_spec c, t_text (hd_time (hu_hd c)))) (hdu_again hdu1) = Some (spec1, lit "GPS").
Proof. split; [exact hdu1_ok|]. split; [exact calls1_ok|]. split; [exact any_id|]. split; [left; reflexivity|exact hdu1_case]. Qed.

(** The text of a small specification. *)
Definition small_spec : hducom := mkHdu hdc0 (mkSp [rev2] [mkDim (lit "speed") noname 5 0 7 0 0 8 0] [si] [kmh]).
Example C89_text_witness : stored (to_hdu print1 small_spec) = lines
  [lit "<HDcomment xmlns:ho='http://www.asam.net/xml'>"; lit "  <TX/>"; lit "  <ho:UNIT-SPEC>"; lit "    <ho:ADMIN-DATA>"; lit "      <ho:DOC-REVISIONS>";
   lit "        <ho:DOC-REVISION>"; lit "          <ho:REVISION-LABEL>2.0</ho:REVISION-LABEL>"; lit "        </ho:DOC-REVISION>"; lit "      </ho:DOC-REVISIONS>";
   lit "    </ho:ADMIN-DATA>"; lit "    <ho:PHYSICAL-DIMENSIONS>"; lit "      <ho:PHYSICAL-DIMENSION ID='speed'>"; lit "        <LENGTH-EXP>5</LENGTH-EXP>";
   lit "        <TIME-EXP>7</TIME-EXP>"; lit "        <MOLAR-AMOUNT-EXP>8</MOLAR-AMOUNT-EXP>"; lit "      </ho:PHYSICAL-DIMENSION>"; lit "    </ho:PHYSICAL-DIMENSIONS>";
   lit "    <ho:UNITGROUPS>"; lit "      <ho:UNITGROUP>"; lit "        <ho:SHORT-NAME>SI</ho:SHORT-NAME>"; lit "        <ho:LONG-NAME>SI units</ho:LONG-NAME>";
   lit "        <ho:DESC>of the world</ho:DESC>"; lit "        <ho:CATEGORY>COUNTRY</ho:CATEGORY>"; lit "        <ho:UNIT-REFS>";
   lit "          <ho:UNIT-REF ID-REF='kmh'/>"; lit "          <ho:UNIT-REF ID-REF='ms'/>"; lit "        </ho:UNIT-REFS>"; lit "      </ho:UNITGROUP>";
   lit "    </ho:UNITGROUPS>"; lit "    <ho:UNITS>"; lit "      <ho:UNIT ID='kmh'>"; lit "        <ho:DISPLAY-NAME>km/h</ho:DISPLAY-NAME>";
   lit "        <ho:FACTOR-SI-TO-UNIT>36</ho:FACTOR-SI-TO-UNIT>"; lit "        <ho:OFFSET-SI-TO-UNIT>0</ho:OFFSET-SI-TO-UNIT>";
   lit "        <ho:PHYSICAL-DIMENSION-REF>speed</ho:PHYSICAL-DIMENSION-REF>"; lit "      </ho:UNIT>"; lit "    </ho:UNITS>"; lit "  </ho:UNIT-SPEC>"; lit "</HDcomment>"].
Proof. vm_compute. reflexivity. Qed.

(** ** What is not kept *)
Lemma hd0_ok : hdc_ok hdc0.
Proof.
  split; [split; [apply str_lit; reflexivity|split; [exact list0_ok|auto]]|]. split; [apply str_lit; reflexivity|]. split; [constructor|]. split; [constructor|intros []].
Qed.
Lemma spec_plain : forall ops, Forall (scall_ok print1) ops -> hdu_ok print1 (mkHdu hdc0 (fold_left do_scall ops spec0)).
Proof. intros ops F. split; [exact hd0_ok|]. apply calls_ok. exact F. Qed.

Definition molar : list scall := [CDim (mkDim (lit "conc") noname 5 0 0 0 0 1 1)].
Lemma molar_case : option_map (fun c => map (fun d => (dm_len d, dm_mol d, dm_lum d)) (sp_dims (hu_spec c))) (hdu_again (mkHdu hdc0 (fold_left do_scall molar spec0))) = Some [(5, 0, 0)].
Proof. vm_compute. reflexivity. Qed.
Lemma molar_ok : Forall (scall_ok print1) molar.
Proof. constructor; [|constructor]. apply dim1_ok; try reflexivity. apply no_det_ok. Qed.
(** The exponent of the amount of substance of a physical dimension is written under one tag and looked for
    under another: it is read as 0. *)
Theorem C89_molar_refuted : ~ forall c c', hdu_ok print1 c -> hdu_again c = Some c' ->
  map dm_mol (sp_dims (hu_spec c')) = map dm_mol (sp_dims (hu_spec c)).
Proof.
  intros H. pose proof molar_case as K. destruct (hdu_again (mkHdu hdc0 (fold_left do_scall molar spec0))) as [c'|] eqn:E; [|discriminate]. cbn [option_map] in K.
  assert (X : map (fun d => (dm_len d, dm_mol d, dm_lum d)) (sp_dims (hu_spec c')) = [(5, 0, 0)]) by congruence.
  pose proof (H _ c' (spec_plain _ molar_ok) E) as Y. apply (f_equal (map (fun t => snd (fst t)))) in X. rewrite map_map in X. cbn [fst snd map] in X.
  pose proof (eq_trans (eq_sym X) Y) as Z. vm_compute in Z. discriminate Z.
Qed.
Print Assumptions C89_molar_refuted.
(** The exponent of the luminous intensity is lost in the same way. *)
Theorem C89_luminous_refuted : ~ forall c c', hdu_ok print1 c -> hdu_again c = Some c' ->
  map dm_lum (sp_dims (hu_spec c')) = map dm_lum (sp_dims (hu_spec c)).
Proof.
  intros H. pose proof molar_case as K. destruct (hdu_again (mkHdu hdc0 (fold_left do_scall molar spec0))) as [c'|] eqn:E; [|discriminate]. cbn [option_map] in K.
  assert (X : map (fun d => (dm_len d, dm_mol d, dm_lum d)) (sp_dims (hu_spec c')) = [(5, 0, 0)]) by congruence.
  pose proof (H _ c' (spec_plain _ molar_ok) E) as Y. apply (f_equal (map snd)) in X. rewrite map_map in X. cbn [snd map] in X.
  pose proof (eq_trans (eq_sym X) Y) as Z. vm_compute in Z. discriminate Z.
Qed.
Print Assumptions C89_luminous_refuted.

(** Naming a unit sets its name, keeps a short name that it has, gives it the name as short name if it has
    none, and changes nothing else. *)
Theorem C89_identity : forall s u, let v := set_unit_id s u in
  un_id v = s /\ dt_longs (un_det v) = dt_longs (un_det u) /\ dt_descs (un_det v) = dt_descs (un_det u) /\
  (dt_short (un_det u) <> [] -> dt_short (un_det v) = dt_short (un_det u)) /\
  (dt_short (un_det u) = [] -> dt_short (un_det v) = s) /\
  un_display v = un_display u /\ un_factor v = un_factor u /\ un_offset v = un_offset u /\ un_dim v = un_dim u.
Proof.
  intros s u. unfold set_unit_id. cbn. destruct (dt_short (un_det u)) eqn:E; cbn; rewrite ?E; repeat split; congruence.
Qed.
Print Assumptions C89_identity.

Definition named_unit : list scall := [CUnit (set_unit_id (lit "kmh") unit0); CDim (mkDim (lit "speed") (mkDet (lit "v") [] []) 0 0 0 0 0 0 0)].
Lemma named_unit_case : option_map (fun c => (map (fun u => (un_id u, dt_short (un_det u))) (sp_units (hu_spec c)), map (fun d => (dm_id d, dt_short (dm_det d))) (sp_dims (hu_spec c))))
  (hdu_again (mkHdu hdc0 (fold_left do_scall named_unit spec0))) = Some ([(lit "kmh", [])], [(lit "speed", [])]).
Proof. vm_compute. reflexivity. Qed.
Lemma named_unit_ok : Forall (scall_ok print1) named_unit.
Proof.
  constructor; [apply unit1_ok; try reflexivity; split; [apply text_lit; reflexivity|split; constructor]|]. constructor; [|constructor].
  apply dim1_ok; try reflexivity; split; [apply text_lit; reflexivity|split; constructor].
Qed.
(** The short name of a unit, which is set together with its identity, is written and not read. *)
Theorem C89_unit_name_refuted : ~ forall c c', hdu_ok print1 c -> hdu_again c = Some c' ->
  map (fun u => dt_short (un_det u)) (sp_units (hu_spec c')) = map (fun u => dt_short (un_det u)) (sp_units (hu_spec c)).
Proof.
  intros H. pose proof named_unit_case as K. destruct (hdu_again (mkHdu hdc0 (fold_left do_scall named_unit spec0))) as [c'|] eqn:E; [|discriminate]. cbn [option_map] in K.
  assert (X : map (fun u => (un_id u, dt_short (un_det u))) (sp_units (hu_spec c')) = [(lit "kmh", [])]) by congruence.
  pose proof (H _ c' (spec_plain _ named_unit_ok) E) as Y. apply (f_equal (map snd)) in X. rewrite map_map in X. cbn [snd map] in X.
  pose proof (eq_trans (eq_sym X) Y) as Z. vm_compute in Z. discriminate Z.
Qed.
Print Assumptions C89_unit_name_refuted.
(** So is the short name of a physical dimension. *)
Theorem C89_dimension_name_refuted : ~ forall c c', hdu_ok print1 c -> hdu_again c = Some c' ->
  map (fun d => dt_short (dm_det d)) (sp_dims (hu_spec c')) = map (fun d => dt_short (dm_det d)) (sp_dims (hu_spec c)).
Proof.
  intros H. pose proof named_unit_case as K. destruct (hdu_again (mkHdu hdc0 (fold_left do_scall named_unit spec0))) as [c'|] eqn:E; [|discriminate]. cbn [option_map] in K.
  assert (X : map (fun d => (dm_id d, dt_short (dm_det d))) (sp_dims (hu_spec c')) = [(lit "speed", [])]) by congruence.
  pose proof (H _ c' (spec_plain _ named_unit_ok) E) as Y. apply (f_equal (map snd)) in X. rewrite map_map in X. cbn [snd map] in X.
  pose proof (eq_trans (eq_sym X) Y) as Z. vm_compute in Z. discriminate Z.
Qed.
Print Assumptions C89_dimension_name_refuted.

Definition spaced : list scall := [CUnit (mkUn (lit "ms ") det0 (lit "a") one 0 []); CUnit (mkUn (lit "ms") det0 (lit "b") one 0 [])].
Lemma spaced_case : (length (sp_units (fold_left do_scall spaced spec0)),
  option_map (fun c => map (fun u => (un_id u, un_display u)) (sp_units (hu_spec c))) (hdu_again (mkHdu hdc0 (fold_left do_scall spaced spec0)))) =
  (2%nat, Some [(lit "ms", lit "b")]).
Proof. vm_compute. reflexivity. Qed.
(** Identities that differ in white space at their ends are different names when they are added, and the same
    name when they are read: one of the two units is lost. *)
Theorem C89_spaces_refuted : ~ forall ops c', Forall (fun c => match c with CUnit u => ascii (un_id u) = true /\ ascii (un_display u) = true | _ => False end) ops ->
  hdu_again (mkHdu hdc0 (fold_left do_scall ops spec0)) = Some c' ->
  length (sp_units (hu_spec c')) = length (sp_units (fold_left do_scall ops spec0)).
Proof.
  intros H. pose proof spaced_case as K. destruct (hdu_again (mkHdu hdc0 (fold_left do_scall spaced spec0))) as [c'|] eqn:E; [|discriminate]. cbn [option_map] in K.
  assert (L : length (sp_units (fold_left do_scall spaced spec0)) = 2%nat) by congruence.
  assert (X : map (fun u => (un_id u, un_display u)) (sp_units (hu_spec c')) = [(lit "ms", lit "b")]) by congruence.
  assert (Y : length (sp_units (hu_spec c')) = length (sp_units (fold_left do_scall spaced spec0))).
  { apply H; [|exact E]. constructor; [split; reflexivity|]. constructor; [split; reflexivity|constructor]. }
  rewrite L in Y. apply (f_equal (@length _)) in X. rewrite map_length, Y in X. discriminate X.
Qed.
Print Assumptions C89_spaces_refuted.
