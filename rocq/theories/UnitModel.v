(** Model of the unit specification in the header's comment (HdComment::UnitSpecification): revisions of the
    document, physical dimensions, groups of units and units. mdflib/src/hdcomment.cpp,
    hounitspecification.cpp, hoadmindata.cpp, horevision.cpp, hophysicaldimension.cpp, hounitgroup.cpp,
    hounit.cpp, honamedetails.cpp, hoenumerates.cpp.

    The other parts of the header's comment are those of CommentModel.v. Floating point numbers are their 64
    bits; [print] and [scan] are their conversions to and from texts (MethModel.v). A std::map from the names
    of the members to the members is the list of the members in the order of their names; a change of the
    name of a member that is in the map already is not modelled. *)
From Coq Require Import String.
From Verif Require Import Base BlockModel XmlModel CommentModel NoteModel MethModel.
Local Open Scope N_scope.
Local Open Scope list_scope.

(** ** Contents *)

(** honamedetails.h:36-38. *)
Record details : Type := mkDet { dt_short : list N; dt_longs : list mstr; dt_descs : list mstr }.
Definition det0 : details := mkDet [] [] [].

(** horevision.h:17-26 HoCompanyRevision, HoModification, and horevision.h:61-67 HoRevision. *)
Record corev : Type := mkCo { co_ref : list N; co_label : list N; co_state : list N }.
Record modif : Type := mkMo { mo_change : list N; mo_reason : list N }.
Record revis : Type := mkRv {
  rv_member : list N; rv_label : list N; rv_state : list N; rv_date : list N; rv_cos : list corev; rv_mods : list modif
}.
Definition rev0 : revis := mkRv [] [] [] [] [] [].

(** hophysicaldimension.h: the name to refer to it, and the exponents of length, mass, time, current,
    temperature, amount of substance and luminous intensity. *)
Record dim : Type := mkDim {
  dm_id : list N; dm_det : details;
  dm_len : N; dm_mass : N; dm_time : N; dm_cur : N; dm_temp : N; dm_mol : N; dm_lum : N
}.
Definition dim0 : dim := mkDim [] det0 0 0 0 0 0 0 0.

(** hounitgroup.h:35-36: 0 is the category of a country. *)
Record group : Type := mkGr { gr_det : details; gr_cat : N; gr_refs : list (list N) }.
Definition gr_name (g : group) : list N := dt_short (gr_det g).

(** hounit.h:41-45; the bits of 1.0 and 0.0. *)
Definition one : N := 4607182418800017408.
Record hunit : Type := mkUn {
  un_id : list N; un_det : details; un_display : list N; un_factor : N; un_offset : N; un_dim : list N
}.
Definition unit0 : hunit := mkUn [] det0 [] one 0 [].

(** hounitspecification.h, hoadmindata.h. *)
Record uspec : Type := mkSp { sp_revs : list revis; sp_dims : list dim; sp_groups : list group; sp_units : list hunit }.
Definition spec0 : uspec := mkSp [] [] [] [].

(** hounitspecification.cpp:27-41, 51-65, 75-88: nothing is added without a name, or twice. *)
Definition add_named {A} (name : A -> list N) (x : A) (l : list A) : list A :=
  match name x with [] => l | _ => emplace name x l end.
(** hounit.cpp:14-19 Identity: the name is the short name too, if there is none. *)
Definition set_unit_id (s : list N) (u : hunit) : hunit :=
  mkUn s (match dt_short (un_det u) with [] => mkDet s (dt_longs (un_det u)) (dt_descs (un_det u)) | _ => un_det u end)
    (un_display u) (un_factor u) (un_offset u) (un_dim u).

(** The calls of AdminData().AddRevision (hoadmindata.cpp:17-19), AddPhysicalDimension, AddUnitGroup, AddUnit. *)
Inductive scall : Type := CRev (r : revis) | CDim (d : dim) | CGroup (g : group) | CUnit (u : hunit).
Definition do_scall (p : uspec) (c : scall) : uspec :=
  let '(mkSp rs ds gs us) := p in
  match c with
  | CRev r => mkSp (rs ++ [r]) ds gs us
  | CDim d => mkSp rs (add_named dm_id d ds) gs us
  | CGroup g => mkSp rs ds (add_named gr_name g gs) us
  | CUnit u => mkSp rs ds gs (add_named un_id u us)
  end.

(** hounitspecification.cpp:14-17, hoadmindata.cpp:13-15 IsActive. *)
Definition sp_active (p : uspec) : bool :=
  negb (none (sp_revs p)) || negb (none (sp_dims p)) || negb (none (sp_groups p)) || negb (none (sp_units p)).

(** ** Writing *)

Section Doubles.
Context (print : N -> list N) (scan : list N -> N).

(** honamedetails.cpp:50-63 ToXml. *)
Definition to_det (d : details) : list xnode :=
  to_text (lit "ho:SHORT-NAME") (dt_short d) ++ concat (map (to_str (lit "ho:LONG-NAME")) (dt_longs d)) ++
  concat (map (to_str (lit "ho:DESC")) (dt_descs d)).
(** A tag that refers to something by an attribute. *)
Definition ref_node (tag v : list N) : xnode := set_attr (lit "ID-REF") v (new_node tag).
(** A tag with one tag for each member, if there is a member. *)
Definition to_all {A} (tag : list N) (f : A -> xnode) (l : list A) : list xnode :=
  match l with [] => [] | _ => [set_kids (map f l) (new_node tag)] end.

(** horevision.cpp:99-111, 116-122. *)
Definition to_co (c : corev) : xnode :=
  set_kids (to_text (lit "ho:COMPANY-DATA-REF") (co_ref c) ++ to_text (lit "ho:REVISION-LABEL") (co_label c) ++
            to_text (lit "ho:STATE") (co_state c)) (new_node (lit "ho:COMPANY-REVISION-INFO")).
Definition to_mo (m : modif) : xnode :=
  set_kids (leaf (lit "ho:CHANGE") (mo_change m) :: to_text (lit "ho:REASON") (mo_reason m)) (new_node (lit "ho:MODIFICATION")).
(** horevision.cpp:80-124 ToXml. *)
Definition to_rev (r : revis) : xnode :=
  set_kids (match rv_member r with [] => [] | m => [ref_node (lit "ho:TEAM-MEMBER-REF") m] end ++
            to_text (lit "ho:REVISION-LABEL") (rv_label r) ++ to_text (lit "ho:STATE") (rv_state r) ++
            to_text (lit "ho:DATE") (rv_date r) ++ to_all (lit "ho:COMPANY-REVISION-INFOS") to_co (rv_cos r) ++
            to_all (lit "ho:MODIFICATIONS") to_mo (rv_mods r)) (new_node (lit "ho:DOC-REVISION")).
(** hoadmindata.cpp:28-37 ToXml. *)
Definition to_admin (l : list revis) : list xnode :=
  match l with [] => [] | _ => [set_kids [set_kids (map to_rev l) (new_node (lit "ho:DOC-REVISIONS"))] (new_node (lit "ho:ADMIN-DATA"))] end.

(** The comparison with 0.0; the other bits are those of -0.0. *)
Definition is_zero (d : N) : bool := (d =? 0) || (d =? 9223372036854775808).
Definition to_exp (tag : list N) (d : N) : list xnode := if is_zero d then [] else [num_leaf print tag d].
(** hophysicaldimension.cpp:76-104 ToXml. *)
Definition to_dim (d : dim) : xnode :=
  set_kids (to_det (dm_det d) ++ to_exp (lit "LENGTH-EXP") (dm_len d) ++ to_exp (lit "MASS-EXP") (dm_mass d) ++
            to_exp (lit "TIME-EXP") (dm_time d) ++ to_exp (lit "CURRENT-EXP") (dm_cur d) ++
            to_exp (lit "TEMPERATURE-EXP") (dm_temp d) ++ to_exp (lit "MOLAR-AMOUNT-EXP") (dm_mol d) ++
            to_exp (lit "LUMINOUS-INTENSITY-EXP") (dm_lum d))
    (set_attr (lit "ID") (dm_id d) (new_node (lit "ho:PHYSICAL-DIMENSION"))).

(** hoenumerates.cpp:53-55. *)
Definition ucat_texts : list (list N) := [lit "COUNTRY"; lit "EQUIV-UNITS"].
(** hounitgroup.cpp:33-49 ToXml. *)
Definition to_group (g : group) : xnode :=
  set_kids (to_det (gr_det g) ++ [leaf (lit "ho:CATEGORY") (enum_text ucat_texts (gr_cat g))] ++
            to_all (lit "ho:UNIT-REFS") (ref_node (lit "ho:UNIT-REF")) (gr_refs g)) (new_node (lit "ho:UNITGROUP")).

(** hounit.cpp:55-74 ToXml. *)
Definition to_unit (u : hunit) : xnode :=
  set_kids (to_det (un_det u) ++ to_text (lit "ho:DISPLAY-NAME") (un_display u) ++
            (if negb (un_factor u =? one) || negb (is_zero (un_offset u)) then
               [num_leaf print (lit "ho:FACTOR-SI-TO-UNIT") (un_factor u); num_leaf print (lit "ho:OFFSET-SI-TO-UNIT") (un_offset u)]
             else []) ++
            to_text (lit "ho:PHYSICAL-DIMENSION-REF") (un_dim u))
    (set_attr (lit "ID") (un_id u) (new_node (lit "ho:UNIT"))).

(** hounitspecification.cpp:98-130 ToXml. *)
Definition to_spec (p : uspec) : list xnode :=
  if sp_active p then
    [set_kids (to_admin (sp_revs p) ++ to_all (lit "ho:PHYSICAL-DIMENSIONS") to_dim (sp_dims p) ++
               to_all (lit "ho:UNITGROUPS") to_group (sp_groups p) ++ to_all (lit "ho:UNITS") to_unit (sp_units p))
       (new_node (lit "ho:UNIT-SPEC"))]
  else [].

(** ** Reading *)

Section Order.
Context (order : list (list N * list N) -> list (list N * list N)).

(** honamedetails.cpp:65-85 FromXml. *)
Definition det_kid (d : details) (k : xnode) : details :=
  if is_tag (lit "SHORT-NAME") k then mkDet (value_text k) (dt_longs d) (dt_descs d)
  else if is_tag (lit "LONG-NAME") k then mkDet (dt_short d) (dt_longs d ++ [from_str order k mstr0]) (dt_descs d)
  else if is_tag (lit "DESC") k then mkDet (dt_short d) (dt_longs d) (dt_descs d ++ [from_str order k mstr0])
  else d.
Definition from_det (n : xnode) (d : details) : details := fold_left det_kid (x_kids n) d.
(** The attribute ID-REF, or the value of the tag without one. *)
Definition ref_of (k : xnode) : list N := match attr_text order (lit "ID-REF") k with [] => value_text k | v => v end.
(** ixmlnode.h:124-128 Property. *)
Definition prop (tag : list N) (n : xnode) : list N := match get_node tag n with Some k => value_text k | None => [] end.

(** horevision.cpp:150-163, 172-177. *)
Definition from_co (n : xnode) : corev :=
  mkCo (match get_node (lit "COMPANY-DATA-REF") n with Some k => ref_of k | None => [] end)
    (prop (lit "REVISION-LABEL") n) (prop (lit "STATE") n).
Definition from_mo (n : xnode) : modif := mkMo (prop (lit "CHANGE") n) (prop (lit "REASON") n).
(** horevision.cpp:126-182 FromXml. *)
Definition rev_kid (r : revis) (k : xnode) : revis :=
  let '(mkRv m l s d cs ms) := r in
  if is_tag (lit "TEAM-MEMBER-REF") k then mkRv (ref_of k) l s d cs ms
  else if is_tag (lit "REVISION-LABEL") k then mkRv m (value_text k) s d cs ms
  else if is_tag (lit "STATE") k then mkRv m l (value_text k) d cs ms
  else if is_tag (lit "DATE") k then mkRv m l s (value_text k) cs ms
  else if is_tag (lit "COMPANY-REVISION-INFOS") k then
    mkRv m l s d (cs ++ map from_co (filter (is_tag (lit "COMPANY-REVISION-INFO")) (x_kids k))) ms
  else if is_tag (lit "MODIFICATIONS") k then
    mkRv m l s d cs (ms ++ map from_mo (filter (is_tag (lit "MODIFICATION")) (x_kids k)))
  else r.
Definition from_rev (n : xnode) : revis := fold_left rev_kid (x_kids n) rev0.
(** hoadmindata.cpp:39-55 FromXml. *)
Definition admin_kid (l : list revis) (k : xnode) : list revis :=
  if is_tag (lit "DOC-REVISIONS") k then l ++ map from_rev (filter (is_tag (lit "DOC-REVISION")) (x_kids k)) else l.

(** hophysicaldimension.cpp:106-132 FromXml. *)
Definition dim_kid (d : dim) (k : xnode) : dim :=
  let '(mkDim i e l m t c h o u) := d in
  if is_tag (lit "NAME-DETAILS") k then mkDim i (from_det k e) l m t c h o u
  else if is_tag (lit "LENGTH-EXP") k then mkDim i e (value_num scan k) m t c h o u
  else if is_tag (lit "MASS-EXP") k then mkDim i e l (value_num scan k) t c h o u
  else if is_tag (lit "TIME-EXP") k then mkDim i e l m (value_num scan k) c h o u
  else if is_tag (lit "CURRENT-EXP") k then mkDim i e l m t (value_num scan k) h o u
  else if is_tag (lit "TEMPERATURE-EXP") k then mkDim i e l m t c (value_num scan k) o u
  else if is_tag (lit "MOLAR-EXP") k then mkDim i e l m t c h (value_num scan k) u
  else if is_tag (lit "LUMINOUS-EXP") k then mkDim i e l m t c h o (value_num scan k)
  else d.
Definition from_dim (n : xnode) : dim :=
  fold_left dim_kid (x_kids n) (mkDim (attr_text order (lit "ID") n) det0 0 0 0 0 0 0 0).

(** hounitgroup.cpp:51-77 FromXml; AddUnitReference (24-26) puts into a std::set. *)
Definition group_kid (g : group) (k : xnode) : group :=
  if is_tag (lit "CATEGORY") k then mkGr (gr_det g) (enum_from 0 0 ucat_texts (value_text k)) (gr_refs g)
  else if is_tag (lit "UNIT-REFS") k then
    mkGr (gr_det g) (gr_cat g)
      (fold_left (fun l s => emplace (fun x => x) s l) (map ref_of (filter (is_tag (lit "UNIT-REF")) (x_kids k))) (gr_refs g))
  else g.
Definition from_group (n : xnode) : group := fold_left group_kid (x_kids n) (mkGr (from_det n det0) 0 []).

(** hounit.cpp:75-100 FromXml. *)
Definition unit_kid (u : hunit) (k : xnode) : hunit :=
  let '(mkUn i e n f o d) := u in
  if is_tag (lit "NAME-DETAILS") k then mkUn i (from_det k e) n f o d
  else if is_tag (lit "DISPLAY-NAME") k then mkUn i e (value_text k) f o d
  else if is_tag (lit "FACTOR-SI-TO-UNIT") k then mkUn i e n (value_num scan k) o d
  else if is_tag (lit "OFFSET-SI-TO-UNIT") k then mkUn i e n f (value_num scan k) d
  else if is_tag (lit "PHYSICAL-DIMENSION-REF") k then mkUn i e n f o (ref_of k)
  else u.
Definition from_unit (n : xnode) : hunit :=
  fold_left unit_kid (x_kids n) (mkUn (attr_text order (lit "ID") n) det0 [] one 0 []).

(** hounitspecification.cpp:132-173 FromXml. *)
Definition spec_kid (p : uspec) (k : xnode) : uspec :=
  let '(mkSp rs ds gs us) := p in
  if is_tag (lit "ADMIN-DATA") k then mkSp (fold_left admin_kid (x_kids k) rs) ds gs us
  else if is_tag (lit "PHYSICAL-DIMENSIONS") k then
    mkSp rs (fold_left (fun l x => add_named dm_id x l) (map from_dim (filter (is_tag (lit "PHYSICAL-DIMENSION")) (x_kids k))) ds) gs us
  else if is_tag (lit "UNITGROUPS") k then
    mkSp rs ds (fold_left (fun l x => add_named gr_name x l) (map from_group (filter (is_tag (lit "UNITGROUP")) (x_kids k))) gs) us
  else if is_tag (lit "UNITS") k then
    mkSp rs ds gs (fold_left (fun l x => add_named un_id x l) (map from_unit (filter (is_tag (lit "UNIT")) (x_kids k))) us)
  else p.
Definition from_spec (n : xnode) (p : uspec) : uspec := fold_left spec_kid (x_kids n) p.

(** ** The comment of the header *)

(** hdcomment.h. *)
Record hducom : Type := mkHdu { hu_hd : hdc; hu_spec : uspec }.
Definition hducom0 : hducom := mkHdu hdc0 spec0.

(** hdcomment.cpp:145-182 ToXml and mdcomment.cpp:121-131 CreateRootNode. *)
Definition hdu_kids (c : hducom) : list xnode :=
  (to_str (lit "TX") (c_tx (hd_md (hu_hd c))) ++ to_str (lit "time_source") (hd_time (hu_hd c)) ++
   match hd_consts (hu_hd c) with [] => [] | xs => [set_kids (map CommentModel.to_const xs) (new_node (lit "constants"))] end) ++
  to_spec (hu_spec c) ++ to_common (hd_md (hu_hd c)).
Definition to_hdu (c : hducom) : xnode :=
  let n := root (lit "HD") (hdu_kids c) in
  if sp_active (hu_spec c) then set_attr (lit "xmlns:ho") (lit "http://www.asam.net/xml") n else n.

(** hdcomment.cpp:184-237 FromXml. *)
Definition hdu_kid (p : uspec) (k : xnode) : uspec := if is_tag (lit "UNIT-SPEC") k then from_spec k p else p.
Definition from_hdu (n : xnode) (c : hducom) : option hducom :=
  obind (from_hd order n (hu_hd c)) (fun h => Some (mkHdu h (fold_left hdu_kid (x_kids n) (hu_spec c)))).
Definition describe_hdu (s : list N) (c : hducom) : hducom := mkHdu (describe_hd s (hu_hd c)) (hu_spec c).

End Order.
End Doubles.
