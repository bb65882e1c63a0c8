(** Specification vocabulary for the unit specification in the header's comment: which of them an XML text can
    hold, and when the one that was read is the one that was set. *)
From Coq Require Import String.
From Verif Require Import Base BlockModel XmlModel XmlSpec CommentModel CommentSpec NoteModel NoteSpec MethModel MethSpec UnitModel.
Local Open Scope N_scope.
Local Open Scope list_scope.

Section Doubles.
Context (print : N -> list N) (scan : list N -> N).

(** Names; a name without text is not stored. *)
Definition det_ok (d : details) : Prop := text_ok (dt_short d) /\ Forall str_ok (dt_longs d) /\ Forall str_ok (dt_descs d).
Definition kept_det (d d' : details) : Prop :=
  dt_short d' = trim (dt_short d) /\ Forall2 kept_str (filter has_text (dt_longs d)) (dt_longs d') /\
  Forall2 kept_str (filter has_text (dt_descs d)) (dt_descs d').

(** Revisions: every text, every company revision and every modification. *)
Definition co_ok (c : corev) : Prop := text_ok (co_ref c) /\ text_ok (co_label c) /\ text_ok (co_state c).
Definition kept_co (c c' : corev) : Prop := c' = mkCo (trim (co_ref c)) (trim (co_label c)) (trim (co_state c)).
Definition mo_ok (m : modif) : Prop := text_ok (mo_change m) /\ text_ok (mo_reason m).
Definition kept_mo (m m' : modif) : Prop := m' = mkMo (trim (mo_change m)) (trim (mo_reason m)).
Definition rev_ok (r : revis) : Prop :=
  line_ok (rv_member r) /\ text_ok (rv_label r) /\ text_ok (rv_state r) /\ text_ok (rv_date r) /\
  Forall co_ok (rv_cos r) /\ Forall mo_ok (rv_mods r).
Definition kept_rev (r r' : revis) : Prop :=
  rv_member r' = trim (rv_member r) /\ rv_label r' = trim (rv_label r) /\ rv_state r' = trim (rv_state r) /\
  rv_date r' = trim (rv_date r) /\ Forall2 kept_co (rv_cos r) (rv_cos r') /\ Forall2 kept_mo (rv_mods r) (rv_mods r').

(** An exponent; 0.0 and -0.0 (the bit of the sign alone) are not stored and read as 0.0. *)
Definition null (d : N) : bool := (d =? 0) || (d =? 2 ^ 63).
Definition kept_exp (d : N) : N := if null d then 0 else again print scan d.
Definition dim_ok (d : dim) : Prop :=
  line_ok (dm_id d) /\ tight (dm_id d) /\ det_ok (dm_det d) /\ number_ok print (dm_len d) /\ number_ok print (dm_mass d) /\
  number_ok print (dm_time d) /\ number_ok print (dm_cur d) /\ number_ok print (dm_temp d) /\ number_ok print (dm_mol d) /\
  number_ok print (dm_lum d).
(** The names and the last two exponents are not read. *)
Definition kept_dim (d d' : dim) : Prop :=
  d' = mkDim (dm_id d) det0 (kept_exp (dm_len d)) (kept_exp (dm_mass d)) (kept_exp (dm_time d)) (kept_exp (dm_cur d))
         (kept_exp (dm_temp d)) 0 0.

(** Groups: the names, the category and every unit it refers to. *)
Definition group_ok (g : group) : Prop :=
  det_ok (gr_det g) /\ tight (dt_short (gr_det g)) /\ gr_cat g <= 1 /\ Forall line_ok (gr_refs g) /\ Forall tight (gr_refs g) /\
  ascending (gr_refs g).
Definition kept_group (g g' : group) : Prop :=
  kept_det (gr_det g) (gr_det g') /\ gr_cat g' = gr_cat g /\ gr_refs g' = gr_refs g.

(** Units: the names are not read. *)
Definition hunit_ok (u : hunit) : Prop :=
  line_ok (un_id u) /\ tight (un_id u) /\ det_ok (un_det u) /\ text_ok (un_display u) /\ number_ok print (un_factor u) /\
  number_ok print (un_offset u) /\ text_ok (un_dim u).
(** The factor 1.0 (whose bits are 3FF0000000000000) with the offset 0.0 is not stored. *)
Definition plain (u : hunit) : bool := (un_factor u =? 0x3FF0000000000000) && null (un_offset u).
Definition kept_hunit (u u' : hunit) : Prop :=
  u' = mkUn (un_id u) det0 (trim (un_display u)) (if plain u then 0x3FF0000000000000 else again print scan (un_factor u))
         (if plain u then 0 else again print scan (un_offset u)) (trim (un_dim u)).

(** The members of the maps have different names, and are listed in their order. *)
Definition map_ok {A} (name : A -> list N) (l : list A) : Prop := ascending (map name l) /\ ~ In [] (map name l).
Definition spec_ok (p : uspec) : Prop :=
  Forall rev_ok (sp_revs p) /\ Forall dim_ok (sp_dims p) /\ Forall group_ok (sp_groups p) /\ Forall hunit_ok (sp_units p) /\
  map_ok dm_id (sp_dims p) /\ map_ok (fun g => dt_short (gr_det g)) (sp_groups p) /\ map_ok un_id (sp_units p).
Definition kept_spec (p p' : uspec) : Prop :=
  Forall2 kept_rev (sp_revs p) (sp_revs p') /\ Forall2 kept_dim (sp_dims p) (sp_dims p') /\
  Forall2 kept_group (sp_groups p) (sp_groups p') /\ Forall2 kept_hunit (sp_units p) (sp_units p').

(** What calls ask for; of the members with a name those whose name was not used before. *)
Definition revs_of (ops : list scall) : list revis := concat (map (fun c => match c with CRev r => [r] | _ => [] end) ops).
Definition dims_of (ops : list scall) : list dim := concat (map (fun c => match c with CDim d => [d] | _ => [] end) ops).
Definition groups_of (ops : list scall) : list group := concat (map (fun c => match c with CGroup g => [g] | _ => [] end) ops).
Definition units_of (ops : list scall) : list hunit := concat (map (fun c => match c with CUnit u => [u] | _ => [] end) ops).
Definition first_of {A} (name : A -> list N) (xs : list A) (x : A) : Prop :=
  exists a b, xs = a ++ x :: b /\ name x <> [] /\ ~ In (name x) (map name a).
Definition scall_ok (c : scall) : Prop :=
  match c with CRev r => rev_ok r | CDim d => dim_ok d | CGroup g => group_ok g | CUnit u => hunit_ok u end.

(** The comment of the header. *)
Definition hdu_ok (c : hducom) : Prop := hdc_ok (hu_hd c) /\ spec_ok (hu_spec c).
Definition kept_hdu (c c' : hducom) : Prop := kept_hd (hu_hd c) (hu_hd c') /\ kept_spec (hu_spec c) (hu_spec c').

End Doubles.
