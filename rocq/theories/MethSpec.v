(** Specification vocabulary for the computation method in a conversion's comment: which of them an XML text
    can hold, and when the method that was read is the method that was set. *)
From Coq Require Import String.
From Verif Require Import Base BlockModel XmlModel XmlSpec CommentModel CommentSpec NoteModel NoteSpec MethModel.
Local Open Scope N_scope.
Local Open Scope list_scope.

Section Doubles.
Context (print : N -> list N) (scan : list N -> N).

(** A number with a text; it is read as what its text is read as. *)
Definition number_ok (d : N) : Prop := text_ok (print d).
Definition again (d : N) : N := scan (trim (print d)).

(** A limit; without a value its type is not stored, and read as closed (1). *)
Definition iv_ok (v : interval) : Prop := (forall d, i_limit v = Some d -> number_ok d) /\ i_type v <= 2.
Definition kept_iv (v v' : interval) : Prop :=
  i_limit v' = option_map again (i_limit v) /\ i_type v' = match i_limit v with Some _ => i_type v | None => 1 end.

(** A constraint; one without any limit is not stored. *)
Definition con_ok (c : constr) : Prop := iv_ok (k_lower c) /\ iv_ok (k_upper c) /\ k_valid c <= 5.
Definition limited (c : constr) : bool :=
  match i_limit (k_lower c), i_limit (k_upper c) with None, None => false | _, _ => true end.
Definition kept_con (c c' : constr) : Prop :=
  kept_iv (k_lower c) (k_lower c') /\ kept_iv (k_upper c) (k_upper c') /\ k_valid c' = k_valid c.

(** A constant: a number, a text, both or none. *)
Definition const_ok (f : option N) (t : option (list N)) : Prop :=
  (forall d, f = Some d -> number_ok d) /\ (forall s, t = Some s -> text_ok s).

(** A scale; the validity of it is not stored, and read as valid (0). *)
Definition scale_ok (z : scale) : Prop :=
  con_ok (z_con z) /\ Forall str_ok (z_descs z) /\ const_ok (z_float z) (z_text z) /\
  Forall number_ok (z_nums z) /\ Forall number_ok (z_dens z) /\ text_ok (z_math z).
Definition kept_scale (z z' : scale) : Prop :=
  kept_iv (k_lower (z_con z)) (k_lower (z_con z')) /\ kept_iv (k_upper (z_con z)) (k_upper (z_con z')) /\
  k_valid (z_con z') = 0 /\ Forall2 kept_str (filter has_text (z_descs z)) (z_descs z') /\
  z_float z' = option_map again (z_float z) /\ z_text z' = option_map trim (z_text z) /\
  z_nums z' = map again (z_nums z) /\ z_dens z' = map again (z_dens z) /\ z_math z' = trim (z_math z).

(** A method. *)
Definition meth_ok (m : method) : Prop :=
  text_ok (h_short m) /\ Forall str_ok (h_longs m) /\ Forall str_ok (h_descs m) /\ h_cat m <= 5 /\ line_ok (h_unit m) /\
  Forall con_ok (h_phys m) /\ Forall con_ok (h_int m) /\ Forall scale_ok (h_scales m) /\ const_ok (h_float m) (h_text m).
(** Everything but the names is read; a method with a category only is not stored. *)
Definition only_category (m : method) : Prop := m = mkMeth [] [] [] (h_cat m) [] [] [] [] None None.
Definition kept_meth (m m' : method) : Prop :=
  (only_category m -> m' = meth0) /\
  (~ only_category m ->
   h_short m' = [] /\ h_longs m' = [] /\ h_descs m' = [] /\
   h_cat m' = h_cat m /\ h_unit m' = trim (h_unit m) /\
   Forall2 kept_con (filter limited (h_phys m)) (h_phys m') /\ Forall2 kept_con (filter limited (h_int m)) (h_int m') /\
   Forall2 kept_scale (h_scales m) (h_scales m') /\
   h_float m' = option_map again (h_float m) /\ h_text m' = option_map trim (h_text m)).

(** The comment of a conversion. *)
Definition cc_ok (c : cccom) : Prop := wcom_ok (cc_w c) /\ meth_ok (cc_meth c).
Definition kept_cc (c c' : cccom) : Prop := kept_wcom (cc_w c) (cc_w c') /\ kept_meth (cc_meth c) (cc_meth c').

End Doubles.
