(** Specification vocabulary for the comments of channels, sources, events and units: which of them an XML
    text can hold, and when a comment that was read is the comment that was set. *)
From Coq Require Import String Sorting.Sorted.
From Verif Require Import Base BlockModel XmlModel XmlSpec CommentModel CommentSpec NoteModel.
Local Open Scope N_scope.
Local Open Scope list_scope.

Definition attrs : Type := list (list N * list N).

(** ** Numbers *)

Definition num_keys : list (list N) :=
  [lit "average"; lit "bit_mask"; lit "byte_count"; lit "byte_order"; lit "max"; lit "min"; lit "triggered"; lit "unit";
   lit "unit_ref"].

Section Doubles.
Context (print : N -> list N) (scan : list N -> option N).

(** A number whose limits have a text on one line. *)
Definition limit_ok (d : option N) : Prop := match d with Some d => line_ok (print d) | None => True end.
Definition num_ok (q : num) : Prop :=
  std_ok num_keys [] (q_std q) /\ text_ok (q_text q) /\
  (forall n, q_count q = Some n -> n < 2 ^ 64) /\ (forall n, q_mask q = Some n -> n < 2 ^ 64) /\
  limit_ok (q_min q) /\ limit_ok (q_max q) /\ limit_ok (q_avg q) /\ line_ok (q_unit q) /\ line_ok (q_ref q).

(** A limit is what the text of the limit is read as. *)
Definition kept_limit (d d' : option N) : Prop := d' = match d with Some d => scan (print d) | None => None end.
(** Everything but the data type is kept; [type] is the type of the number in a new comment. *)
Definition kept_num (type : N) (q q' : num) : Prop :=
  kept_std [] (q_std q) (q_std q') /\ q_text q' = trim (q_text q) /\ q_trig q' = q_trig q /\ q_type q' = type /\
  byte_count q' = byte_count q /\ q_mask q' = q_mask q /\ q_be q' = q_be q /\
  kept_limit (q_min q) (q_min q') /\ kept_limit (q_max q) (q_max q') /\ kept_limit (q_avg q) (q_avg q') /\
  q_unit q' = q_unit q /\ q_ref q' = q_ref q.
(** A number without text is not stored. *)
Definition kept_opt_num (type : N) (q q' : num) : Prop :=
  match q_text q with [] => q' = num0 type | _ => kept_num type q q' end.

(** ** Alternative names *)

(** A custom attribute with the name of an own attribute has its value too. *)
Definition agrees (own : attrs) (s : std) : Prop :=
  forall k v, In (k, v) (s_cust s) -> In k (map fst own) -> In (k, v) own.
Definition names_keys : list (list N) := [lit "name"].
Definition altn_ok (a : altn) : Prop :=
  std_ok names_keys (text_attr "name" (a_default a)) (a_std a) /\ agrees (text_attr "name" (a_default a)) (a_std a) /\
  line_ok (a_default a) /\ Forall str_ok (a_names a) /\ Forall str_ok (a_display a) /\ Forall str_ok (a_vendors a) /\
  Forall str_ok (a_descs a).
(** More than white space. *)
Definition solid (t : mstr) : bool := match trim (t_text t) with [] => false | _ => true end.
(** Nothing is stored without a name, display name, vendor or description. *)
Definition some_name (a : altn) : bool :=
  match a_names a ++ a_display a ++ a_vendors a ++ a_descs a with [] => false | _ => true end.
Definition kept_altn (a a' : altn) : Prop :=
  if some_name a then
    kept_std (text_attr "name" (a_default a)) (a_std a) (a_std a') /\ a_default a' = trim (a_default a) /\
    Forall2 kept_str (filter solid (a_names a)) (a_names a') /\ Forall2 kept_str (filter solid (a_display a)) (a_display a') /\
    Forall2 kept_str (filter solid (a_vendors a)) (a_vendors a') /\ Forall2 kept_str (filter has_text (a_descs a)) (a_descs a')
  else a' = altn0.

(** ** Formulas *)

Definition syn_keys : list (list N) := [lit "version"; lit "source"; lit "offset"].
(** The source is an attribute of a custom syntax only. *)
Definition syn_attrs (custom : bool) (y : msyn) : attrs :=
  text_attr "version" (y_version y) ++ (if custom then text_attr "source" (y_source y) else []).
Definition syn_ok (custom : bool) (y : msyn) : Prop :=
  std_ok syn_keys (syn_attrs custom y) (t_std (y_str y)) /\ text_ok (y_name y) /\ line_ok (y_version y) /\ line_ok (y_source y).
Definition kept_syn (custom : bool) (y y' : msyn) : Prop :=
  kept_std (syn_attrs custom y) (t_std (y_str y)) (t_std (y_str y')) /\ y_name y' = trim (y_name y) /\
  t_off (y_str y') = None /\ y_version y' = trim (y_version y) /\
  y_source y' = (if custom then trim (y_source y) else []).

Definition var_keys : list (list N) :=
  [lit "cn"; lit "cs"; lit "cp"; lit "gn"; lit "gs"; lit "gp"; lit "idx_list_pattern"; lit "raw"; lit "offset"].
Definition var_attrs (v : mvar) : attrs :=
  text_attr "cn" (v_cn v) ++ text_attr "cs" (v_cs v) ++ text_attr "cp" (v_cp v) ++ text_attr "gn" (v_gn v) ++
  text_attr "gs" (v_gs v) ++ text_attr "gp" (v_gp v) ++ text_attr "idx_list_pattern" (index_text (v_index v)) ++
  (if v_raw v then [(lit "raw", lit "true")] else []).
Definition var_ok (v : mvar) : Prop :=
  std_ok var_keys (var_attrs v) (t_std (v_str v)) /\ text_ok (v_name v) /\ line_ok (v_cn v) /\ line_ok (v_cs v) /\
  line_ok (v_cp v) /\ line_ok (v_gn v) /\ line_ok (v_gs v) /\ line_ok (v_gp v).
(** Everything but the array indexes. *)
Definition kept_var (v v' : mvar) : Prop :=
  kept_std (var_attrs v) (t_std (v_str v)) (t_std (v_str v')) /\ v_name v' = trim (v_name v) /\ t_off (v_str v') = None /\
  v_cn v' = trim (v_cn v) /\ v_cs v' = trim (v_cs v) /\ v_cp v' = trim (v_cp v) /\ v_gn v' = trim (v_gn v) /\
  v_gs v' = trim (v_gs v) /\ v_gp v' = trim (v_gp v) /\ v_index v' = [] /\ v_raw v' = v_raw v.

(** The texts of custom syntaxes and of variables are their names in a map. *)
Definition named_ok (names : list (list N)) : Prop := ascending names /\ ~ In [] names /\ Forall tight names.
Definition formula_ok (f : formula) : Prop :=
  std_ok [] [] (f_std f) /\ syn_ok false (f_syntax f) /\ Forall (syn_ok true) (f_custom f) /\
  named_ok (map y_name (f_custom f)) /\ Forall var_ok (f_vars f) /\ named_ok (map v_name (f_vars f)).
(** A formula whose syntax has no text is not stored. *)
Definition some_syntax (f : formula) : bool := match t_text (y_str (f_syntax f)) with [] => false | _ => true end.
Definition kept_formula (f f' : formula) : Prop :=
  if some_syntax f then
    kept_std [] (f_std f) (f_std f') /\ kept_syn false (f_syntax f) (f_syntax f') /\
    Forall2 (kept_syn true) (f_custom f) (f_custom f') /\ Forall2 kept_var (f_vars f) (f_vars f')
  else f' = form0.

(** ** Comments *)

Definition wcom_ok (c : wcom) : Prop := comment_ok (w_md c) /\ altn_ok (w_names c) /\ formula_ok (w_form c).
Definition kept_wcom (c c' : wcom) : Prop :=
  kept_comment (w_md c) (w_md c') /\ kept_altn (w_names c) (w_names c') /\ kept_formula (w_form c) (w_form c').

(** The name in the linker file has an offset too; 0 is the offset without one. *)
Definition offset_of (t : mstr) : N := match t_off t with Some o => o | None => 0 end.
Definition linker_ok (t : mstr) : Prop := str_ok t /\ offset_of t < 2 ^ 64.
Definition kept_linker (t t' : mstr) : Prop :=
  match t_text t with
  | [] => t' = mstr0
  | _ => kept_std [] (t_std t) (t_std t') /\ t_text t' = trim (t_text t) /\ offset_of t' = offset_of t
  end.

(** The comment of a channel. *)
Definition cn_ok (c : cncom) : Prop :=
  wcom_ok (cn_w c) /\ linker_ok (cn_linker c) /\ num_ok (cn_laddr c) /\ num_ok (cn_raster c) /\ num_ok (cn_addr c) /\
  (forall m, cn_mono c = Some m -> m <= 6).
Definition kept_cn (c c' : cncom) : Prop :=
  kept_wcom (cn_w c) (cn_w c') /\ kept_linker (cn_linker c) (cn_linker c') /\
  kept_opt_num 8 (cn_laddr c) (cn_laddr c') /\ kept_opt_num 1 (cn_raster c) (cn_raster c') /\
  kept_opt_num 8 (cn_addr c) (cn_addr c') /\ cn_mono c' = cn_mono c.

(** The comment of an event: alternative names are not stored. *)
Definition ev_ok (c : evcom) : Prop :=
  wcom_ok (ev_w c) /\ num_ok (ev_pre c) /\ num_ok (ev_post c) /\ num_ok (ev_timeout c).
Definition kept_ev (c c' : evcom) : Prop :=
  kept_comment (w_md (ev_w c)) (w_md (ev_w c')) /\ kept_formula (w_form (ev_w c)) (w_form (ev_w c')) /\
  kept_opt_num 3 (ev_pre c) (ev_pre c') /\ kept_opt_num 3 (ev_post c) (ev_post c') /\
  kept_opt_num 3 (ev_timeout c) (ev_timeout c').

(** The comment of a source: the formula is not stored. *)
Definition si_ok (c : sicom) : Prop :=
  wcom_ok (si_w c) /\ altn_ok (si_path c) /\ altn_ok (si_bus c) /\ str_ok (si_protocol c).
Definition kept_si (c c' : sicom) : Prop :=
  kept_comment (w_md (si_w c)) (w_md (si_w c')) /\ kept_altn (w_names (si_w c)) (w_names (si_w c')) /\
  kept_altn (si_path c) (si_path c') /\ kept_altn (si_bus c) (si_bus c') /\ kept_opt (si_protocol c) (si_protocol c').

(** A unit and the name of the unit that it refers to. *)
Definition unit_keys : list (list N) := [lit "unit_ref"].
Definition unit_ok (c : unitc) : Prop :=
  wcom_ok (u_w c) /\ std_ok unit_keys (text_attr "unit_ref" (t_text (u_ref c))) (t_std (u_ref c)) /\
  agrees (text_attr "unit_ref" (t_text (u_ref c))) (t_std (u_ref c)) /\ line_ok (t_text (u_ref c)).
Definition kept_unit (c c' : unitc) : Prop :=
  kept_wcom (u_w c) (u_w c') /\
  match t_text (u_ref c) with
  | [] => u_ref c' = mstr0
  | t => kept_std (text_attr "unit_ref" t) (t_std (u_ref c)) (t_std (u_ref c')) /\ t_text (u_ref c') = trim t
  end.

End Doubles.
