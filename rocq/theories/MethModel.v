(** Model of the comment of a conversion (CcComment) with its computation method (HoCompuMethod), the
    constraints (HoScaleConstraint, HoInterval) and scales (HoCompuScale) in it: include/mdf/ho*.h,
    mdflib/src/hocompumethod.cpp, hocompuscale.cpp, hoscaleconstraint.cpp, hointerval.cpp,
    honamedetails.cpp, hoenumerates.cpp and cccomment.cpp.

    The parts that all comments share are those of CommentModel.v and NoteModel.v. Floating point numbers
    are their 64 bits; the conversions between them and texts (operator<< and operator>> of the C++
    library) are parameters. SetProperty adds a tag: none of the name is there before. *)
From Coq Require Import String.
From Verif Require Import Base BlockModel XmlModel CommentModel NoteModel.
Local Open Scope N_scope.
Local Open Scope list_scope.

(** ** Enumerations *)

(** hoenumerates.cpp:20-26, 48-51: the texts of interval types, validities and categories, by number. *)
Definition iv_texts : list (list N) := [lit "OPEN"; lit "CLOSED"; lit "INFINITE"].
Definition valid_texts : list (list N) :=
  [lit "VALID"; lit "NOT-VALID"; lit "NOT-AVAILABLE"; lit "NOT-DEFINED"; lit "ERROR"; lit "OTHER"].
Definition cat_texts : list (list N) :=
  [lit "IDENTICAL"; lit "LINEAR"; lit "SCALE-LINEAR"; lit "TEXTTABLE"; lit "TAB-NOINTP"; lit "FORMULA"].
(** hoenumerates.cpp:84-87, 94-97, 145-149. *)
Definition enum_text (l : list (list N)) (n : N) : list N := nth (N.to_nat n) l [].
(** hoenumerates.cpp:57-67 StringToEnumerate; [d] is the default. *)
Fixpoint enum_from (d i : N) (l : list (list N)) (s : list N) : N :=
  match l with
  | [] => d
  | t :: r => if beq s t then i else enum_from d (i + 1) r s
  end.

Section Doubles.
(** ostream << double, and istream >> double, which gives 0 for a text that is not a number. *)
Context (print : N -> list N) (scan : list N -> N).

(** A new tag with a value (AddNode and Value, SetProperty). *)
Definition leaf (tag v : list N) : xnode := set_value v (new_node tag).
Definition num_leaf (tag : list N) (d : N) : xnode := leaf tag (print d).
(** ixmlnode.h:278-285 Value<double>. *)
Definition value_num (n : xnode) : N := scan (value_text n).

(** ** Limits *)

(** hointerval.h:28-29: the limit and the type, 1 is a closed interval. *)
Record interval : Type := mkIv { i_limit : option N; i_type : N }.
Definition iv0 : interval := mkIv None 1.

(** hointerval.cpp:41-53 ToXml. *)
Definition to_iv (tag : list N) (v : interval) : list xnode :=
  match i_limit v with
  | None => []
  | Some d =>
      let n := num_leaf tag d in
      [if i_type v =? 1 then n else set_attr (lit "INTERVAL-TYPE") (enum_text iv_texts (i_type v)) n]
  end.

(** hoscaleconstraint.h:37-39: two limits and the validity, 0 is valid. *)
Record constr : Type := mkCon { k_lower : interval; k_upper : interval; k_valid : N }.
Definition con0 : constr := mkCon iv0 iv0 0.
(** hointerval.cpp:20-22, hoscaleconstraint.cpp:25-27 IsActive. *)
Definition iv_active (v : interval) : bool := match i_limit v with Some _ => true | None => false end.
Definition con_active (c : constr) : bool := iv_active (k_lower c) || iv_active (k_upper c).
Definition to_limits (c : constr) : list xnode :=
  to_iv (lit "ho:LOWER-LIMIT") (k_lower c) ++ to_iv (lit "ho:UPPER-LIMIT") (k_upper c).
(** hoscaleconstraint.cpp:53-69 ToXml. *)
Definition to_con (c : constr) : list xnode :=
  if con_active c then
    let n := set_kids (to_limits c) (new_node (lit "ho:SCALE-CONSTR")) in
    [if k_valid c =? 0 then n else set_attr (lit "VALIDITY") (enum_text valid_texts (k_valid c)) n]
  else [].

(** ** Scales *)

(** hocompuscale.h:49-57. *)
Record scale : Type := mkSc {
  z_con : constr; z_descs : list mstr; z_float : option N; z_text : option (list N);
  z_nums : list N; z_dens : list N; z_math : list N
}.
Definition scale0 : scale := mkSc con0 [] None None [] [] [].

(** hocompuscale.cpp:85-93, hocompumethod.cpp:128-136: a number and a text. *)
Definition to_const (tag : list N) (f : option N) (t : option (list N)) : list xnode :=
  match f, t with
  | None, None => []
  | _, _ =>
      [set_kids (match f with Some d => [num_leaf (lit "ho:V") d] | None => [] end ++
                 match t with Some s => [leaf (lit "ho:VT") s] | None => [] end) (new_node tag)]
  end.
(** hocompuscale.cpp:94-108. *)
Definition to_list (tag : list N) (ds : list N) : xnode := set_kids (map (num_leaf (lit "ho:V")) ds) (new_node tag).
Definition to_coeffs (nums dens : list N) : list xnode :=
  match nums, dens with
  | [], [] => []
  | _, _ => [set_kids [to_list (lit "ho:COMPU-NUMERATOR") nums; to_list (lit "ho:COMPU-DENOMINATOR") dens]
               (new_node (lit "ho:COMPU-RATIONAL-COEFFS"))]
  end.
(** A tag for a text that is not empty. *)
Definition to_text (tag t : list N) : list xnode := match t with [] => [] | _ => [leaf tag t] end.
(** hocompuscale.cpp:74-112 ToXml; the validity is not written. *)
Definition to_scale (z : scale) : xnode :=
  set_kids (concat (map (to_str (lit "ho:DESC")) (z_descs z)) ++ to_limits (z_con z) ++
            to_const (lit "ho:COMPU-CONST") (z_float z) (z_text z) ++ to_coeffs (z_nums z) (z_dens z) ++
            to_text (lit "ho:COMPU-GENERIC-MATH") (z_math z))
    (new_node (lit "ho:COMPU-SCALE")).

(** ** Methods *)

(** honamedetails.h, hocompumethod.h:50-57: short name, long names, descriptions, category, reference to a
    unit, physical and internal constraints, scales, default values. *)
Record method : Type := mkMeth {
  h_short : list N; h_longs : list mstr; h_descs : list mstr; h_cat : N; h_unit : list N;
  h_phys : list constr; h_int : list constr; h_scales : list scale; h_float : option N; h_text : option (list N)
}.
Definition meth0 : method := mkMeth [] [] [] 0 [] [] [] [] None None.
Definition none {A} (l : list A) : bool := match l with [] => true | _ => false end.
Definition noneo {A} (o : option A) : bool := match o with None => true | _ => false end.
(** hocompumethod.cpp:15-23, honamedetails.cpp:13-16 IsActive. *)
Definition h_active (m : method) : bool :=
  negb (none (h_short m)) || negb (none (h_longs m)) || negb (none (h_descs m)) || negb (none (h_unit m)) ||
  negb (none (h_phys m)) || negb (none (h_int m)) || negb (none (h_scales m)) || negb (noneo (h_float m)) ||
  negb (noneo (h_text m)).

(** hocompumethod.cpp:107-118: a tag with constraints, if there are any. *)
Definition to_cons (tag : list N) (l : list constr) : list xnode :=
  match l with [] => [] | _ => [set_kids (concat (map to_con l)) (new_node tag)] end.
(** hocompumethod.cpp:119-137. *)
Definition to_phys (m : method) : list xnode :=
  match h_scales m, h_float m, h_text m with
  | [], None, None => []
  | _, _, _ =>
      [set_kids (match h_scales m with [] => [] | l => [set_kids (map to_scale l) (new_node (lit "ho:COMPU-SCALES"))] end ++
                 to_const (lit "ho:COMPU-DEFAULT-VALUE") (h_float m) (h_text m))
         (new_node (lit "ho:COMPU-INTERNAL-TO-PHYS"))]
  end.
(** honamedetails.cpp:50-63 ToXml: the tags of the names are added to the tag of the method. *)
Definition to_details (m : method) : list xnode :=
  to_text (lit "ho:SHORT-NAME") (h_short m) ++ concat (map (to_str (lit "ho:LONG-NAME")) (h_longs m)) ++
  concat (map (to_str (lit "ho:DESC")) (h_descs m)).
Definition to_unit_ref (u : list N) : list xnode :=
  match u with [] => [] | _ => [set_attr (lit "ID-REF") u (new_node (lit "ho:UNIT-REF"))] end.
(** hocompumethod.cpp:93-140 ToXml. *)
Definition to_meth (m : method) : list xnode :=
  if h_active m then
    [set_kids (to_details m ++ [leaf (lit "ho:CATEGORY") (enum_text cat_texts (h_cat m))] ++ to_unit_ref (h_unit m) ++
               to_cons (lit "ho:PHYS-CONSTRS") (h_phys m) ++ to_cons (lit "ho:INTERNAL-CONSTRS") (h_int m) ++ to_phys m)
       (new_node (lit "ho:COMPU-METHOD"))]
  else [].

(** ** Reading *)

Section Order.
Context (order : list (list N * list N) -> list (list N * list N)).

(** An attribute with the text of an enumeration; [old] if there is none. *)
Definition attr_enum (key : list N) (d : N) (l : list (list N)) (old : N) (n : xnode) : N :=
  match attr_text order key n with [] => old | t => enum_from d 0 l t end.
(** hointerval.cpp:55-62 FromXml. *)
Definition from_iv (n : xnode) (v : interval) : interval :=
  mkIv (Some (value_num n)) (attr_enum (lit "INTERVAL-TYPE") 1 iv_texts (i_type v) n).
(** hoscaleconstraint.cpp:84-88. *)
Definition limit_kid (c : constr) (k : xnode) : constr :=
  if is_tag (lit "LOWER-LIMIT") k then mkCon (from_iv k (k_lower c)) (k_upper c) (k_valid c)
  else if is_tag (lit "UPPER-LIMIT") k then mkCon (k_lower c) (from_iv k (k_upper c)) (k_valid c)
  else c.
(** hoscaleconstraint.cpp:71-90 FromXml. *)
Definition from_con (n : xnode) (c : constr) : constr :=
  fold_left limit_kid (x_kids n) (mkCon (k_lower c) (k_upper c) (attr_enum (lit "VALIDITY") 0 valid_texts (k_valid c) n)).
(** hocompumethod.cpp:161-180: the constraints in a tag. *)
Definition cons_in (n : xnode) : list constr :=
  map (fun k => from_con k con0) (filter (is_tag (lit "SCALE-CONSTR")) (x_kids n)).

(** hocompuscale.cpp:133-142, hocompumethod.cpp:201-210. *)
Definition read_const (r : option N * option (list N)) (k : xnode) : option N * option (list N) :=
  if is_tag (lit "V") k then (Some (value_num k), snd r)
  else if is_tag (lit "VT") k then (fst r, Some (value_text k))
  else r.
(** hocompuscale.cpp:151-157, 159-165: the numbers in a tag. *)
Definition nums_in (n : xnode) : list N := map value_num (filter (is_tag (lit "V")) (x_kids n)).
(** hocompuscale.cpp:144-167. *)
Definition coeff_kid (r : list N * list N) (k : xnode) : list N * list N :=
  if is_tag (lit "COMPU-NUMERATOR") k then (fst r ++ nums_in k, snd r)
  else if is_tag (lit "COMPU-DENOMINATOR") k then (fst r, snd r ++ nums_in k)
  else r.
(** hocompuscale.cpp:114-172 FromXml. *)
Definition scale_kid (z : scale) (k : xnode) : scale :=
  let '(mkSc c ds f t ns es m) := z in
  if is_tag (lit "DESC") k then mkSc c (ds ++ [from_str order k mstr0]) f t ns es m
  else if is_tag (lit "LOWER-LIMIT") k || is_tag (lit "UPPER-LIMIT") k then mkSc (limit_kid c k) ds f t ns es m
  else if is_tag (lit "COMPU-CONST") k then
    let r := fold_left read_const (x_kids k) (f, t) in mkSc c ds (fst r) (snd r) ns es m
  else if is_tag (lit "COMPU-RATIONAL-COEFFS") k then
    let r := fold_left coeff_kid (x_kids k) (ns, es) in mkSc c ds f t (fst r) (snd r) m
  else if is_tag (lit "COMPU-GENERIC-MATH") k then mkSc c ds f t ns es (value_text k)
  else z.
Definition from_scale (n : xnode) : scale := fold_left scale_kid (x_kids n) scale0.
(** hocompumethod.cpp:189-197. *)
Definition scales_in (n : xnode) : list scale := map from_scale (filter (is_tag (lit "COMPU-SCALE")) (x_kids n)).

(** honamedetails.cpp:65-85 FromXml, of a tag with the names. *)
Definition detail_kid (m : method) (k : xnode) : method :=
  let '(mkMeth s ls ds c u p i z f t) := m in
  if is_tag (lit "SHORT-NAME") k then mkMeth (value_text k) ls ds c u p i z f t
  else if is_tag (lit "LONG-NAME") k then mkMeth s (ls ++ [from_str order k mstr0]) ds c u p i z f t
  else if is_tag (lit "DESC") k then mkMeth s ls (ds ++ [from_str order k mstr0]) c u p i z f t
  else m.
(** hocompumethod.cpp:181-212. *)
Definition phys_kid (m : method) (k : xnode) : method :=
  let '(mkMeth s ls ds c u p i z f t) := m in
  if is_tag (lit "COMPU-SCALES") k then mkMeth s ls ds c u p i (z ++ scales_in k) f t
  else if is_tag (lit "COMPU-DEFAULT-VALUE") k then
    let r := fold_left read_const (x_kids k) (f, t) in mkMeth s ls ds c u p i z (fst r) (snd r)
  else m.
(** hocompumethod.cpp:142-215 FromXml. *)
Definition meth_kid (m : method) (k : xnode) : method :=
  let '(mkMeth s ls ds c u p i z f t) := m in
  if is_tag (lit "NAME-DETAILS") k then fold_left detail_kid (x_kids k) m
  else if is_tag (lit "CATEGORY") k then
    mkMeth s ls ds (match value_text k with [] => c | v => enum_from 0 0 cat_texts v end) u p i z f t
  else if is_tag (lit "UNIT-REF") k then
    mkMeth s ls ds c (match attr_text order (lit "ID-REF") k with [] => value_text k | v => v end) p i z f t
  else if is_tag (lit "PHYS-CONSTRS") k then mkMeth s ls ds c u (p ++ cons_in k) i z f t
  else if is_tag (lit "INTERNAL-CONSTRS") k then mkMeth s ls ds c u p (i ++ cons_in k) z f t
  else if is_tag (lit "COMPU-INTERNAL-TO-PHYS") k then fold_left phys_kid (x_kids k) m
  else m.
Definition from_meth (n : xnode) (m : method) : method := fold_left meth_kid (x_kids n) m.

(** ** The comment of a conversion *)

(** cccomment.h. *)
Record cccom : Type := mkCc { cc_w : wcom; cc_meth : method }.
Definition cccom0 : cccom := mkCc wcom0 meth0.

(** cccomment.cpp:31-50 ToXml and mdcomment.cpp:121-131 CreateRootNode. *)
Definition cc_kids (c : cccom) : list xnode :=
  w_tx (cc_w c) ++ to_names (lit "names") (w_names (cc_w c)) ++ to_formula (w_form (cc_w c)) ++
  to_meth (cc_meth c) ++ to_common (w_md (cc_w c)).
Definition to_cc (c : cccom) : xnode :=
  let n := root (lit "CC") (cc_kids c) in
  if h_active (cc_meth c) then set_attr (lit "xmlns:ho") (lit "http://www.asam.net/xml") n else n.

(** cccomment.cpp:52-89 FromXml. *)
Definition cc_kid (m : method) (k : xnode) : method := if is_tag (lit "COMPU-METHOD") k then from_meth k m else m.
Definition from_cc (n : xnode) (c : cccom) : option cccom :=
  obind (from_wcom order n (cc_w c)) (fun w => Some (mkCc w (fold_left cc_kid (x_kids n) (cc_meth c)))).
Definition describe_cc (s : list N) (c : cccom) : cccom := mkCc (describe_w s (cc_w c)) (cc_meth c).

End Order.
End Doubles.
