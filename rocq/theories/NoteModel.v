(** Model of the typed comments of channels, sources, events and units: numbers (MdNumber), alternative
    names (MdAlternativeName), formulas (MdFormula, MdSyntax, MdVariable), and the comments that hold them
    (MdComment, CnComment, SiComment, EvComment, CcUnit, CnUnit). The same MdComment serves as AtComment,
    CgComment, DgComment and ChComment, which differ in the name of the block only.

    The parts that all comments share are those of CommentModel.v, the tags those of XmlModel.v.

    Simplifications: floating point numbers are their 64 bits, and the conversions between them and
    texts (operator<< and std::stod of the C++ library) are parameters; extensions are not in the objects
    (nothing is written; such tags are skipped when reading without an extension creator). As in
    CommentModel.v a map is the list of its objects in the order of their names, and [None] is an
    exception that the reading of the whole comment catches. *)
From Coq Require Import String.
From Verif Require Import Base BlockModel XmlModel CommentModel.
Local Open Scope N_scope.
Local Open Scope list_scope.

(* ------------------------------------------------------------------ *)
(** ** Hexadecimal numbers *)

(** snprintf "0x%llX". *)
Definition hex_digit (d : N) : N := if d <? 10 then 48 + d else 55 + d.
Fixpoint hex_digits (fuel : nat) (n : N) (acc : list N) : list N :=
  match fuel with
  | O => acc
  | S fuel =>
      let acc := hex_digit (n mod 16) :: acc in
      if n / 16 =? 0 then acc else hex_digits fuel (n / 16) acc
  end.
Definition hex_text (n : N) : list N := lit "0x" ++ hex_digits 16 n [].

(** std::stoull with base 16: white space, a sign, the prefix 0x, at least one digit; the number fits in
    64 bits. *)
Definition hex_value (c : N) : option N :=
  if (48 <=? c) && (c <=? 57) then Some (c - 48)
  else if (65 <=? c) && (c <=? 70) then Some (c - 55)
  else if (97 <=? c) && (c <=? 102) then Some (c - 87)
  else None.
Fixpoint hex_run (acc : N) (s : list N) : N :=
  match s with
  | c :: r => match hex_value c with Some d => hex_run (acc * 16 + d) r | None => acc end
  | [] => acc
  end.
Definition is_hex (c : N) : bool := match hex_value c with Some _ => true | None => false end.
Definition skip_prefix (s : list N) : list N :=
  match s with
  | a :: b :: c :: r => if (a =? 48) && ((b =? 120) || (b =? 88)) && is_hex c then c :: r else s
  | _ => s
  end.
Definition stoull16 (s : list N) : option N :=
  let t := ltrim s in
  let '(neg, d) := match t with
                   | c :: r => if c =? 45 then (true, r) else if c =? 43 then (false, r) else (false, t)
                   | [] => (false, [])
                   end in
  match skip_prefix d with
  | c :: r =>
      if is_hex c then
        let v := hex_run 0 (c :: r) in
        if v <? 2 ^ 64 then Some (if neg : bool then (2 ^ 64 - v) mod 2 ^ 64 else v) else None
      else None
  | [] => None
  end.
(** mdnumber.cpp:138-142, 211-218: a text that starts with 0x. *)
Definition after_0x (s : list N) : option (list N) :=
  match strip (lit "0x") s with Some (c :: r) => Some (c :: r) | _ => None end.

(* ------------------------------------------------------------------ *)
(** ** Numbers *)

(** mdnumber.h:87-98; limits are the bits of a double. Data type 3 is a float (mdnumber.h:90), 1 a
    decimal, 8 a hexadecimal number. *)
Record num : Type := mkNum {
  q_std : std; q_text : list N; q_trig : bool; q_type : N; q_count : option N; q_mask : option N; q_be : bool;
  q_min : option N; q_max : option N; q_avg : option N; q_unit : list N; q_ref : list N
}.
Definition num0 (type : N) : num := mkNum std0 [] false type None None false None None None [] [].

(** mdnumber.cpp:20-29 the constructor, 115-133 Number(uint64_t). *)
Definition number_text (type n : N) : list N := if type =? 8 then hex_text n else int_text (Z.of_N n).
Definition set_number (n : N) (q : num) : num :=
  mkNum (q_std q) (number_text (q_type q) n) (q_trig q) (q_type q) (q_count q) (q_mask q) (q_be q)
    (q_min q) (q_max q) (q_avg q) (q_unit q) (q_ref q).
(** mdnumber.cpp:135-149 Number<uint64_t>(). *)
Definition get_number (q : num) : N :=
  match (match after_0x (q_text q) with
         | Some h => stoull16 h
         | None => match q_text q with [] => None | t => stoull t end
         end) with
  | Some n => n
  | None => 0
  end.
(** mdnumber.cpp:51-65 ByteCount, BitMask. *)
Definition byte_count (q : num) : N := match q_count q with Some n => n | None => 8 end.
Definition bit_mask (q : num) : N := match q_mask q with Some n => n | None => 2 ^ 64 - 1 end.

Section Doubles.
(** ostream << double, and std::stod. *)
Context (print : N -> list N) (scan : list N -> option N).

Definition set_opt (k : list N) (v : option (list N)) (n : xnode) : xnode :=
  match v with Some v => set_attr k v n | None => n end.

(** mdnumber.cpp:151-190 ToXml. *)
Definition to_num (tag : list N) (q : num) : list xnode :=
  match q_text q with
  | [] => []
  | _ =>
      let n := put_std (q_std q) (new_node tag) in
      let n := match q_count q with Some c => if c =? 8 then n else set_attr (lit "byte_count") (int_text (Z.of_N c)) n | None => n end in
      let n := set_opt (lit "bit_mask") (option_map hex_text (q_mask q)) n in
      let n := if q_be q then set_attr (lit "byte_order") (lit "BE") n else n in
      let n := set_opt (lit "min") (option_map print (q_min q)) n in
      let n := set_opt (lit "max") (option_map print (q_max q)) n in
      let n := set_opt (lit "average") (option_map print (q_avg q)) n in
      let n := set_text (lit "unit") (q_unit q) n in
      let n := set_text (lit "unit_ref") (q_ref q) n in
      let n := if q_trig q then set_attr (lit "triggered") (lit "true") n else n in
      [set_value (q_text q) n]
  end.

Section Order.
Context (order : list (list N * list N) -> list (list N * list N)).

(** mdnumber.cpp:192-257 FromXml; [n] is the tag. *)
Definition read_mask (v : list N) (old : option N) : option N :=
  match after_0x v with
  | Some h => stoull16 h
  | None => match v with [] => old | _ => stoull v end
  end.
Definition read_num_attr (n : xnode) (q : num) (a : list N * list N) : option num :=
  let '(mkNum s t tr ty ct mk be mi ma av un rf) := q in
  let '(k, v) := a in
  if beq k (lit "ci") && negb (beq v []) then
    obind (stoll v) (fun z => Some (mkNum (mkStd (as_u64 z) (s_lang s) (s_cust s)) t tr ty ct mk be mi ma av un rf))
  else if beq k (lit "xml:lang") then Some (mkNum (mkStd (s_ci s) v (s_cust s)) t tr ty ct mk be mi ma av un rf)
  else if beq k (lit "byte_count") then Some (mkNum s t tr ty (stoull v) mk be mi ma av un rf)
  else if beq k (lit "bit_mask") then Some (mkNum s t tr ty ct (read_mask v mk) be mi ma av un rf)
  else if beq k (lit "byte_order") then Some (mkNum s t tr ty ct mk (if beq v (lit "BE") then true else be) mi ma av un rf)
  else if beq k (lit "min") then Some (mkNum s t tr ty ct mk be (scan v) ma av un rf)
  else if beq k (lit "max") then Some (mkNum s t tr ty ct mk be mi (scan v) av un rf)
  else if beq k (lit "average") then Some (mkNum s t tr ty ct mk be mi ma (scan v) un rf)
  else if beq k (lit "unit") then Some (mkNum s t tr ty ct mk be mi ma av v rf)
  else if beq k (lit "unit_ref") then Some (mkNum s t tr ty ct mk be mi ma av un v)
  else if beq k (lit "triggered") then Some (mkNum s t (attr_bool order k n) ty ct mk be mi ma av un rf)
  else Some (mkNum (add_custom k v s) t tr ty ct mk be mi ma av un rf).
Definition from_num (n : xnode) (q : num) : option num :=
  obind (fold_left (fun r a => obind r (fun q => read_num_attr n q a)) (attr_map order n) (Some q)) (fun q =>
    Some (mkNum (q_std q) (value_text n) (q_trig q) (q_type q) (q_count q) (q_mask q) (q_be q)
            (q_min q) (q_max q) (q_avg q) (q_unit q) (q_ref q))).

(* ------------------------------------------------------------------ *)
(** ** Alternative names *)

(** mdalternativename.h:48-53: attributes, default name, names, display names, vendors, descriptions. *)
Record altn : Type := mkAlt {
  a_std : std; a_default : list N; a_names : list mstr; a_display : list mstr; a_vendors : list mstr; a_descs : list mstr
}.
Definition altn0 : altn := mkAlt std0 [] [] [] [] [].

(** mdalternativename.cpp:15-18 IsActive. *)
Definition a_active (a : altn) : bool :=
  match a_names a, a_display a, a_vendors a, a_descs a with [], [], [], [] => false | _, _, _, _ => true end.

(** mdalternativename.cpp:32-61 AddAlternativeName, AddDisplayName, AddVendor, AddDescription. *)
Definition add_text (t : mstr) (l : list mstr) : list mstr := match t_text t with [] => l | _ => l ++ [t] end.

(** mdalternativename.cpp:96-118 ToXml, at a new tag; nothing for inactive names (mdcomment.cpp:155-160,
    sicomment.cpp:57-64). *)
Definition to_names (tag : list N) (a : altn) : list xnode :=
  if a_active a then
    let n := set_text (lit "name") (a_default a) (put_std (a_std a) (new_node tag)) in
    [set_kids (concat (map (to_str (lit "name")) (a_names a)) ++ concat (map (to_str (lit "display")) (a_display a)) ++
               concat (map (to_str (lit "vendor")) (a_vendors a)) ++ concat (map (to_str (lit "description")) (a_descs a))) n]
  else [].

(** mdalternativename.cpp:120-148 FromXml. *)
Definition read_name_kid (a : altn) (k : xnode) : altn :=
  let '(mkAlt s d ns ds vs es) := a in
  let t := from_str order k mstr0 in
  if is_tag (lit "name") k then mkAlt s d (add_text t ns) ds vs es
  else if is_tag (lit "display") k then mkAlt s d ns (add_text t ds) vs es
  else if is_tag (lit "vendor") k then mkAlt s d ns ds (add_text t vs) es
  else if is_tag (lit "description") k then mkAlt s d ns ds vs (es ++ [t])
  else a.
Definition from_names (n : xnode) (a : altn) : option altn :=
  obind (from_std order n (a_std a)) (fun s =>
    Some (fold_left read_name_kid (x_kids n)
            (mkAlt s (attr_text order (lit "name") n) (a_names a) (a_display a) (a_vendors a) (a_descs a)))).

(* ------------------------------------------------------------------ *)
(** ** Formulas *)

(** mdsyntax.h: text, version, source. *)
Record msyn : Type := mkSyn { y_str : mstr; y_version : list N; y_source : list N }.
Definition syn0 : msyn := mkSyn mstr0 (lit "1.0") [].
Definition y_name (y : msyn) : list N := t_text (y_str y).

(** mdsyntax.cpp:38-52 ToXml, 54-59 FromXml. *)
Definition to_syn (tag : list N) (y : msyn) : xnode :=
  set_value (y_name y) (put_std (t_std (y_str y))
    (let n := set_text (lit "version") (y_version y) (new_node tag) in
     if beq tag (lit "custom_syntax") then set_text (lit "source") (y_source y) n else n)).
Definition from_syn (n : xnode) (y : msyn) : msyn :=
  mkSyn (from_str order n (y_str y)) (attr_text order (lit "version") n) (attr_text order (lit "source") n).

(** mdvariable.h: text, names of channel and group with their sources, array indexes, raw. *)
Record mvar : Type := mkVar {
  v_str : mstr; v_cn : list N; v_cs : list N; v_cp : list N; v_gn : list N; v_gs : list N; v_gp : list N;
  v_index : list N; v_raw : bool
}.
Definition v_name (v : mvar) : list N := t_text (v_str v).
Definition var0 : mvar := mkVar mstr0 [] [] [] [] [] [] [] false.

(** mdvariable.cpp:91-132 ToXml. *)
Fixpoint index_text (l : list N) : list N :=
  match l with
  | [] => []
  | [n] => int_text (Z.of_N n)
  | n :: r => int_text (Z.of_N n) ++ 32 :: index_text r
  end.
Definition to_var (v : mvar) : xnode :=
  let n := set_text (lit "cp") (v_cp v) (set_text (lit "cs") (v_cs v) (set_text (lit "cn") (v_cn v) (new_node (lit "var")))) in
  let n := set_text (lit "gp") (v_gp v) (set_text (lit "gs") (v_gs v) (set_text (lit "gn") (v_gn v) n)) in
  let n := set_text (lit "idx_list_pattern") (index_text (v_index v)) n in
  let n := if v_raw v then set_attr (lit "raw") (lit "true") n else n in
  set_value (v_name v) (put_std (t_std (v_str v)) n).

(** mdvariable.cpp:134-159 FromXml. The indexes are looked for in the attribute "idx"; no digit is
    collected there, so that no index is added: at the first white space std::stoull throws. *)
Definition from_var (n : xnode) (v : mvar) : mvar :=
  mkVar (from_str order n (v_str v)) (attr_text order (lit "cn") n) (attr_text order (lit "cs") n)
    (attr_text order (lit "cp") n) (attr_text order (lit "gn") n) (attr_text order (lit "gs") n)
    (attr_text order (lit "gp") n) (v_index v) (attr_bool order (lit "raw") n).

(** mdformula.h: attributes, syntax, custom syntaxes, variables. *)
Record formula : Type := mkForm { f_std : std; f_syntax : msyn; f_custom : list msyn; f_vars : list mvar }.
Definition form0 : formula := mkForm std0 syn0 [] [].

(** mdformula.cpp:14-16 IsActive. *)
Definition f_active (f : formula) : bool := match y_name (f_syntax f) with [] => false | _ => true end.

(** mdformula.cpp:26-41 AddCustomSyntax, 51-66 AddVariable. *)
Definition add_syn (y : msyn) (f : formula) : formula :=
  match y_name y with [] => f | _ => mkForm (f_std f) (f_syntax f) (emplace y_name y (f_custom f)) (f_vars f) end.
Definition add_var (v : mvar) (f : formula) : formula :=
  match v_name v with [] => f | _ => mkForm (f_std f) (f_syntax f) (f_custom f) (emplace v_name v (f_vars f)) end.

(** mdformula.cpp:76-91 ToXml; nothing for an inactive formula (mdcomment.cpp:148-153). *)
Definition to_formula (f : formula) : list xnode :=
  if f_active f then
    [set_kids (to_syn (lit "syntax") (f_syntax f) :: map (to_syn (lit "custom_syntax")) (f_custom f) ++
               match f_vars f with [] => [] | vs => [set_kids (map to_var vs) (new_node (lit "variables"))] end)
       (put_std (f_std f) (new_node (lit "formula")))]
  else [].

(** mdformula.cpp:93-119 FromXml. *)
Definition read_form_kid (f : formula) (k : xnode) : formula :=
  if is_tag (lit "syntax") k then mkForm (f_std f) (from_syn k (f_syntax f)) (f_custom f) (f_vars f)
  else if is_tag (lit "custom_syntax") k then add_syn (from_syn k syn0) f
  else if is_tag (lit "variables") k then
    fold_left (fun f x => add_var (from_var x var0) f) (filter (is_tag (lit "var")) (x_kids k)) f
  else f.
Definition from_formula (n : xnode) (f : formula) : option formula :=
  obind (from_std order n (f_std f)) (fun s =>
    Some (fold_left read_form_kid (x_kids n) (mkForm s (f_syntax f) (f_custom f) (f_vars f)))).

(* ------------------------------------------------------------------ *)
(** ** Comments *)

(** mdcomment.h: text and common properties, alternative names, formula. *)
Record wcom : Type := mkW { w_md : comment; w_names : altn; w_form : formula }.
Definition wcom0 : wcom := mkW comment0 altn0 form0.
Definition w_tx (c : wcom) : list xnode := to_str (lit "TX") (c_tx (w_md c)).

(** mdcomment.cpp:137-142 ToXml. *)
Definition w_kids (c : wcom) : list xnode :=
  w_tx c ++ to_names (lit "names") (w_names c) ++ to_formula (w_form c) ++ to_common (w_md c).
Definition to_wcom (block : list N) (c : wcom) : xnode := root block (w_kids c).

(** mdcomment.cpp:179-209 FromXml of a root node. *)
Definition w_step (r : option wcom) (k : xnode) : option wcom :=
  obind r (fun c =>
    if is_tag (lit "TX") k then Some (mkW (mkC (from_str order k (c_tx (w_md c))) (c_common (w_md c))) (w_names c) (w_form c))
    else if is_tag (lit "common_properties") k then
      obind (from_list order k (c_common (w_md c))) (fun l => Some (mkW (mkC (c_tx (w_md c)) l) (w_names c) (w_form c)))
    else if is_tag (lit "extensions") k then Some c
    else if is_tag (lit "formula") k then
      obind (from_formula k (w_form c)) (fun f => Some (mkW (w_md c) (w_names c) f))
    else if is_tag (lit "names") k then
      obind (from_names k (w_names c)) (fun a => Some (mkW (w_md c) a (w_form c)))
    else Some c).
Definition from_wcom (n : xnode) (c : wcom) : option wcom := fold_left w_step (x_kids n) (Some c).
Definition describe_w (s : list N) (c : wcom) : wcom := mkW (describe_md s (w_md c)) (w_names c) (w_form c).

(** cncomment.cpp:15-35: the monotony of an axis by its number. *)
Definition mono_texts : list (list N) :=
  [lit "MON_DECREASE"; lit "MON_INCREASE"; lit "STRICT_DECREASE"; lit "STRICT_INCREASE"; lit "MONOTONOUS";
   lit "STRICT_MON"; lit "NOT_MON"].
Definition mono_text (m : N) : list N := nth (N.to_nat m) mono_texts [].
Fixpoint mono_from (i : N) (l : list (list N)) (s : list N) : N :=
  match l with
  | [] => 6
  | t :: r => if beq s t then i else mono_from (i + 1) r s
  end.

(** cncomment.h; cncomment.cpp:37-42 the constructor: addresses are hexadecimal, the raster is decimal. *)
Record cncom : Type := mkCn {
  cn_w : wcom; cn_linker : mstr; cn_laddr : num; cn_mono : option N; cn_raster : num; cn_addr : num
}.
Definition cncom0 : cncom := mkCn wcom0 mstr0 (num0 8) None (num0 1) (num0 8).

(** cncomment.cpp:92-123 ToXml; SetProperty adds a tag, there is none of the name. *)
Definition to_cn (c : cncom) : xnode :=
  root (lit "CN")
    (w_tx (cn_w c) ++ to_names (lit "names") (w_names (cn_w c)) ++ to_str (lit "linker_name") (cn_linker c) ++
     to_num (lit "linker_address") (cn_laddr c) ++
     match cn_mono c with Some m => [set_value (mono_text m) (new_node (lit "axis_monotony"))] | None => [] end ++
     to_num (lit "raster") (cn_raster c) ++ to_formula (w_form (cn_w c)) ++ to_num (lit "address") (cn_addr c) ++
     to_common (w_md (cn_w c))).

(** cncomment.cpp:125-173 FromXml. *)
Definition cn_step (r : option cncom) (k : xnode) : option cncom :=
  obind r (fun c =>
    let '(mkCn w ln la mo ra ad) := c in
    if is_tag (lit "linker_name") k then Some (mkCn w (from_str order k ln) la mo ra ad)
    else if is_tag (lit "linker_address") k then obind (from_num k la) (fun q => Some (mkCn w ln q mo ra ad))
    else if is_tag (lit "axis_monotony") k then
      Some (mkCn w ln la (match value_text k with [] => mo | t => Some (mono_from 0 mono_texts t) end) ra ad)
    else if is_tag (lit "raster") k then obind (from_num k ra) (fun q => Some (mkCn w ln la mo q ad))
    else if is_tag (lit "address") k then obind (from_num k ad) (fun q => Some (mkCn w ln la mo ra q))
    else Some c).
Definition from_cn (n : xnode) (c : cncom) : option cncom :=
  obind (from_wcom n (cn_w c)) (fun w =>
    fold_left cn_step (x_kids n) (Some (mkCn w (cn_linker c) (cn_laddr c) (cn_mono c) (cn_raster c) (cn_addr c)))).
Definition describe_cn (s : list N) (c : cncom) : cncom :=
  mkCn (describe_w s (cn_w c)) (cn_linker c) (cn_laddr c) (cn_mono c) (cn_raster c) (cn_addr c).

(** evcomment.h; evcomment.cpp:48-70 ToXml, 72-113 FromXml. *)
Record evcom : Type := mkEv { ev_w : wcom; ev_pre : num; ev_post : num; ev_timeout : num }.
Definition evcom0 : evcom := mkEv wcom0 (num0 3) (num0 3) (num0 3).
Definition to_ev (c : evcom) : xnode :=
  root (lit "EV")
    (w_tx (ev_w c) ++ to_num (lit "pre_trigger_interval") (ev_pre c) ++ to_num (lit "post_trigger_interval") (ev_post c) ++
     to_formula (w_form (ev_w c)) ++ to_num (lit "timeout") (ev_timeout c) ++ to_common (w_md (ev_w c))).
Definition ev_step (r : option evcom) (k : xnode) : option evcom :=
  obind r (fun c =>
    let '(mkEv w pre post ti) := c in
    if is_tag (lit "pre_trigger_interval") k then obind (from_num k pre) (fun q => Some (mkEv w q post ti))
    else if is_tag (lit "post_trigger_interval") k then obind (from_num k post) (fun q => Some (mkEv w pre q ti))
    else if is_tag (lit "timeout") k then obind (from_num k ti) (fun q => Some (mkEv w pre post q))
    else Some c).
Definition from_ev (n : xnode) (c : evcom) : option evcom :=
  obind (from_wcom n (ev_w c)) (fun w =>
    fold_left ev_step (x_kids n) (Some (mkEv w (ev_pre c) (ev_post c) (ev_timeout c)))).
Definition describe_ev (s : list N) (c : evcom) : evcom :=
  mkEv (describe_w s (ev_w c)) (ev_pre c) (ev_post c) (ev_timeout c).

(** sicomment.h; sicomment.cpp:50-74 ToXml, 76-116 FromXml: the own tags are read first. *)
Record sicom : Type := mkSi { si_w : wcom; si_path : altn; si_bus : altn; si_protocol : mstr }.
Definition sicom0 : sicom := mkSi wcom0 altn0 altn0 mstr0.
Definition to_si (c : sicom) : xnode :=
  root (lit "SI")
    (w_tx (si_w c) ++ to_names (lit "names") (w_names (si_w c)) ++ to_names (lit "path") (si_path c) ++
     to_names (lit "bus") (si_bus c) ++ to_str (lit "protocol") (si_protocol c) ++ to_common (w_md (si_w c))).
Definition si_step (r : option sicom) (k : xnode) : option sicom :=
  obind r (fun c =>
    let '(mkSi w p b t) := c in
    if is_tag (lit "path") k then obind (from_names k p) (fun a => Some (mkSi w a b t))
    else if is_tag (lit "bus") k then obind (from_names k b) (fun a => Some (mkSi w p a t))
    else if is_tag (lit "protocol") k then Some (mkSi w p b (from_str order k t))
    else Some c).
Definition from_si (n : xnode) (c : sicom) : option sicom :=
  obind (fold_left si_step (x_kids n) (Some c)) (fun c =>
    obind (from_wcom n (si_w c)) (fun w => Some (mkSi w (si_path c) (si_bus c) (si_protocol c)))).
Definition describe_si (s : list N) (c : sicom) : sicom :=
  mkSi (describe_w s (si_w c)) (si_path c) (si_bus c) (si_protocol c).

(** ccunit.h, cnunit.cpp: a comment with the name of a unit; ccunit.cpp:38-47 CreateRootNode, 49-65 ToXml,
    67-107 FromXml; [block] is CC or CN. *)
Record unitc : Type := mkUnit { u_w : wcom; u_ref : mstr }.
Definition unitc0 : unitc := mkUnit wcom0 mstr0.
Definition to_unit (block : list N) (c : unitc) : xnode :=
  set_kids
    (w_kids (u_w c) ++
     match t_text (u_ref c) with
     | [] => []
     | t => [set_attr (lit "unit_ref") t (put_std (t_std (u_ref c)) (new_node (lit "ho_unit")))]
     end)
    (new_node (block ++ lit "unit")).
Definition unit_step (r : option unitc) (k : xnode) : option unitc :=
  obind r (fun c =>
    if is_tag (lit "ho_unit") k then
      obind (from_std order k (t_std (u_ref c))) (fun s =>
        Some (mkUnit (u_w c)
                (mkStr s (match trim (attr_text order (lit "unit_ref") k) with [] => trim (value_text k) | t => t end)
                   (t_off (u_ref c)))))
    else Some c).
Definition from_unit (n : xnode) (c : unitc) : option unitc :=
  obind (fold_left unit_step (x_kids n) (Some c)) (fun c =>
    obind (from_wcom n (u_w c)) (fun w => Some (mkUnit w (u_ref c)))).
Definition describe_unit (s : list N) (c : unitc) : unitc := mkUnit (describe_w s (u_w c)) (u_ref c).

End Order.
End Doubles.
