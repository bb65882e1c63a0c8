(** Model of the typed comments: MdStandardAttribute, MdString, MdProperty, MdEnumerate, MdList, MdComment
    and the comments of the file history (FhComment) and the header (HdComment). An application fills
    such an object, sets it at a block (SetHdComment and so on), which stores the XML text of the object,
    and later reads an object from the stored text (GetHdComment).

    The tree of tags and its text are those of XmlModel.v.

    Simplifications: alternative names, formula, extensions and the unit specification are not in the
    objects (they are inactive and not written; such tags are skipped when reading). A map of named
    objects is the list of the objects in the order of their names: the application does not change a
    name after the object was added. Outcome [None] of a reading: an exception that the reading of the
    whole comment catches; what the object holds then is not modelled. *)
From Coq Require Import String.
From Verif Require Import Base BlockModel XmlModel.
Local Open Scope N_scope.
Local Open Scope list_scope.

Definition obind {A B : Type} (r : option A) (f : A -> option B) : option B :=
  match r with Some x => f x | None => None end.

(* ------------------------------------------------------------------ *)
(** ** Maps with text keys *)

(** std::string operator<: the bytes as unsigned numbers. *)
Fixpoint sless (a b : list N) : bool :=
  match a, b with
  | _, [] => false
  | [], _ :: _ => true
  | x :: a', y :: b' => if x <? y then true else if y <? x then false else sless a' b'
  end.

(** std::map::emplace: nothing changes if the key is there. *)
Fixpoint emplace {A : Type} (key : A -> list N) (x : A) (l : list A) : list A :=
  match l with
  | [] => [x]
  | y :: r => if sless (key x) (key y) then x :: l
              else if sless (key y) (key x) then y :: emplace key x r else l
  end.
Definition has_key {A : Type} (key : A -> list N) (k : list N) (l : list A) : bool :=
  existsb (fun x => beq (key x) k) l.

(* ------------------------------------------------------------------ *)
(** ** Attributes *)

(** mdstandardattribute.h: history index, language and custom attributes. *)
Record std : Type := mkStd { s_ci : N; s_lang : list N; s_cust : list (list N * list N) }.
Definition std0 : std := mkStd 0 [] [].

(** std::stoll: white space, a sign, at least one digit; the number fits in 64 bits. *)
Definition stoll (s : list N) : option Z :=
  let t := ltrim s in
  let d := match t with c :: r => if (c =? 45) || (c =? 43) then r else t | [] => [] end in
  match d with
  | c :: _ =>
      if (48 <=? c) && (c <=? 57) then
        let z := read_int t in
        if ((- 2 ^ 63 <=? z) && (z <? 2 ^ 63))%Z then Some z else None
      else None
  | [] => None
  end.
(** std::stoull: the same with the range of an unsigned number; a negative number wraps. *)
Definition stoull (s : list N) : option N :=
  let t := ltrim s in
  let d := match t with c :: r => if (c =? 45) || (c =? 43) then r else t | [] => [] end in
  match d with
  | c :: _ =>
      if (48 <=? c) && (c <=? 57) then
        let z := read_int t in
        if (Z.abs z <? 2 ^ 64)%Z then Some (Z.to_N (z mod 2 ^ 64)) else None
      else None
  | [] => None
  end.
Definition as_u64 (z : Z) : N := Z.to_N (z mod 2 ^ 64).

(** mdstandardattribute.cpp:49-65 AddCustomAttribute. *)
Definition add_custom (k v : list N) (s : std) : std :=
  match trim k with
  | [] => s
  | k' => mkStd (s_ci s) (s_lang s) (emplace fst (k', v) (s_cust s))
  end.

(** mdstandardattribute.cpp:75-86 ToXml. *)
Definition put_std (s : std) (n : xnode) : xnode :=
  fold_left (fun n '(k, v) => set_attr k v n) (s_cust s)
    (set_text (lit "xml:lang") (s_lang s)
       (if 0 <? s_ci s then set_attr (lit "ci") (int_text (Z.of_N (s_ci s))) n else n)).

Section Order.
Context (order : list (list N * list N) -> list (list N * list N)).

(** ixmlnode.cpp:191-199 GetAttributeList: a std::map with the attributes whose key is not empty. *)
Definition attr_map (n : xnode) : list (list N * list N) :=
  fold_left (fun m a => match fst a with [] => m | _ => emplace fst a m end) (order (x_attrs n)) [].

(** mdstandardattribute.cpp:88-103 FromXml: the handler names std::exception_ptr, so the exception of
    std::stoll is not caught here. *)
Definition read_attr (s : std) (a : list N * list N) : option std :=
  let '(k, v) := a in
  if beq k (lit "ci") && negb (beq v []) then
    obind (stoll v) (fun z => Some (mkStd (as_u64 z) (s_lang s) (s_cust s)))
  else if beq k (lit "xml:lang") then Some (mkStd (s_ci s) v (s_cust s))
  else Some (add_custom k v s).
Definition from_std (n : xnode) (s : std) : option std :=
  fold_left (fun r a => obind r (fun s => read_attr s a)) (attr_map n) (Some s).

(* ------------------------------------------------------------------ *)
(** ** Texts *)

(** mdstring.h: attributes, text, offset. *)
Record mstr : Type := mkStr { t_std : std; t_text : list N; t_off : option N }.
Definition mstr0 : mstr := mkStr std0 [] None.

(** mdstring.cpp:78-90 ToXml: the tag that is added to the parent, if any. *)
Definition to_str (tag : list N) (t : mstr) : list xnode :=
  if negb (beq (t_text t) []) || beq tag (lit "TX") then
    let n := put_std (t_std t) (set_value (t_text t) (new_node tag)) in
    [match t_off t with
     | Some o => if beq tag (lit "linker_name") && (0 <? o) then set_attr (lit "offset") (int_text (Z.of_N o)) n else n
     | None => n
     end]
  else [].

(** mdstring.cpp:94-116 FromXml. *)
Definition read_str_attr (t : mstr) (a : list N * list N) : mstr :=
  let '(k, v) := a in
  let s := t_std t in
  if beq k (lit "ci") && negb (beq v []) then
    mkStr (mkStd (match stoll v with Some z => as_u64 z | None => 0 end) (s_lang s) (s_cust s)) (t_text t) (t_off t)
  else if beq k (lit "xml:lang") then mkStr (mkStd (s_ci s) v (s_cust s)) (t_text t) (t_off t)
  else if beq k (lit "offset") then mkStr s (t_text t) (stoull v)
  else mkStr (add_custom k v s) (t_text t) (t_off t).
Definition from_str (n : xnode) (t : mstr) : mstr :=
  let t' := fold_left read_str_attr (attr_map n) t in
  mkStr (t_std t') (value_text n) (t_off t').

(* ------------------------------------------------------------------ *)
(** ** Properties *)

(** mdproperty.h:66-75; the data type is its number (mdproperty.h:17-27). *)
Record mprop : Type := mkProp {
  p_std : std; p_name : list N; p_desc : list N; p_unit : list N; p_ref : list N; p_type : N; p_ro : bool;
  p_value : list N
}.

(** mdproperty.cpp:17-21 kDataTypeList, 119-125 DataTypeToString. *)
Definition type_texts : list (list N) :=
  [lit "string"; lit "decimal"; lit "integer"; lit "float"; lit "boolean"; lit "date"; lit "time"; lit "dateTime";
   lit "integer"].
Definition type_text (t : N) : list N := nth (N.to_nat t) type_texts (lit "string").
(** mdproperty.cpp:127-140 StringToDataType: the first type with the text. *)
Fixpoint type_from (i : N) (l : list (list N)) (s : list N) : N :=
  match l with
  | [] => 0
  | t :: r => if beq s t then i else type_from (i + 1) r s
  end.
Definition read_type (s : list N) : N := match s with [] => 0 | _ => type_from 0 type_texts s end.

(** mdproperty.cpp:80-117 ToXml, at a node with the tag [tag]. *)
Definition to_prop (tag : list N) (p : mprop) : xnode :=
  let n := put_std (p_std p)
    (set_ro (p_ro p) (set_text (lit "unit_ref") (p_ref p) (set_text (lit "unit") (p_unit p)
      (let n := set_text (lit "desc") (p_desc p) (set_text (lit "name") (p_name p) (new_node tag)) in
       if p_type p =? 0 then n else set_attr (lit "type") (type_text (p_type p)) n)))) in
  if is_tag (lit "elist") n then n else set_value (p_value p) n.

(** mdproperty.cpp:142-154 FromXml of a new property. *)
Definition from_prop (n : xnode) : option mprop :=
  obind (from_std n std0) (fun s =>
    Some (mkProp s (attr_text order (lit "name") n) (attr_text order (lit "desc") n) (attr_text order (lit "unit") n)
            (attr_text order (lit "unit_ref") n) (read_type (attr_text order (lit "type") n))
            (attr_bool order (lit "ro") n) (if is_tag (lit "elist") n then [] else value_text n))).

(** mdenumerate.h, mdenumerate.cpp:15-23 ToXml, 25-36 FromXml. *)
Record menum : Type := mkEnum { n_prop : mprop; n_values : list mstr }.
Definition n_name (e : menum) : list N := p_name (n_prop e).
Definition to_enum (e : menum) : xnode :=
  let n := to_prop (lit "elist") (n_prop e) in
  set_kids (x_kids n ++ concat (map (to_str (lit "eli")) (n_values e))) n.
Definition from_enum (n : xnode) : option menum :=
  obind (from_prop n) (fun p =>
    Some (mkEnum p (map (fun k => from_str k mstr0) (filter (is_tag (lit "eli")) (x_kids n))))).

(* ------------------------------------------------------------------ *)
(** ** Lists and trees of properties *)

(** mdlist.h: attributes, name, description and four maps. *)
Inductive mlist : Type :=
| MList (s : std) (name desc : list N) (props : list mprop) (trees lists : list mlist) (enums : list menum).
Definition l_std (l : mlist) : std := let '(MList s _ _ _ _ _ _) := l in s.
Definition l_name (l : mlist) : list N := let '(MList _ n _ _ _ _ _) := l in n.
Definition l_desc (l : mlist) : list N := let '(MList _ _ d _ _ _ _) := l in d.
Definition l_props (l : mlist) : list mprop := let '(MList _ _ _ p _ _ _) := l in p.
Definition l_trees (l : mlist) : list mlist := let '(MList _ _ _ _ t _ _) := l in t.
Definition l_lists (l : mlist) : list mlist := let '(MList _ _ _ _ _ s _) := l in s.
Definition l_enums (l : mlist) : list menum := let '(MList _ _ _ _ _ _ e) := l in e.
Definition mlist0 : mlist := MList std0 [] [] [] [] [] [].

(** mdlist.cpp:71-105 IsDuplicateName. *)
Definition is_dup (name : list N) (l : mlist) : bool :=
  beq name [] || has_key p_name name (l_props l) || has_key l_name name (l_trees l) ||
  has_key l_name name (l_lists l) || has_key n_name name (l_enums l).

(** mdlist.cpp:38-43 AddProperty. *)
Definition add_prop (p : mprop) (l : mlist) : mlist :=
  if is_dup (p_name p) l then l
  else MList (l_std l) (l_name l) (l_desc l) (emplace p_name p (l_props l)) (l_trees l) (l_lists l) (l_enums l).

(** mdlist.cpp:45-55 AddTree: the properties are added to a tree with the same name. *)
Definition add_tree (t : mlist) (l : mlist) : mlist :=
  MList (l_std l) (l_name l) (l_desc l) (l_props l)
    (if has_key l_name (l_name t) (l_trees l)
     then map (fun old => if beq (l_name old) (l_name t) then fold_left (fun o p => add_prop p o) (l_props t) old else old)
            (l_trees l)
     else emplace l_name t (l_trees l))
    (l_lists l) (l_enums l).

(** mdlist.cpp:57-62 AddList, 64-69 AddEnumerate. *)
Definition add_list (t : mlist) (l : mlist) : mlist :=
  if is_dup (l_name t) l then l
  else MList (l_std l) (l_name l) (l_desc l) (l_props l) (l_trees l) (emplace l_name t (l_lists l)) (l_enums l).
Definition add_enum (e : menum) (l : mlist) : mlist :=
  if is_dup (n_name e) l then l
  else MList (l_std l) (l_name l) (l_desc l) (l_props l) (l_trees l) (l_lists l) (emplace n_name e (l_enums l)).

(** mdlist.cpp:15-20 IsActive. *)
Definition l_active (l : mlist) : bool :=
  negb (beq (l_name l) []) || negb (beq (l_desc l) []) ||
  match l_props l, l_trees l, l_lists l, l_enums l with [], [], [], [] => false | _, _, _, _ => true end.

(** mdlist.cpp:223-263 ToXml, at a node with the tag [tag]. *)
Fixpoint to_list (tag : list N) (l : mlist) : xnode :=
  match l with
  | MList s name desc props trees lists enums =>
      let n := new_node tag in
      let n := if beq tag (lit "common_properties") then n
               else put_std s (set_text (lit "desc") desc (set_text (lit "name") name n)) in
      let kids := map (to_prop (lit "e")) props ++ map (to_list (lit "tree")) trees ++
                  map (to_list (lit "list")) lists ++ map to_enum enums in
      if beq tag (lit "list") then set_kids [set_kids kids (new_node (lit "li"))] n else set_kids kids n
  end.

(** mdlist.cpp:268-270, 288-290: attributes, name and description. *)
Definition read_head (n : xnode) (l : mlist) : option mlist :=
  obind (from_std n (l_std l)) (fun s =>
    Some (MList s (attr_text order (lit "name") n) (attr_text order (lit "desc") n) (l_props l) (l_trees l) (l_lists l)
            (l_enums l))).
Definition read_own (n : xnode) (l : mlist) : option mlist :=
  if beq (x_tag n) (lit "common_properties") || beq (x_tag n) (lit "li") then Some l else read_head n l.

(** mdlist.cpp:265-307 FromXml, the loop over the children. *)
Fixpoint read_kids (n : xnode) (l : mlist) : option mlist :=
  match n with
  | XNode _ _ _ kids =>
      fold_left (fun r k => obind r (fun l =>
        if is_tag (lit "e") k then obind (from_prop k) (fun p => Some (add_prop p l))
        else if is_tag (lit "tree") k then
          obind (read_own k mlist0) (fun t => obind (read_kids k t) (fun t => Some (add_tree t l)))
        else if is_tag (lit "list") k then
          obind (read_head k mlist0) (fun t =>
            obind (match k with
                   | XNode _ _ _ lis =>
                       fold_left (fun r li => obind r (fun t =>
                         if is_tag (lit "li") li then obind (read_own li t) (fun t => read_kids li t) else Some t)) lis (Some t)
                   end) (fun t => Some (add_list t l)))
        else if is_tag (lit "elist") k then obind (from_enum k) (fun e => Some (add_enum e l))
        else Some l)) kids (Some l)
  end.
Definition from_list (n : xnode) (l : mlist) : option mlist := obind (read_own n l) (fun l => read_kids n l).

(** mdlist.cpp:139-178 GetProperty: the name of the tree or list before '/' is not compared. *)
Fixpoint after_slash (s : list N) : option (list N) :=
  match s with
  | [] => None
  | c :: r => if c =? 47 then Some r else after_slash r
  end.
Fixpoint first_some {A : Type} (l : list (option A)) : option A :=
  match l with
  | [] => None
  | Some x :: _ => Some x
  | None :: r => first_some r
  end.
Fixpoint get_prop (l : mlist) (name : list N) : option mprop :=
  match l with
  | MList _ _ _ props trees lists _ =>
      match after_slash name with
      | None =>
          match find (fun p => beq (p_name p) name) props with
          | Some p => Some p
          | None => first_some (map (fun t => get_prop t name) trees ++ map (fun t => get_prop t name) lists)
          end
      | Some rest => first_some (map (fun t => get_prop t rest) trees ++ map (fun t => get_prop t rest) lists)
      end
  end.

(* ------------------------------------------------------------------ *)
(** ** Comments *)

(** mdcomment.h: the text and the common properties. *)
Record comment : Type := mkC { c_tx : mstr; c_common : mlist }.
Definition comment0 : comment := mkC mstr0 mlist0.

(** mdcomment.h:94-96, mdlist.h GetPropertyValue<std::string>: the empty text without the property. *)
Definition value_of (c : comment) (name : list N) : list N :=
  match get_prop (c_common c) name with Some p => p_value p | None => [] end.

(** mdcomment.cpp:161-165 ToCommonProp. *)
Definition to_common (c : comment) : list xnode :=
  if l_active (c_common c) then [to_list (lit "common_properties") (c_common c)] else [].

(** mdcomment.cpp:121-131 CreateRootNode and 137-142 ToXml: [block] is the name of the block. *)
Definition root (block : list N) (kids : list xnode) : xnode := set_kids kids (new_node (block ++ lit "comment")).
Definition to_md (block : list N) (c : comment) : xnode := root block (to_str (lit "TX") (c_tx c) ++ to_common c).

(** mdcomment.cpp:179-209 FromXml of a root node. *)
Definition from_md (n : xnode) (c : comment) : option comment :=
  fold_left (fun r k => obind r (fun c =>
    if is_tag (lit "TX") k then Some (mkC (from_str k (c_tx c)) (c_common c))
    else if is_tag (lit "common_properties") k then
      obind (from_list k (c_common c)) (fun l => Some (mkC (c_tx c) l))
    else Some c)) (x_kids n) (Some c).

(** mdcomment.cpp:225-252 FromXml of a text, with the reading [from] of the root node and [describe] for
    a text that is not XML; a text that the parser rejects changes nothing. The same in
    fhcomment.cpp:83-125 and hdcomment.cpp:184-237. *)
Definition from_text {A : Type} (from : xnode -> A -> option A) (describe : list N -> A -> A) (s : list N) (c : A)
  : option A :=
  match s with
  | [] => Some c
  | ch :: _ =>
      if negb (ch =? 60) then Some (describe s c)
      else match parse_string s with
           | (Some n, true) => from n c
           | _ => Some c
           end
  end.
Definition describe_md (s : list N) (c : comment) : comment := mkC (mkStr std0 s None) (c_common c).

(** fhcomment.h, fhcomment.cpp:57-81 ToXml. *)
Record fh : Type := mkFh { fh_md : comment; fh_id : mstr; fh_vendor : mstr; fh_version : mstr; fh_user : mstr }.
Definition fh0 : fh := mkFh comment0 mstr0 mstr0 mstr0 mstr0.
Definition to_fh (c : fh) : xnode :=
  root (lit "FH")
    (to_str (lit "TX") (c_tx (fh_md c)) ++ to_str (lit "tool_id") (fh_id c) ++ to_str (lit "tool_vendor") (fh_vendor c) ++
     to_str (lit "tool_version") (fh_version c) ++ to_str (lit "user_name") (fh_user c) ++ to_common (fh_md c)).

(** fhcomment.cpp:105-121 FromXml. *)
Definition read_fh (c : fh) (k : xnode) : fh :=
  if is_tag (lit "tool_id") k then
    mkFh (fh_md c) (from_str k (fh_id c)) (fh_vendor c) (fh_version c) (fh_user c)
  else if is_tag (lit "tool_vendor") k then
    mkFh (fh_md c) (fh_id c) (from_str k (fh_vendor c)) (fh_version c) (fh_user c)
  else if is_tag (lit "tool_version") k then
    mkFh (fh_md c) (fh_id c) (fh_vendor c) (from_str k (fh_version c)) (fh_user c)
  else if is_tag (lit "user_name") k then
    mkFh (fh_md c) (fh_id c) (fh_vendor c) (fh_version c) (from_str k (fh_user c))
  else c.
Definition from_fh (n : xnode) (c : fh) : option fh :=
  let c := fold_left read_fh (x_kids n) c in
  obind (from_md n (fh_md c)) (fun m => Some (mkFh m (fh_id c) (fh_vendor c) (fh_version c) (fh_user c))).
Definition describe_fh (s : list N) (c : fh) : fh :=
  mkFh (describe_md s (fh_md c)) (fh_id c) (fh_vendor c) (fh_version c) (fh_user c).

(** hdcomment.h; a constant and its expression. *)
Record hdc : Type := mkHdc { hd_md : comment; hd_time : mstr; hd_consts : list (mstr * list N) }.
Definition hdc0 : hdc := mkHdc comment0 mstr0 [].
Definition const_name (x : mstr * list N) : list N := t_text (fst x).

(** hdcomment.cpp:113-127 AddConstant. *)
Definition add_const (x : mstr * list N) (c : hdc) : hdc :=
  match const_name x with
  | [] => c
  | _ => mkHdc (hd_md c) (hd_time c) (emplace const_name x (hd_consts c))
  end.

(** hdcomment.cpp:145-182 ToXml. *)
Definition to_const (x : mstr * list N) : xnode :=
  set_value (snd x) (put_std (t_std (fst x)) (set_attr (lit "name") (const_name x) (new_node (lit "const")))).
Definition to_hd (c : hdc) : xnode :=
  root (lit "HD")
    (to_str (lit "TX") (c_tx (hd_md c)) ++ to_str (lit "time_source") (hd_time c) ++
     match hd_consts c with [] => [] | xs => [set_kids (map to_const xs) (new_node (lit "constants"))] end ++
     to_common (hd_md c)).

(** hdcomment.cpp:206-232 FromXml: MdString::Text trims. *)
Definition from_const (k : xnode) : mstr * list N :=
  let t := from_str k mstr0 in
  (mkStr (t_std t) (trim (attr_text order (lit "name") k)) (t_off t), value_text k).
Definition read_hd (c : hdc) (k : xnode) : hdc :=
  if is_tag (lit "time_source") k then mkHdc (hd_md c) (from_str k (hd_time c)) (hd_consts c)
  else if is_tag (lit "constants") k then
    fold_left (fun c x => add_const (from_const x) c) (filter (is_tag (lit "const")) (x_kids k)) c
  else c.
Definition from_hd (n : xnode) (c : hdc) : option hdc :=
  obind (from_md n (hd_md c)) (fun m => Some (fold_left read_hd (x_kids n) (mkHdc m (hd_time c) (hd_consts c)))).
Definition describe_hd (s : list N) (c : hdc) : hdc := mkHdc (describe_md s (hd_md c)) (hd_time c) (hd_consts c).

End Order.

(* ------------------------------------------------------------------ *)
(** ** Calls of the application *)

(** mdproperty.cpp:26-30 the constructor; mdcomment.cpp:32-51 AddProperty, AddTree, AddList, AddEnumerate. *)
Definition simple_prop (name value : list N) : mprop := mkProp std0 name [] [] [] 0 false value.
Inductive call : Type :=
| AddProperty (p : mprop)
| AddTree (t : mlist)
| AddList (t : mlist)
| AddEnumerate (e : menum).
Definition do_call (l : mlist) (op : call) : mlist :=
  match op with
  | AddProperty p => add_prop p l
  | AddTree t => add_tree t l
  | AddList t => add_list t l
  | AddEnumerate e => add_enum e l
  end.

(** hdcomment.cpp:35-90: the properties of the header by name. *)
Inductive hd_name : Type := HAuthor | HDepartment | HProject | HSubject | HMeasurement | HRecorder.
Definition hd_text (n : hd_name) : list N :=
  match n with
  | HAuthor => lit "author" | HDepartment => lit "department" | HProject => lit "project" | HSubject => lit "subject"
  | HMeasurement => lit "Measurement.UUID" | HRecorder => lit "Recorder.UUID"
  end.
Definition set_hd (n : hd_name) (v : list N) (c : comment) : comment :=
  mkC (c_tx c) (add_prop (simple_prop (hd_text n) v) (c_common c)).
(** hdcomment.cpp:83-103 RecorderFileIndex. *)
Definition set_index (z : Z) (c : comment) : comment :=
  mkC (c_tx c) (add_prop (mkProp std0 (lit "Recorder.FileIndex") [] [] [] 2 false (int_text z)) (c_common c)).
Definition get_index (c : comment) : Z :=
  match value_of c (lit "Recorder.FileIndex") with
  | [] => (-1)%Z
  | v => match stoll v with Some z => z | None => (-1)%Z end
  end.
