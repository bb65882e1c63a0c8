(** Specification vocabulary for the typed comments: which comments an XML text can hold, and when a
    comment that was read is the comment that was set. *)
From Coq Require Import String Sorting.Sorted.
From Verif Require Import Base BlockModel XmlModel XmlSpec CommentModel.
Local Open Scope N_scope.
Local Open Scope list_scope.

(** Texts in increasing order, byte by byte. *)
Inductive text_lt : list N -> list N -> Prop :=
| lt_end : forall c b, text_lt [] (c :: b)
| lt_head : forall x y a b, x < y -> text_lt (x :: a) (y :: b)
| lt_tail : forall x a b, text_lt a b -> text_lt (x :: a) (x :: b).
Definition ascending : list (list N) -> Prop := StronglySorted text_lt.

(** No white space at the ends. *)
Definition tight (s : list N) : Prop := trim s = s.

(** ** Attributes *)

(** The attributes that a property and a list have in XML besides index, language and custom ones. *)
Definition text_attr (k : string) (v : list N) : list (list N * list N) :=
  match v with [] => [] | _ => [(lit k, v)] end.
Definition prop_attrs (p : mprop) : list (list N * list N) :=
  text_attr "name" (p_name p) ++ text_attr "desc" (p_desc p) ++
  (if p_type p =? 0 then [] else [(lit "type", type_text (p_type p))]) ++
  text_attr "unit" (p_unit p) ++ text_attr "unit_ref" (p_ref p) ++
  (if p_ro p then [(lit "ro", lit "true")] else []).
Definition list_attrs (name desc : list N) : list (list N * list N) := text_attr "name" name ++ text_attr "desc" desc.

Definition prop_keys : list (list N) := [lit "name"; lit "desc"; lit "type"; lit "unit"; lit "unit_ref"; lit "ro"].
Definition list_keys : list (list N) := [lit "name"; lit "desc"].
Definition text_keys : list (list N) := [lit "offset"].
Definition const_keys : list (list N) := [lit "name"; lit "offset"].

(** Custom attributes have XML names that differ in more than case; one with a reserved name is there
    only beside the attribute itself. *)
Definition std_ok (reserved : list (list N)) (own : list (list N * list N)) (s : std) : Prop :=
  s_ci s < 2 ^ 63 /\ line_ok (s_lang s) /\
  NoDup (map (fun a => map small (fst a)) (s_cust s)) /\
  Forall (fun a => name_ok (fst a) /\ line_ok (snd a) /\ ~ alike (fst a) (lit "ci") /\ ~ alike (fst a) (lit "xml:lang"))
    (s_cust s) /\
  (forall k v o, In (k, v) (s_cust s) -> In o reserved -> alike k o -> In k (map fst own)).

(** Index and language are kept; the custom attributes are kept, and the own attributes of the tag are
    among the custom attributes too. *)
Definition kept_std (own : list (list N * list N)) (s s' : std) : Prop :=
  s_ci s' = s_ci s /\ s_lang s' = s_lang s /\ ascending (map fst (s_cust s')) /\
  forall k v, In (k, v) (s_cust s') <-> In (k, v) own \/ (In (k, v) (s_cust s) /\ ~ In k (map fst own)).

(** ** Texts and properties *)

Definition str_ok (t : mstr) : Prop := std_ok text_keys [] (t_std t) /\ text_ok (t_text t).
Definition kept_str (t t' : mstr) : Prop :=
  kept_std [] (t_std t) (t_std t') /\ t_text t' = trim (t_text t) /\ t_off t' = None.
(** A text other than the comment itself is not stored if it is empty. *)
Definition kept_opt (t t' : mstr) : Prop := match t_text t with [] => t' = mstr0 | _ => kept_str t t' end.

Definition prop_ok (p : mprop) : Prop :=
  std_ok prop_keys (prop_attrs p) (p_std p) /\ line_ok (p_name p) /\ tight (p_name p) /\ line_ok (p_desc p) /\
  line_ok (p_unit p) /\ line_ok (p_ref p) /\ p_type p <= 8 /\ text_ok (p_value p).

(** Data type 8 is a hexadecimal integer, 2 an integer. *)
Definition kept_type (t : N) : N := if t =? 8 then 2 else t.
Definition kept_as (value : list N) (p p' : mprop) : Prop :=
  kept_std (prop_attrs p) (p_std p) (p_std p') /\ p_name p' = p_name p /\ p_desc p' = trim (p_desc p) /\
  p_unit p' = trim (p_unit p) /\ p_ref p' = trim (p_ref p) /\ p_type p' = kept_type (p_type p) /\ p_ro p' = p_ro p /\
  p_value p' = value.
Definition kept_prop (p p' : mprop) : Prop := kept_as (trim (p_value p)) p p'.

Definition enum_ok (e : menum) : Prop := prop_ok (n_prop e) /\ Forall str_ok (n_values e).
Definition has_text (t : mstr) : bool := match t_text t with [] => false | _ => true end.
Definition kept_enum (e e' : menum) : Prop :=
  kept_as [] (n_prop e) (n_prop e') /\ Forall2 kept_str (filter has_text (n_values e)) (n_values e').

(** ** Lists *)

(** The names in a list: in order, not empty but for trees, and those of lists and enumerates not used
    by the kinds that are stored before them. *)
Definition names_ok (props trees lists enums : list (list N)) : Prop :=
  ascending props /\ ascending trees /\ ascending lists /\ ascending enums /\
  ~ In [] props /\ ~ In [] lists /\ ~ In [] enums /\
  (forall n, In n lists -> ~ In n props /\ ~ In n trees) /\
  (forall n, In n enums -> ~ In n props /\ ~ In n trees /\ ~ In n lists).

Inductive list_ok : mlist -> Prop :=
| list_level : forall s name desc props trees lists enums,
    std_ok list_keys (list_attrs name desc) s -> line_ok name -> tight name -> line_ok desc ->
    names_ok (map p_name props) (map l_name trees) (map l_name lists) (map n_name enums) ->
    Forall prop_ok props -> Forall list_ok trees -> Forall list_ok lists -> Forall enum_ok enums ->
    list_ok (MList s name desc props trees lists enums).

Inductive kept_list : mlist -> mlist -> Prop :=
| kept_level : forall s s' name desc props props' trees trees' lists lists' enums enums',
    kept_std (list_attrs name desc) s s' -> Forall2 kept_prop props props' -> Forall2 kept_list trees trees' ->
    Forall2 kept_list lists lists' -> Forall2 kept_enum enums enums' ->
    kept_list (MList s name desc props trees lists enums) (MList s' name (trim desc) props' trees' lists' enums').

(** ** Comments *)

(** The list of the common properties has no name, description or attributes. *)
Definition comment_ok (c : comment) : Prop :=
  str_ok (c_tx c) /\ list_ok (c_common c) /\
  l_std (c_common c) = std0 /\ l_name (c_common c) = [] /\ l_desc (c_common c) = [].
Definition kept_comment (c c' : comment) : Prop := kept_str (c_tx c) (c_tx c') /\ kept_list (c_common c) (c_common c').

Definition fh_ok (c : fh) : Prop :=
  comment_ok (fh_md c) /\ str_ok (fh_id c) /\ str_ok (fh_vendor c) /\ str_ok (fh_version c) /\ str_ok (fh_user c).
Definition kept_fh (c c' : fh) : Prop :=
  kept_comment (fh_md c) (fh_md c') /\ kept_opt (fh_id c) (fh_id c') /\ kept_opt (fh_vendor c) (fh_vendor c') /\
  kept_opt (fh_version c) (fh_version c') /\ kept_opt (fh_user c) (fh_user c').

Definition const_ok (x : mstr * list N) : Prop :=
  std_ok const_keys [(lit "name", const_name x)] (t_std (fst x)) /\ line_ok (const_name x) /\ tight (const_name x) /\
  text_ok (snd x).
Definition kept_const (x x' : mstr * list N) : Prop :=
  kept_std [(lit "name", const_name x)] (t_std (fst x)) (t_std (fst x')) /\ const_name x' = const_name x /\
  t_off (fst x') = None /\ snd x' = trim (snd x).
Definition hdc_ok (c : hdc) : Prop :=
  comment_ok (hd_md c) /\ str_ok (hd_time c) /\ Forall const_ok (hd_consts c) /\
  ascending (map const_name (hd_consts c)) /\ ~ In [] (map const_name (hd_consts c)).
Definition kept_hd (c c' : hdc) : Prop :=
  kept_comment (hd_md c) (hd_md c') /\ kept_opt (hd_time c) (hd_time c') /\ Forall2 kept_const (hd_consts c) (hd_consts c').

(** A text of the node as it is passed to and returned by the block (the block drops white space at the
    ends). *)
Definition text_of (order : list (list N * list N) -> list (list N * list N)) (n : xnode) (s : list N) : Prop :=
  s = write_string order (Some n) \/ s = trim (write_string order (Some n)).

(** ** Calls *)

Definition call_ok (op : call) : Prop :=
  match op with
  | AddProperty p => prop_ok p
  | AddTree t => list_ok t
  | AddList t => list_ok t
  | AddEnumerate e => enum_ok e
  end.
Definition list_name (op : call) : option (list N) :=
  match op with AddList t => Some (l_name t) | AddEnumerate e => Some (n_name e) | _ => None end.
(** No tree is added with the name of a list or enumerate that was added before. *)
Definition trees_first (ops : list call) : Prop :=
  forall pre t post op, ops = pre ++ AddTree t :: post -> In op pre -> list_name op <> Some (l_name t).

(** The calls for the properties of the header. *)
Inductive hd_call : Type := HSet (n : hd_name) (v : list N) | HIndex (z : Z).
Definition do_hd (c : comment) (op : hd_call) : comment :=
  match op with HSet n v => set_hd n v c | HIndex z => set_index z c end.
Definition hd_call_ok (op : hd_call) : Prop :=
  match op with HSet _ v => text_ok v | HIndex z => (- 2 ^ 63 <= z < 2 ^ 63)%Z end.

(** The first value that a call has set. *)
Fixpoint first_set (n : hd_name) (ops : list hd_call) : list N :=
  match ops with
  | [] => []
  | HSet m v :: r => if beq (hd_text m) (hd_text n) then v else first_set n r
  | _ :: r => first_set n r
  end.
Fixpoint first_index (ops : list hd_call) : Z :=
  match ops with
  | [] => (-1)%Z
  | HIndex z :: _ => z
  | _ :: r => first_index r
  end.
