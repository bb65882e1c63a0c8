(** Specification vocabulary for the XML of comments and properties: which names and texts an XML
    document can hold, and when two trees of tags say the same. *)
From Coq Require Import String Permutation.
From Verif Require Import Base BlockModel TextSpec XmlModel.
Local Open Scope N_scope.
Local Open Scope list_scope.

(** A name: a letter, '_' or ':' and then letters, digits, '-', '_', '.' or ':'. *)
Definition letter (c : N) : Prop := 65 <= c <= 90 \/ 97 <= c <= 122.
Definition name_ok (s : list N) : Prop :=
  match s with
  | [] => False
  | c :: r => (letter c \/ c = 95 \/ c = 58) /\
      Forall (fun c => letter c \/ 48 <= c <= 57 \/ c = 45 \/ c = 46 \/ c = 95 \/ c = 58) r
  end.

(** A character of an XML document (XML 1.0, production Char) other than a carriage return. *)
Definition xml_cp (cp : N) : Prop :=
  cp = 9 \/ cp = 10 \/ 32 <= cp <= 55295 \/ 57344 <= cp <= 65533 \/ 65536 <= cp <= 1114111.

(** UTF-8 text of such characters; text on one line without tabs. *)
Definition text_ok (s : list N) : Prop := exists cps, Forall xml_cp cps /\ s = utf8_text cps.
Definition line_ok (s : list N) : Prop := exists cps, Forall (fun c => xml_cp c /\ 32 <= c) cps /\ s = utf8_text cps.

(** A tree of tags that an XML document can hold. *)
Inductive node_ok : xnode -> Prop :=
| tag_ok : forall tag attrs value kids, name_ok tag -> NoDup (map fst attrs) ->
    Forall (fun a => name_ok (fst a) /\ line_ok (snd a)) attrs -> text_ok value -> Forall node_ok kids ->
    node_ok (XNode tag attrs value kids).

(** White space only. *)
Definition blank_text (s : list N) : Prop := Forall (fun c => c = 32 \/ c = 10) s.

(** The same tags with the same attributes and, in the tags without children, the same values. *)
Inductive same : xnode -> xnode -> Prop :=
| same_leaf : forall t a a' v, Permutation a a' -> same (XNode t a v []) (XNode t a' v [])
| same_inner : forall t a a' v v' ks ks', ks <> [] -> Permutation a a' -> blank_text v' -> Forall2 same ks ks' ->
    same (XNode t a v ks) (XNode t a' v' ks').

(** An order in which a map lists its entries: every entry once. *)
Definition any_order (order : list (list N * list N) -> list (list N * list N)) : Prop :=
  forall l, Permutation l (order l).

(** ** Properties *)

(** Equal but for upper and lower case of ASCII letters. *)
Definition small (c : N) : N := if (65 <=? c) && (c <=? 90) then c + 32 else c.
Definition alike (a b : list N) : Prop := map small a = map small b.

(** The name of a property that is a tag of its own. *)
Definition tag_name (t : list N) : Prop := name_ok t /\ ~ In 58 t /\ ~ alike t (lit "common_properties").

(** A property with texts that XML can hold; the properties of a tree have names of their own. *)
Definition base_ok (b : ebase) : Prop :=
  line_ok (e_name b) /\ line_ok (e_desc b) /\ line_ok (e_unit b) /\ line_ok (e_ref b) /\ line_ok (e_type b) /\
  line_ok (e_lang b) /\ text_ok (e_value b).
Inductive texts_ok : etag -> Prop :=
| texts_level : forall b tree, base_ok b -> Forall texts_ok tree -> texts_ok (ETag b tree).
Inductive names_differ : etag -> Prop :=
| names_level : forall b tree, NoDup (map (fun e => map small (e_name (e_base e))) tree) ->
    Forall names_differ tree -> names_differ (ETag b tree).

(** What is kept of a property: texts without white space at the ends; a negative creator index means
    that there is none. A tree keeps its name, description and creator index. *)
Definition kept_ci (ci : Z) : Z := if (ci <? 0)%Z then (-1)%Z else ci.
Definition kept_leaf (b : ebase) : ebase :=
  mkE (trim (e_name b)) (trim (e_desc b)) (trim (e_unit b)) (trim (e_ref b)) (trim (e_type b)) (trim (e_lang b))
    (trim (e_value b)) (e_ro b) (kept_ci (e_ci b)).
Definition kept_node (b : ebase) : ebase :=
  mkE (trim (e_name b)) (trim (e_desc b)) [] [] [] [] [] false (kept_ci (e_ci b)).
Definition has_name (e : etag) : bool := match e_name (e_base e) with [] => false | _ => true end.
Fixpoint kept (e : etag) : etag :=
  match e with
  | ETag b [] => ETag (kept_leaf b) []
  | ETag b tree => ETag (kept_node b) (concat (map (fun t => if has_name t then [kept t] else []) tree))
  end.

(** The calls that change the properties of a block, and the state after them. *)
Inductive md_op : Type :=
| SetString (tag value : list N)
| SetCommon (e : etag).
Definition md_step (order : list (list N * list N) -> list (list N * list N)) (s : list N) (op : md_op) : list N :=
  match op with
  | SetString t v => set_string order t v s
  | SetCommon e => set_common order e s
  end.
Definition md_run (order : list (list N * list N) -> list (list N * list N)) (root : list N) (ops : list md_op) : list N :=
  fold_left (md_step order) ops (init_md order root []).

Definition md_op_ok (op : md_op) : Prop :=
  match op with
  | SetString t v => tag_name t /\ text_ok v
  | SetCommon e => texts_ok e
  end.

(** The last value that was set. *)
Inductive last_string (t : list N) : list md_op -> list N -> Prop :=
| ls_none : last_string t [] []
| ls_set : forall ops t' v, alike t t' -> last_string t (ops ++ [SetString t' v]) v
| ls_other : forall ops op v, last_string t ops v ->
    match op with SetString t' _ => ~ alike t t' | _ => True end -> last_string t (ops ++ [op]) v.

Definition sets_common (name : list N) (op : md_op) : Prop :=
  match op with SetCommon e => alike name (e_name (e_base e)) | _ => False end.
Inductive last_common (name : list N) : list md_op -> list N -> Prop :=
| lc_none : last_common name [] []
| lc_set : forall ops b, alike name (e_name b) -> last_common name (ops ++ [SetCommon (ETag b [])]) (e_value b)
| lc_other : forall ops op v, last_common name ops v -> ~ sets_common name op -> last_common name (ops ++ [op]) v.

(** The name is never that of a tree. *)
Definition never_tree (name : list N) (ops : list md_op) : Prop :=
  forall e, In (SetCommon e) ops -> alike name (e_name (e_base e)) -> e_tree e = [].

(** ** The header *)

Inductive hd_op : Type := HdPut (p : hd_prop) (value : list N) | HdIndex (z : Z) | HdDescribe (text : list N).
Definition hd_step (order : list (list N * list N) -> list (list N * list N)) (md : list N) (op : hd_op) : list N :=
  match op with
  | HdPut p v => hd_put order p v md
  | HdIndex z => hd_put_index order z md
  | HdDescribe text => hd_describe order text md
  end.
(** The comment of a new header after the calls. *)
Definition hd_run (order : list (list N * list N) -> list (list N * list N)) (ops : list hd_op) : list N :=
  fold_left (hd_step order) ops [].
Definition hd_op_ok (op : hd_op) : Prop :=
  match op with HdPut _ v => text_ok v | HdIndex _ => True | HdDescribe text => text_ok text end.

(** The last value set by a call that [pick] selects. *)
Definition last_of {A : Type} (pick : hd_op -> option A) (none : A) (ops : list hd_op) : A :=
  fold_left (fun acc op => match pick op with Some v => v | None => acc end) ops none.
Definition hd_prop_eqb (p q : hd_prop) : bool :=
  match p, q with
  | Author, Author | Department, Department | Project, Project | Subject, Subject
  | MeasurementId, MeasurementId | RecorderId, RecorderId => true
  | _, _ => false
  end.
Definition puts (p : hd_prop) (op : hd_op) : option (list N) :=
  match op with HdPut q v => if hd_prop_eqb p q then Some v else None | _ => None end.
Definition describes (op : hd_op) : option (list N) := match op with HdDescribe text => Some text | _ => None end.
Definition indexes (op : hd_op) : option Z := match op with HdIndex z => Some z | _ => None end.
