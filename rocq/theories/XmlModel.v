(** Model of the XML that holds comments, names and properties of the MDF4 blocks: the tree of tags
    (ixmlnode.h, ixmlnode.cpp, xmlnode.cpp), writing it (ixmlnode.cpp:17-44, 140-168), reading it
    (expatxml.cpp), the properties of a block (imetadata.cpp, etag.h) and the properties of the file
    header (hd4block.cpp:25-66, 304-372).

    Strings are lists of bytes.

    Simplifications: the strings hold no NUL, where the code compares C strings; the values of
    properties are strings and integers (no floating point numbers). *)
From Coq Require Import String Ascii DecimalN.
From Verif Require Import Base BlockModel.
Local Open Scope N_scope.

(** A string literal of the code. *)
Definition lit (s : string) : list N := map N_of_ascii (list_ascii_of_string s).
Definition beq (a b : list N) : bool := if list_eq_dec N.eq_dec a b then true else false.

(* ------------------------------------------------------------------ *)
(** ** The tree of tags *)

(** ixmlnode.h:200-221: tag name, attributes, value, children. *)
Inductive xnode : Type :=
| XNode (tag : list N) (attrs : list (list N * list N)) (value : list N) (kids : list xnode).
Definition x_tag (n : xnode) : list N := let '(XNode t _ _ _) := n in t.
Definition x_attrs (n : xnode) : list (list N * list N) := let '(XNode _ a _ _) := n in a.
Definition x_value (n : xnode) : list N := let '(XNode _ _ v _) := n in v.
Definition x_kids (n : xnode) : list xnode := let '(XNode _ _ _ k) := n in k.
Definition set_tag (t : list N) (n : xnode) : xnode := XNode t (x_attrs n) (x_value n) (x_kids n).
Definition set_value (v : list N) (n : xnode) : xnode := XNode (x_tag n) (x_attrs n) v (x_kids n).
Definition set_kids (k : list xnode) (n : xnode) : xnode := XNode (x_tag n) (x_attrs n) (x_value n) k.

(** platform.cpp:14-20 stricmp (strcasecmp in the C locale). *)
Definition lower (c : N) : N := if (65 <=? c) && (c <=? 90) then c + 32 else c.
Definition ieq (a b : list N) : bool := beq (map lower a) (map lower b).

(** strchr(tag_name, ':') + 1. *)
Fixpoint after_colon (s : list N) : option (list N) :=
  match s with
  | [] => None
  | c :: r => if c =? 58 then Some r else after_colon r
  end.

(** ixmlnode.cpp:116-130 IsTagName. *)
Definition is_tag (t : list N) (n : xnode) : bool :=
  ieq t (x_tag n) || match after_colon (x_tag n) with Some r => ieq t r | None => false end.

(** ixmlnode.cpp:132-139 IsAttribute. *)
Definition is_attr (k v : list N) (n : xnode) : bool :=
  existsb (fun '(a, b) => ieq a k && ieq b v) (x_attrs n).

(** ixmlnode.cpp:48-50 and xmlnode.cpp:26: a new node. *)
Definition new_node (t : list N) : xnode := XNode (trim t) [] [] [].

(** ixmlnode.h:276-281, ixmlnode.cpp:214-217 SetAttribute: unordered_map::insert changes nothing if the
    key is there. *)
Definition set_attr (k v : list N) (n : xnode) : xnode :=
  XNode (x_tag n) (if existsb (fun '(a, _) => beq a k) (x_attrs n) then x_attrs n else x_attrs n ++ [(k, v)])
    (x_value n) (x_kids n).

(** A change of the first child that meets [p], or of a new child (find_if, else AddNode). *)
Fixpoint edit_first (p : xnode -> bool) (fresh : xnode) (f : xnode -> xnode) (ks : list xnode) : list xnode :=
  match ks with
  | [] => [f fresh]
  | k :: r => if p k then f k :: r else k :: edit_first p fresh f r
  end.

(** ixmlnode.cpp:62-69 AddUniqueNode(name), followed by the change [f] of the node returned. *)
Definition edit_kid (t : list N) (f : xnode -> xnode) (n : xnode) : xnode :=
  set_kids (edit_first (is_tag t) (new_node t) f (x_kids n)) n.

(** ixmlnode.cpp:71-85 AddUniqueNode(name, key, attr). *)
Definition edit_named (t k v : list N) (f : xnode -> xnode) (n : xnode) : xnode :=
  set_kids (edit_first (fun c => is_tag t c && is_attr k v c) (set_attr k v (new_node t)) f (x_kids n)) n.

(** ixmlnode.cpp:91-106 GetNode. *)
Definition get_node (t : list N) (n : xnode) : option xnode := find (is_tag t) (x_kids n).
Definition get_named (t k v : list N) (n : xnode) : option xnode :=
  find (fun c => is_tag t c && is_attr k v c) (x_kids n).

(** ixmlnode.h:305-309 Value<std::string>. *)
Definition value_text (n : xnode) : list N := trim (x_value n).

(* ------------------------------------------------------------------ *)
(** ** Numbers and flags as text *)

Fixpoint uint_bytes (d : Decimal.uint) : list N :=
  match d with
  | Decimal.Nil => []
  | Decimal.D0 r => 48 :: uint_bytes r | Decimal.D1 r => 49 :: uint_bytes r
  | Decimal.D2 r => 50 :: uint_bytes r | Decimal.D3 r => 51 :: uint_bytes r
  | Decimal.D4 r => 52 :: uint_bytes r | Decimal.D5 r => 53 :: uint_bytes r
  | Decimal.D6 r => 54 :: uint_bytes r | Decimal.D7 r => 55 :: uint_bytes r
  | Decimal.D8 r => 56 :: uint_bytes r | Decimal.D9 r => 57 :: uint_bytes r
  end.

(** ostream << int. *)
Definition int_text (z : Z) : list N :=
  (if (z <? 0)%Z then [45] else []) ++ uint_bytes (N.to_uint (Z.abs_N z)).

(** istream >> int of a trimmed text: an optional sign and the digits; 0 without digits.
    Simplification: a number that does not fit is not limited. *)
Fixpoint digits_uint (s : list N) : Decimal.uint :=
  match s with
  | [] => Decimal.Nil
  | c :: r =>
      if c =? 48 then Decimal.D0 (digits_uint r) else if c =? 49 then Decimal.D1 (digits_uint r)
      else if c =? 50 then Decimal.D2 (digits_uint r) else if c =? 51 then Decimal.D3 (digits_uint r)
      else if c =? 52 then Decimal.D4 (digits_uint r) else if c =? 53 then Decimal.D5 (digits_uint r)
      else if c =? 54 then Decimal.D6 (digits_uint r) else if c =? 55 then Decimal.D7 (digits_uint r)
      else if c =? 56 then Decimal.D8 (digits_uint r) else if c =? 57 then Decimal.D9 (digits_uint r)
      else Decimal.Nil
  end.
Definition read_int (s : list N) : Z :=
  match s with
  | c :: r => if c =? 45 then (- Z.of_N (N.of_uint (digits_uint r)))%Z
              else if c =? 43 then Z.of_N (N.of_uint (digits_uint r))
              else Z.of_N (N.of_uint (digits_uint s))
  | [] => 0%Z
  end.

(** ixmlnode.h:237-252 Attribute<bool>. *)
Definition read_bool (s : list N) : bool :=
  ieq s (lit "1") || ieq s (lit "ON") || ieq (firstn 1 s) (lit "T") || ieq (firstn 1 s) (lit "Y").

(* ------------------------------------------------------------------ *)
(** ** Writing *)

(** ixmlnode.cpp:17-44 XmlString. *)
Definition esc (c : N) : list N :=
  if c =? 60 then lit "&lt;"
  else if c =? 62 then lit "&gt;"
  else if c =? 38 then lit "&amp;"
  else if c =? 34 then lit "&quot;"
  else if c =? 39 then lit "&apos;"
  else [c].
Definition escape (s : list N) : list N := concat (map esc s).

Definition indent (level : nat) : list N := repeat 32 (2 * level).

(** The order in which an unordered_map lists its entries is not specified: it is a parameter. *)
Section Order.
Context (order : list (list N * list N) -> list (list N * list N)).

Definition attr_bytes (a : list N * list N) : list N := 32 :: fst a ++ [61; 39] ++ escape (snd a) ++ [39].

(** ixmlnode.cpp:140-168 Write. *)
Fixpoint write (level : nat) (n : xnode) : list N :=
  match n with
  | XNode tag attrs value kids =>
      indent level ++ 60 :: tag ++ concat (map attr_bytes (order attrs)) ++
      match kids, value with
      | [], [] => [47; 62; 10]
      | [], _ => 62 :: escape value ++ [60; 47] ++ tag ++ [62; 10]
      | _, _ => [62; 10] ++ concat (map (write (S level)) kids) ++ indent level ++ [60; 47] ++ tag ++ [62; 10]
      end
  end.

(** ixmlfile.cpp:97-127 WriteString(true). *)
Definition write_string (root : option xnode) : list N :=
  match root with Some n => write 0 n | None => [] end.

(** ixmlnode.h:224-236, 254-265 Attribute: the first attribute with the key, in any case. *)
Definition attribute (k : list N) (n : xnode) : option (list N) :=
  match find (fun '(a, _) => ieq a k) (order (x_attrs n)) with
  | Some (_, v) => Some (trim v)
  | None => None
  end.
Definition attr_text (k : list N) (n : xnode) : list N :=
  match attribute k n with Some v => v | None => [] end.
Definition attr_int (k : list N) (d : Z) (n : xnode) : Z :=
  match attribute k n with Some v => read_int v | None => d end.
Definition attr_bool (k : list N) (n : xnode) : bool :=
  match attribute k n with Some v => read_bool v | None => false end.

(* ------------------------------------------------------------------ *)
(** ** Reading: the Expat parser *)

(** The tokens of XML 1.0 as the Expat parser reads them, for documents without declaration,
    processing instructions, comments, CDATA sections, document type and numeric character
    references: these end the reading here. Names are ASCII. *)
Definition name_start (c : N) : bool :=
  ((65 <=? c) && (c <=? 90)) || ((97 <=? c) && (c <=? 122)) || (c =? 95) || (c =? 58).
Definition name_char (c : N) : bool :=
  name_start c || ((48 <=? c) && (c <=? 57)) || (c =? 45) || (c =? 46).
Fixpoint span_name (s : list N) : list N * list N :=
  match s with
  | [] => ([], [])
  | c :: r => if name_char c then let '(n, t) := span_name r in (c :: n, t) else ([], s)
  end.
Definition read_name (s : list N) : option (list N * list N) :=
  match s with
  | c :: _ => if name_start c then Some (span_name s) else None
  | [] => None
  end.

Definition blank (c : N) : bool := (c =? 32) || (c =? 9) || (c =? 10) || (c =? 13).
Fixpoint skip_ws (s : list N) : list N :=
  match s with
  | c :: r => if blank c then skip_ws r else s
  | [] => []
  end.

Fixpoint strip (p s : list N) : option (list N) :=
  match p, s with
  | [], _ => Some s
  | a :: p', b :: s' => if a =? b then strip p' s' else None
  | _, [] => None
  end.

Definition entity (s : list N) : option (list N * list N) :=
  match strip (lit "lt;") s with Some r => Some ([60], r) | None =>
  match strip (lit "gt;") s with Some r => Some ([62], r) | None =>
  match strip (lit "amp;") s with Some r => Some ([38], r) | None =>
  match strip (lit "quot;") s with Some r => Some ([34], r) | None =>
  match strip (lit "apos;") s with Some r => Some ([39], r) | None => None end end end end end.

(** One character: UTF-8 without overlong forms, surrogates, U+FFFE and U+FFFF; the end of a line is
    always a line feed. *)
Definition cont (c : N) : bool := (128 <=? c) && (c <=? 191).
Definition xchar (s : list N) : option (list N * list N) :=
  match s with
  | [] => None
  | a :: r =>
      if a <? 128 then
        if a =? 13 then Some ([10], match r with b :: t => if b =? 10 then t else r | [] => r end)
        else if (a =? 9) || (a =? 10) || (32 <=? a) then Some ([a], r) else None
      else match r with
      | b :: r2 =>
          if (194 <=? a) && (a <=? 223) then if cont b then Some ([a; b], r2) else None
          else match r2 with
          | c :: r3 =>
              if (224 <=? a) && (a <=? 239) then
                if cont b && cont c && negb ((a =? 224) && (b <? 160)) && negb ((a =? 237) && (159 <? b))
                   && negb ((a =? 239) && (b =? 191) && (189 <? c))
                then Some ([a; b; c], r3) else None
              else match r3 with
              | d :: r4 =>
                  if (240 <=? a) && (a <=? 244) && cont b && cont c && cont d
                     && negb ((a =? 240) && (b <? 144)) && negb ((a =? 244) && (143 <? b))
                  then Some ([a; b; c; d], r4) else None
              | [] => None
              end
          | [] => None
          end
      | [] => None
      end
  end.

(** The value of an attribute up to the quote [q]: white space is a blank. *)
Fixpoint attr_value (fuel : nat) (q : N) (s : list N) : option (list N * list N) :=
  match fuel, s with
  | S fuel, c :: r =>
      if c =? q then Some ([], r)
      else if c =? 60 then None
      else
        match (if c =? 38 then entity r else
               match xchar s with
               | Some (b, t) => Some (if blank (List.hd 0 b) then [32] else b, t)
               | None => None
               end) with
        | Some (b, t) =>
            match attr_value fuel q t with
            | Some (v, t2) => Some (b ++ v, t2)
            | None => None
            end
        | None => None
        end
  | _, _ => None
  end.

(** The attributes and the end of a start tag: attributes, "/>" rather than ">", the rest. *)
Fixpoint attr_list (fuel : nat) (s : list N) : option (list (list N * list N) * bool * list N) :=
  match fuel, skip_ws s with
  | S fuel, c :: r =>
      if c =? 62 then Some ([], false, r)
      else if c =? 47 then
        match r with d :: t => if d =? 62 then Some ([], true, t) else None | [] => None end
      else if negb (blank (List.hd 0 s)) then None
      else
        match read_name (c :: r) with
        | Some (n, t) =>
            match skip_ws t with
            | e :: t1 =>
                if e =? 61 then
                  match skip_ws t1 with
                  | q :: t2 =>
                      if (q =? 39) || (q =? 34) then
                        match attr_value (List.length t2) q t2 with
                        | Some (v, t3) =>
                            match attr_list fuel t3 with
                            | Some (l, e, t4) =>
                                if existsb (fun '(a, _) => beq a n) l then None else Some ((n, v) :: l, e, t4)
                            | None => None
                            end
                        | None => None
                        end
                      else None
                  | [] => None
                  end
                else None
            | [] => None
            end
        | None => None
        end
  | _, _ => None
  end.

(** The handlers called, in order, and whether the whole document was read. [open]: the tags not yet
    closed; [seen]: the root was closed. *)
Inductive event : Type :=
| EStart (tag : list N) (attrs : list (list N * list N)) | EEnd | EText (s : list N).

Definition emit (e : list event) (r : list event * bool) : list event * bool := (e ++ fst r, snd r).

Fixpoint lex (fuel : nat) (open : list (list N)) (seen : bool) (s : list N) : list event * bool :=
  match fuel with
  | O => ([], false)
  | S fuel =>
      match s with
      | [] => ([], match open with [] => seen | _ => false end)
      | c :: r =>
          if c =? 60 then
            match r with
            | d :: t =>
                if d =? 47 then
                  match read_name t with
                  | Some (n, t1) =>
                      match skip_ws t1, open with
                      | e :: t2, o :: os =>
                          if (e =? 62) && beq n o then
                            emit [EEnd] (lex fuel os (match os with [] => true | _ => seen end) t2)
                          else ([], false)
                      | _, _ => ([], false)
                      end
                  | None => ([], false)
                  end
                else if match open with [] => seen | _ => false end then ([], false)
                else
                  match read_name r with
                  | Some (n, t1) =>
                      match attr_list (List.length r) t1 with
                      | Some (l, true, t2) =>
                          emit [EStart n l; EEnd] (lex fuel open (match open with [] => true | _ => seen end) t2)
                      | Some (l, false, t2) => emit [EStart n l] (lex fuel (n :: open) seen t2)
                      | None => ([], false)
                      end
                  | None => ([], false)
                  end
            | [] => ([], false)
            end
          else
            match open with
            | [] => if blank c then lex fuel open seen r else ([], false)
            | _ =>
                match strip (lit "]]>") s with
                | Some _ => ([], false)
                | None =>
                    match (if c =? 38 then entity r else xchar s) with
                    | Some (b, t) => emit [EText b] (lex fuel open seen t)
                    | None => ([], false)
                    end
                end
            end
      end
  end.

(* ------------------------------------------------------------------ *)
(** ** Reading: the handlers *)

(** expatxml.cpp:73-101: the nodes that are open, the innermost first, and the root. A node is added to
    its parent when it starts; here when it is closed, which gives the same tree: the nodes that are
    open at an error are closed by [close_all]. *)
Definition add_kid (k n : xnode) : xnode := set_kids (x_kids n ++ [k]) n.
Definition on_event (st : option xnode * list xnode) (e : event) : option xnode * list xnode :=
  let '(root, stack) := st in
  match e with
  | EStart t l => (root, XNode (trim t) l [] [] :: stack)
  | EText b =>
      match stack with
      | n :: r => (root, set_value (x_value n ++ b) n :: r)
      | [] => (root, stack)
      end
  | EEnd =>
      match stack with
      | n :: p :: r => (root, add_kid n p :: r)
      | [n] => (match root with None => Some n | _ => root end, [])
      | [] => (root, [])
      end
  end.
Fixpoint close_all (n : xnode) (stack : list xnode) : xnode :=
  match stack with
  | [] => n
  | p :: r => close_all (add_kid n p) r
  end.

(** expatxml.cpp:149-164 ParseString: the root (also after an error) and the result. *)
Definition parse_string (s : list N) : option xnode * bool :=
  let '(es, ok) := lex (S (List.length s)) [] false s in
  let '(root, stack) := fold_left on_event es (None, []) in
  (match root, stack with
   | Some n, _ => Some n
   | None, n :: r => Some (close_all n r)
   | None, [] => None
   end, ok).

(* ------------------------------------------------------------------ *)
(** ** The properties of a block *)

(** ixmlfile.cpp:62-69 RootName(name). *)
Definition root_name (t : list N) (root : option xnode) : xnode :=
  match root with Some n => set_tag t n | None => new_node t end.

(** imetadata.cpp:85-95 InitMd. *)
Definition init_md (name snippet : list N) : list N :=
  let root := match snippet with [] => None | _ => fst (parse_string snippet) end in
  write_string (Some (edit_kid (lit "TX") (fun n => n) (root_name name root))).

(** imetadata.cpp:97-103 StringProperty(tag, value); ixmlfile.h: nothing without a root. *)
Definition set_string (tag value snippet : list N) : list N :=
  write_string (option_map (edit_kid tag (set_value value)) (fst (parse_string snippet))).

(** imetadata.cpp:105-119 StringProperty(tag). *)
Definition get_string (tag snippet : list N) : list N :=
  match parse_string snippet with
  | (Some n, true) => match get_node tag n with Some c => value_text c | None => [] end
  | _ => []
  end.

(** etag.h: a property, or a tree of properties. *)
Record ebase : Type := mkE {
  e_name : list N; e_desc : list N; e_unit : list N; e_ref : list N; e_type : list N; e_lang : list N;
  e_value : list N; e_ro : bool; e_ci : Z
}.
Inductive etag : Type := ETag (b : ebase) (tree : list etag).
Definition e_base (e : etag) : ebase := let '(ETag b _) := e in b.
Definition e_tree (e : etag) : list etag := let '(ETag _ l) := e in l.

Definition set_text (k v : list N) (n : xnode) : xnode := match v with [] => n | _ => set_attr k v n end.
Definition set_ci (ci : Z) (n : xnode) : xnode :=
  if (0 <=? ci)%Z then set_attr (lit "ci") (int_text ci) n else n.
Definition set_ro (ro : bool) (n : xnode) : xnode :=
  if ro then set_attr (lit "ro") (lit "true") n else n.

(** imetadata.cpp:12-55 InsertETag. *)
Definition put_leaf (b : ebase) (n : xnode) : xnode :=
  set_value (e_value b)
    (set_text (lit "unit_ref") (e_ref b) (set_text (lit "unit") (e_unit b) (set_ro (e_ro b)
      (set_text (lit "xml:lang") (e_lang b) (set_text (lit "type") (e_type b) (set_ci (e_ci b)
        (set_text (lit "desc") (e_desc b) n))))))).
Fixpoint insert_etag (e : etag) (root : xnode) : xnode :=
  match e with
  | ETag b tree =>
      match e_name b with
      | [] => root
      | _ =>
          match tree with
          | [] => edit_named (lit "e") (lit "name") (e_name b) (put_leaf b) root
          | _ =>
              edit_named (lit "tree") (lit "name") (e_name b)
                (fun n => fold_left (fun n t => insert_etag t n) tree
                            (set_ci (e_ci b) (set_text (lit "desc") (e_desc b) n))) root
          end
      end
  end.

(** imetadata.cpp:57-80 FetchETag. *)
Definition fetch_base (n : xnode) : ebase :=
  mkE (attr_text (lit "name") n) (attr_text (lit "desc") n) (attr_text (lit "unit") n)
    (attr_text (lit "unit_ref") n) (attr_text (lit "type") n) (attr_text (lit "xml:lang") n)
    (value_text n) (attr_bool (lit "ro") n) (attr_int (lit "ci") (-1) n).
Definition is_etag (n : xnode) : bool := is_tag (lit "e") n || is_tag (lit "tree") n.
Fixpoint fetch_etag (n : xnode) : etag :=
  match n with
  | XNode _ _ _ kids =>
      ETag (fetch_base n) (concat (map (fun c => if is_etag c then [fetch_etag c] else []) kids))
  end.

(** imetadata.cpp:136-145, 165-175 CommonProperty(tag), CommonProperties(list): without a root the code
    makes one with the empty name (RootName("")). *)
Definition set_commons (es : list etag) (snippet : list N) : list N :=
  let root := fst (parse_string snippet) in
  let name := match root with Some n => x_tag n | None => [] end in
  write_string (Some (edit_kid (lit "common_properties") (fun c => fold_left (fun c e => insert_etag e c) es c)
                        (root_name name root))).
Definition set_common (e : etag) (snippet : list N) : list N := set_commons [e] snippet.

(** imetadata.cpp:147-162 CommonProperty(name). *)
Definition no_etag : etag := ETag (mkE [] [] [] [] [] [] [] false (-1)) [].
Definition get_common (name snippet : list N) : etag :=
  match fst (parse_string snippet) with
  | Some n =>
      match get_node (lit "common_properties") n with
      | Some c =>
          match get_named (lit "tree") (lit "name") name c, get_named (lit "e") (lit "name") name c with
          | Some t, _ => fetch_etag t
          | None, Some t => fetch_etag t
          | None, None => no_etag
          end
      | None => no_etag
      end
  | None => no_etag
  end.

(** imetadata.cpp:198-220 CommonProperties(). *)
Definition get_commons (snippet : list N) : list etag :=
  match fst (parse_string snippet) with
  | Some n =>
      match get_node (lit "common_properties") n with
      | Some c => concat (map (fun k => if is_etag k then [fetch_etag k] else []) (x_kids c))
      | None => []
      end
  | None => []
  end.

(* ------------------------------------------------------------------ *)
(** ** The properties of the file header *)

(** hd4block.cpp:42-64 SetCommonProperty, with the type of the value; the comment block holds the text
    [md] ([]: no comment block), which is trimmed (tx4block.cpp:93-97). *)
Definition hd_root (md : list N) : xnode :=
  root_name (lit "HDcomment") (match md with [] => None | _ => fst (parse_string (trim md)) end).
Definition hd_set (key type value md : list N) : list N :=
  write_string (Some
    (edit_kid (lit "common_properties")
       (edit_named (lit "e") (lit "name") key (fun n => set_value value (set_attr (lit "type") type n)))
       (edit_kid (lit "TX") (fun n => n) (hd_root md)))).

(** hd4block.cpp:25-40 GetCommonProperty: [] for a comment that is no XML. md4block.cpp:270-277: the
    comment is XML if it starts with '<'. *)
Definition hd_get (key md : list N) : list N :=
  match md with
  | c :: _ =>
      if c =? 60 then
        match fst (parse_string (trim md)) with
        | Some n =>
            match get_node (lit "common_properties") n with
            | Some p => match get_named (lit "e") (lit "name") key p with Some e => value_text e | None => [] end
            | None => []
            end
        | None => []
        end
      else []
  | [] => []
  end.

(** hd4block.cpp:336-345 Description(text), md4block.cpp:287-305 TxComment(). *)
Definition hd_describe (text md : list N) : list N :=
  write_string (Some (edit_kid (lit "TX") (set_value text) (hd_root md))).
Definition hd_description (md : list N) : list N :=
  match md with
  | [] => []
  | c :: _ =>
      if c =? 60 then
        match parse_string md with
        | (Some n, true) => match get_node (lit "TX") n with Some e => value_text e | None => [] end
        | (None, true) => []
        | (_, false) => md
        end
      else trim md
  end.

(** hd4block.cpp:306-372: the properties of the header with a setter and a getter of their own. *)
Inductive hd_prop : Type := Author | Department | Project | Subject | MeasurementId | RecorderId.
Definition hd_key (p : hd_prop) : list N :=
  match p with
  | Author => lit "author"
  | Department => lit "department"
  | Project => lit "project"
  | Subject => lit "subject"
  | MeasurementId => lit "Measurement.UUID"
  | RecorderId => lit "Recorder.UUID"
  end.
Definition hd_put (p : hd_prop) (value md : list N) : list N := hd_set (hd_key p) (lit "string") value md.
Definition hd_prop_text (p : hd_prop) (md : list N) : list N := hd_get (hd_key p) md.

(** hd4block.cpp:366-372 RecorderIndex, ixmlnode.h Value<int64_t>: 0 without the property. *)
Definition hd_put_index (z : Z) (md : list N) : list N :=
  hd_set (lit "Recorder.FileIndex") (lit "integer") (int_text z) md.
Definition hd_index (md : list N) : Z :=
  match hd_get (lit "Recorder.FileIndex") md with [] => 0%Z | v => read_int v end.

End Order.
