(** Specification vocabulary for blocks in a file. *)
From Verif Require Import Base BlockModel.
Local Open Scope N_scope.

(** The bytes [bs] are in the file at [pos]. *)
Definition holds (f : file) (pos : nat) (bs : list N) : Prop :=
  (pos + length bs <= length f)%nat /\
  forall i, (i < length bs)%nat -> nth_error f (pos + i) = nth_error bs i.

(** Same bytes, except inside [pos, pos + n). *)
Definition same_outside (f f' : file) (pos n : nat) : Prop :=
  length f' = length f /\
  forall i, (i < pos \/ pos + n <= i)%nat -> nth_error f' i = nth_error f i.

(** Block identifiers as the format has them: four characters, no NUL, not starting or ending with
    white space. *)
Definition type_ok (n : nat) (ty : list N) : Prop :=
  length ty = n /\ ~ In 0 ty /\ is_space (hd 0 ty) = false /\ is_space (last ty 0) = false.

(** Text without NUL that does not start or end with white space. *)
Definition plain_text (s : list N) : Prop :=
  ~ In 0 s /\ (s <> [] -> is_space (hd 0 s) = false /\ is_space (last s 0) = false).

(** A block with these identifier, links and fields is stored at [pos]. *)
Definition block_at (f : file) (pos : nat) (ty : list N) (len : N) (links body : list N) : Prop :=
  holds f pos (ty ++ [0; 0; 0; 0] ++ le_bytes 8 len ++ le_bytes 8 (N.of_nat (length links))
               ++ concat (map (le_bytes 8) links) ++ body).

(** ** Histories of a list of blocks *)

(** One more child (with its further links, its fields and what it appends after itself); write the
    list; something else is appended to the file. *)
Inductive lop : Type :=
| LAdd (ty more body tail : list N)
| LWrite (opt : upd_option)
| LGrow (bs : list N).

Definition new_child (ty more body tail : list N) : child :=
  mkChild (mkB 0 ty 0 (0 :: more)) body tail.

Definition lstate := (file * blk * list child)%type.

Definition lstep (li : nat) (o : lop) (s : lstate) : res lstate :=
  let '(f, parent, cs) := s in
  match o with
  | LAdd ty more body tail => Ok (f, parent, cs ++ [new_child ty more body tail])
  | LWrite opt => write_list opt li parent [] cs f
  | LGrow bs => Ok (f ++ bs, parent, cs)
  end.

Fixpoint lrun (li : nat) (ops : list lop) (s : lstate) : res lstate :=
  match ops with
  | [] => Ok s
  | o :: r => bind (lstep li o s) (lrun li r)
  end.

(** The children added by a history. *)
Fixpoint added (ops : list lop) : list (list N * list N * list N) :=
  match ops with
  | [] => []
  | LAdd ty more body _ :: r => (ty, more, body) :: added r
  | _ :: r => added r
  end.

Definition add_ok (o : lop) : Prop :=
  match o with
  | LAdd ty more _ _ => type_ok 4 ty /\ Forall (fun l => l < 2 ^ 64) more
  | _ => True
  end.

(** The [k]-th link followed when a list is read, as long as it leads to a block. *)
Fixpoint follow (f : file) (l : N) (k : nat) : option N :=
  if pos64 l then
    match read_header4 f (N.to_nat l) with
    | Ok (b, _) => match k with O => Some l | S m => follow f (link b 0) m end
    | _ => None
    end
  else None.

(** ** Sequences of blocks appended to a file *)

Fixpoint write_seq (bs : list (list N * list N * list N)) (f : file) : res (file * list blk) :=
  match bs with
  | [] => Ok (f, [])
  | (ty, links, body) :: r =>
      bind (write_block4 ty 0 links body f) (fun '(f, b) =>
      bind (write_seq r f) (fun '(f, l) => Ok (f, b :: l)))
  end.

(** The characters before the first NUL. *)
Fixpoint cut (s : list N) : list N :=
  match s with
  | [] => []
  | c :: r => if c =? 0 then [] else c :: cut r
  end.

(** What a reader sees of a block: identifier, links after the first, and its own fields. *)
Definition view (f : file) (x : blk * nat) : list N * list N * list N :=
  (b_type (fst x), tl (b_links (fst x)),
   slice (snd x) (N.to_nat (b_len (fst x)) - 24 - 8 * length (b_links (fst x))) f).
