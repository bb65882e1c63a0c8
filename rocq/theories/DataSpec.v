(** Specification vocabulary for stored data. *)
From Verif Require Import Base BlockModel BlockSpec DataModel.
Local Open Scope N_scope.

(** What is assumed of zlib: inflating a complete compressed stream to a buffer of the original
    size gives the original bytes, and a compressed stream is not empty. *)
Definition zlib_ok (deflate : list N -> list N) (inflate : list N -> nat -> list N) : Prop :=
  forall x, x <> [] -> inflate (deflate x) (length x) = x /\ deflate x <> [].

(** The compressed stream fits the buffer the library provides. *)
Definition fits (deflate : list N -> list N) (x : list N) : Prop :=
  (length (deflate x) <= length x + 100)%nat.

(** The identifiers of the blocks that hold data bytes in place. *)
Definition raw_ids : list (list N) :=
  [[35; 35; 68; 84]; [35; 35; 68; 86]; [35; 35; 68; 73]; [35; 35; 82; 68];
   [35; 35; 82; 86]; [35; 35; 82; 73]; [35; 35; 83; 68]].

(** The block [k] was made from the bytes [x]: a plain block, or a compressed one with zip type
    [t] (0 deflate, 1 transpose and deflate) and parameter [p]. *)
Inductive made_from (deflate : list N -> list N) : dblk -> list N -> Prop :=
| made_raw : forall ty x, In ty raw_ids -> made_from deflate (BRaw ty x) x
| made_zip : forall orig t p x, type_ok 2 orig -> p < 2 ^ 32 ->
    fits deflate (if t =? 1 then transpose (N.to_nat p) x else x) ->
    made_from deflate (BZip (dz_pack deflate orig t p x)) x.

(** ** A block in the file and writes next to it *)

(** The block [b] with a link number [li] is in the file before [lo]. *)
Definition owner_ok (f : file) (b : blk) (li lo : nat) : Prop :=
  (0 < b_pos b)%nat /\ (li < length (b_links b))%nat /\
  (b_pos b + 24 + 8 * length (b_links b) <= lo)%nat /\ (lo <= length f)%nat /\
  holds f (b_pos b) (header_bytes (b_type b) (b_len b) (b_links b)).

(** Bytes before [lo] are kept, except the link number [li] of the block at [p]. *)
Definition quiet (lo p li : nat) (f f' : file) : Prop :=
  (length f <= length f')%nat /\
  forall i, (i < lo)%nat -> ~ (p + 24 + 8 * li <= i < p + 24 + 8 * li + 8)%nat -> nth_error f' i = nth_error f i.

(** ** Locating a stream position *)

(** The entry of a list of start offsets that position [x] belongs to: the last one not above. *)
Fixpoint entry (offs : list N) (x : N) : option nat :=
  match offs with
  | [] => None
  | o :: r => if o <=? x then match entry r x with Some k => Some (S k) | None => Some O end
              else None
  end.

(** Start offsets of consecutive pieces. *)
Fixpoint starts (off : N) (xs : list (list N)) : list N :=
  match xs with
  | [] => []
  | x :: r => off :: starts (off + N.of_nat (length x)) r
  end.

(** ** Histories of one data group written compressed *)

(** A save step that filled these buffers and had this rest; the other writes to the file in
    between: bytes appended, fields rewritten in place. *)
Inductive dop : Type :=
| DStore (full : list (list N)) (rest : list N)
| DGrow (bs : list N)
| DPoke (pos : nat) (bs : list N).

(** The other writes: not behind [lo], not in the block of the data group. *)
Definition poke_ok (lo : nat) (dg0 : blk) (o : dop) : Prop :=
  match o with
  | DPoke pos bs => (pos + length bs <= lo)%nat /\
      (pos + length bs <= b_pos dg0 \/ b_pos dg0 + 24 + 8 * length (b_links dg0) <= pos)%nat
  | _ => True
  end.

Section Run.
Variable deflate : list N -> list N.

Definition dstep (o : dop) (s : store * N) : res (store * N) :=
  let '(st, off) := s in
  match o with
  | DStore full rest =>
      let chunks := step_chunks full rest in
      bind (store_dl (chunks_dl off chunks) (step_blocks deflate full rest) st) (fun st =>
      Ok (st, w64 (off + N.of_nat (length (concat chunks)))))
  | DGrow bs => Ok (mkSt (st_file st ++ bs) (st_dg st) (st_hl st) (st_last st), off)
  | DPoke pos bs => Ok (mkSt (put (st_file st) pos bs) (st_dg st) (st_hl st) (st_last st), off)
  end.

Fixpoint drun (ops : list dop) (s : store * N) : res (store * N) :=
  match ops with
  | [] => Ok s
  | o :: r => bind (dstep o s) (drun r)
  end.
End Run.

(** The chunks of each save step of a history. *)
Fixpoint steps (ops : list dop) : list (list (list N)) :=
  match ops with
  | [] => []
  | DStore full rest :: r => step_chunks full rest :: steps r
  | _ :: r => steps r
  end.

(** ** Signal data *)

(** All pieces but the last have [m] bytes, the last one at most that and at least one. *)
Fixpoint even_cut (m : N) (xs : list (list N)) : Prop :=
  match xs with
  | [] => True
  | [x] => x <> [] /\ N.of_nat (length x) <= m
  | x :: r => N.of_nat (length x) = m /\ even_cut m r
  end.

