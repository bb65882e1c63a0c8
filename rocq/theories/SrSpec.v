(** Specification vocabulary for sample reductions. *)
From Verif Require Import Base BlockModel DataModel DataSpec.
Local Open Scope N_scope.

(** A record: its data bytes and its invalidation bytes. A reduced sample: the records of the mean,
    minimum and maximum values. *)
Record part : Type := mkPart { p_data : list N; p_inval : list N }.
Record reduced : Type := mkRed { r_mean : part; r_min : part; r_max : part }.
Definition whole (p : part) : list N := p_data p ++ p_inval p.
Definition parts (r : reduced) : list part := [r_mean r; r_min r; r_max r].

(** All records have [dsize] data bytes and [isize] invalidation bytes. *)
Definition sizes_ok (dsize isize : N) (rs : list reduced) : Prop :=
  Forall (fun r => Forall (fun p => N.of_nat (length (p_data p)) = dsize /\ N.of_nat (length (p_inval p)) = isize) (parts r)) rs.

(** The bytes in row order (RD), and in column order (RV and RI). *)
Definition all_parts (rs : list reduced) : list part := concat (map parts rs).
Definition row_bytes (rs : list reduced) : list N := concat (map whole (all_parts rs)).
Definition data_column (rs : list reduced) : list N := concat (map p_data (all_parts rs)).
Definition inval_column (rs : list reduced) : list N := concat (map p_inval (all_parts rs)).

(** An LD block for [n] data blocks, as the standard defines it: the fields of a DL block behind 4 bytes
    of flags. *)
Definition ty_ld : list N := [35; 35; 76; 68].
Definition ld_body (d : dl) (n : nat) : list N :=
  le_bytes 4 (dl_flags d) ++ le_bytes 4 (N.of_nat n)
  ++ (if N.testbit (dl_flags d) 0 then le_bytes 8 (dl_equal d) else numbers n (dl_offs d))
  ++ (if N.testbit (dl_flags d) 1 then numbers n (dl_time d) else [])
  ++ (if N.testbit (dl_flags d) 2 then numbers n (dl_angle d) else [])
  ++ (if N.testbit (dl_flags d) 3 then numbers n (dl_dist d) else []).
(** Data blocks one after the other. *)
Fixpoint put_dblks (ks : list dblk) (f : file) : res (file * list nat) :=
  match ks with
  | [] => Ok (f, [])
  | k :: ks =>
      bind (write_dblk k f) (fun '(f, b) => bind (put_dblks ks f) (fun '(f, ps) => Ok (f, b_pos b :: ps)))
  end.
(** A chain of LD blocks, each with its data blocks, from the last to the first. *)
Fixpoint write_lds (lds : list (dl * list dblk)) (f : file) : res (file * blk) :=
  match lds with
  | [] => Ok (f, mkB 0 [] 0 [])
  | (d, ks) :: r =>
      bind (write_lds r f) (fun '(f, next) =>
      bind (put_dblks ks f) (fun '(f, ps) =>
      write_block4 ty_ld 0 (N.of_nat (b_pos next) :: map N.of_nat ps) (ld_body d (length ks)) f))
  end.

(** The data in the file: one block, a list (DL) block with its blocks, a chain of list (LD) blocks, or a
    header (HL) block before one of them. *)
Inductive storage : Type :=
| OneBlock (k : dblk)
| ListBlock (d : dl) (ks : list dblk)
| LdChain (lds : list (dl * list dblk))
| Headed (flags type : N) (st : storage).
Fixpoint blocks_of (st : storage) : list dblk :=
  match st with
  | OneBlock k => [k]
  | ListBlock _ ks => ks
  | LdChain lds => concat (map snd lds)
  | Headed _ _ st => blocks_of st
  end.
Definition below64 (l : list N) : Prop := Forall (fun o => o < 2 ^ 64) l.
Fixpoint storage_ok (st : storage) : Prop :=
  match st with
  | OneBlock _ => True
  | ListBlock d ks => dl_flags d < 256 /\ dl_equal d < 2 ^ 64 /\ below64 (dl_offs d) /\ N.of_nat (length ks) < 2 ^ 32
  | LdChain lds => lds <> [] /\
      Forall (fun '(d, ks) => dl_flags d < 2 ^ 32 /\ dl_equal d < 2 ^ 64 /\ below64 (dl_offs d) /\ below64 (dl_time d) /\
        below64 (dl_angle d) /\ below64 (dl_dist d) /\ N.of_nat (length (ks : list dblk)) < 2 ^ 32) lds
  | Headed flags type st => flags < 2 ^ 16 /\ type < 256 /\ storage_ok st
  end.
Fixpoint write_storage (st : storage) (f : file) : res (file * blk) :=
  match st with
  | OneBlock k => write_dblk k f
  | ListBlock d ks => write_dl d ks f
  | LdChain lds => write_lds lds f
  | Headed flags type st =>
      bind (write_storage st f) (fun '(f, b) =>
      write_block4 ty_hl 40 [N.of_nat (b_pos b)] (le_bytes 2 flags ++ le_bytes 1 type ++ repeat 0 5) f)
  end.
(** Blocks to go through to the end of the data. *)
Fixpoint steps (st : storage) : nat :=
  match st with
  | OneBlock _ | ListBlock _ _ => 3
  | LdChain lds => 2 + length lds
  | Headed _ _ st => S (steps st)
  end.

(** A block that says it holds data in row order. *)
Definition row_block (k : dblk) : Prop :=
  match k with
  | BRaw ty _ => ty = [35; 35; 82; 68]
  | BZip z => dz_orig_type z = [82; 68]
  end.

(** An SR block, as the standard defines it. *)
Definition ty_sr : list N := [35; 35; 83; 82].
Definition write_sr (nof interval type flags next data : N) (f : file) : res (file * blk) :=
  write_block4 ty_sr 0 [next; data]
    (le_bytes 8 nof ++ le_bytes 8 interval ++ le_bytes 1 type ++ le_bytes 1 flags ++ repeat 0 6) f.

(** An LD block with data blocks and invalidation blocks, as the standard defines it. *)
Definition write_ld (equal : N) (datas invals : list N) (f : file) : res (file * blk) :=
  write_block4 ty_ld 0 (0 :: datas ++ invals)
    (le_bytes 4 (1 + match invals with [] => 0 | _ => 2 ^ 31 end) ++ le_bytes 4 (N.of_nat (length datas)) ++ le_bytes 8 equal) f.
