(** Model of the file of a compressed measurement when the process stops in the middle of a call: the
    writes of each call of CompModel.v in the order in which they reach the file. The simplifications
    are those of CutModel.v: the writes reach the file in the order of the calls to the stream, and a
    number that is rewritten in place is one write. *)
From Verif Require Import Base BlockModel MetaModel IdentModel DataModel QueueModel MeasModel CutModel CompModel.
Local Open Scope N_scope.

(** mdfblock.cpp:622-690: a new block at the end of a file of [n] bytes, byte by byte. The size in the
    header is set before the header is written and is not changed later. *)
Definition new_block (ty : list N) (len : N) (links body : list N) : list N := header_bytes ty len links ++ body.
Definition block_steps (n : nat) (x : list N) : list (nat * list N) := appended n (repeat 0 (pad8 n) ++ x).
Definition block_end (n : nat) (x : list N) : nat := (n + pad8 n + length x)%nat.

(** writer4samplequeue.cpp:333-346 SetLastPosition of the data group at [p] with data link [l], the
    file has [n] bytes. *)
Definition last_steps (p : nat) (l : N) (n : nat) : list (nat * list N) :=
  if l =? 0 then
    appended n (repeat 0 (pad8 n)) ++ [(p + 24 + 8 * 2, le_bytes 8 (N.of_nat (n + pad8 n)))]%nat
  else [].

(** hl4block.cpp:67-76 Hl4Block::Write of a new block. *)
Definition hl_new : list N := new_block ty_hl 40 [0] (le_bytes 2 0 ++ le_bytes 1 0 ++ repeat 0 5).

(** datalistblock.cpp:170-184 WriteBlockList: each data block, then the link to it in the DL block at
    [p], from link [i] on. *)
Fixpoint dblks_steps (p i n : nat) (ks : list dblk) : list (nat * list N) :=
  match ks with
  | [] => []
  | k :: r =>
      let '(ty, len, body) := dblk_parts k in
      let x := new_block ty len [] body in
      block_steps n x ++ [(p + 24 + 8 * i, le_bytes 8 (N.of_nat (n + pad8 n)))]%nat
        ++ dblks_steps p (S i) (block_end n x) r
  end.

(** dl4block.cpp:63-131 Dl4Block::Write of a new block. *)
Definition dl_new (d : dl) (n : nat) : list N := new_block ty_dl (dl_length d n) (repeat 0 (1 + n)) (dl_body d n).
Definition dl_steps (n : nat) (d : dl) (ks : list dblk) : list (nat * list N) :=
  let x := dl_new d (length ks) in
  block_steps n x ++ dblks_steps (n + pad8 n) 1 (block_end n x) ks.

Section Cut.
Context (deflate : list N -> list N).

(** writer4samplequeue.cpp:158-331 CleanQueueCompressed: SetLastPosition (184), then Dg4Block::Write
    (dg4block.cpp:112-157) writes the counters, the HL block if it is new, the DL block with its data
    blocks, and last the link to the DL block in the block before it (mdfblock.h WriteLink4List). *)
Definition store_steps (k : nat) (full : list (list N)) (rest : list N) (e : enc) (m : cmeas) : list (nat * list N) :=
  match nth_error (c_places m) k, nth_error (h_dgs (c_hd m)) k with
  | Some (p, cgs), Some d =>
      let st := find_st k (c_sts m) in
      let n := length (c_file m) in
      let s1 := last_steps p (d_link d) n in
      let n1 := if d_link d =? 0 then (n + pad8 n)%nat else n in
      let '(s2, n2, hl) := match st with
                           | Some s => ([], n1, b_pos (k_hl s))
                           | None => (block_steps n1 hl_new, block_end n1 hl_new, (n1 + pad8 n1)%nat)
                           end in
      let off := match st with Some s => k_off s | None => 0 end in
      let before := match st with Some (mkC _ (Some last) _) => b_pos last | _ => hl end in
      s1 ++ dg_writes cgs (count_dg e d) ++ s2
        ++ dl_steps n2 (chunks_dl off (step_chunks full rest)) (step_blocks deflate full rest)
        ++ [(before + 24, le_bytes 8 (N.of_nat (n2 + pad8 n2)))]%nat
  | _, _ => []
  end.

(** The writes of a call. *)
Definition cop_steps (o : cop) (m : cmeas) : list (nat * list N) :=
  match o with
  | CStart _ => []
  | CStore k full rest e => store_steps k full rest e m
  | CFinal => hd_writes (c_head m) (c_places m) (c_hd m)
  end.

(** The file if the process stops after [j] of them. *)
Definition ccut (j : nat) (o : cop) (m : cmeas) : file := puts (c_file m) (firstn j (cop_steps o m)).
End Cut.
