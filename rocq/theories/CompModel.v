(** Model of the file during a measurement with the compressing MDF4 writer: InitMeasurement,
    StartMeasurement, the saves of the sample queues of any number of data groups in any order
    (writer4samplequeue.cpp:147-331) and FinalizeMeasurement. It joins MeasModel.v with the list
    blocks of DataModel.v. The simplifications are those of MeasModel.v. *)
From Verif Require Import Base BlockModel MetaModel IdentModel DataModel QueueModel MeasModel.
Local Open Scope N_scope.

(** What a data group keeps in memory: its HL block, the last DL block of the HL block's list and
    the offset of the next data block (samplequeue.h offset_). *)
Record cst : Type := mkC { k_hl : blk; k_last : option blk; k_off : N }.

Record cmeas : Type := mkCM {
  c_file : file;
  c_hd : hd;
  c_head : nat;
  c_places : list (nat * list (nat * unit));
  c_sts : list (nat * cst)
}.

Fixpoint find_st (k : nat) (l : list (nat * cst)) : option cst :=
  match l with
  | [] => None
  | (i, s) :: r => if (i =? k)%nat then Some s else find_st k r
  end.

(** InitMeasurement of a new file. *)
Definition init_comp (i : idb) (h : hd) : res cmeas :=
  let* '(f, b) := write_file i h [] in
  Ok (mkCM f h (b_pos b) (hd_places h (write_id false i [])) []).

(** writer4samplequeue.cpp:333-346 SetLastPosition for the data group at [p] with data link [l]:
    the link is set to the end of the file, where the HL block will be. *)
Definition set_last (p : nat) (l : N) (f : file) : file * N :=
  if l =? 0 then
    let f := align f in
    (put f (p + 24 + 8 * 2) (le_bytes 8 (N.of_nat (length f))), N.of_nat (length f))
  else (f, l).

Section Comp.
Context (deflate : list N -> list N).

(** writer4samplequeue.cpp:158-331 CleanQueueCompressed of data group [k]: the samples filled the
    buffers [full] and left [rest] in the last one, and leave the counters [e]. After SetLastPosition,
    Dg4Block::Write rewrites the counters and then writes the list blocks (dg4block.cpp:112-157).
    [Fail]: no such data group, or it has data from another measurement (170-173). *)
Definition store_group (k : nat) (full : list (list N)) (rest : list N) (e : enc) (m : cmeas) : res cmeas :=
  match nth_error (c_places m) k, nth_error (h_dgs (c_hd m)) k with
  | Some (p, cgs), Some d =>
      let st := find_st k (c_sts m) in
      if match st with Some _ => true | None => d_link d =? 0 end then
        let '(f, l) := set_last p (d_link d) (c_file m) in
        let f := puts f (dg_writes cgs (count_dg e d)) in
        let off := match st with Some s => k_off s | None => 0 end in
        let chunks := step_chunks full rest in
        let* 's := store_dl (chunks_dl off chunks) (step_blocks deflate full rest)
                     (mkSt f (mkB p ty_dg 64 [0; 0; l; 0]) (option_map k_hl st)
                        (match st with Some s => k_last s | None => None end)) in
        match st_hl s with
        | Some hl =>
            Ok (mkCM (st_file s)
                  (set_dgs (c_hd m) (upd_nth k (fun d => set_link (link (st_dg s) 2) (count_dg e d)) (h_dgs (c_hd m))))
                  (c_head m) (c_places m)
                  ((k, mkC hl (st_last s) (w64 (off + N.of_nat (length (concat chunks))))) :: c_sts m))
        | None => Fail
        end
      else Fail
  | _, _ => Fail
  end.

(** FinalizeMeasurement: mdf4file.cpp:172-188 Write. The HL blocks and their lists are in the file
    and are not changed (hl4block.cpp:55-63). *)
Definition finish (m : cmeas) : cmeas :=
  mkCM (puts (c_file m) (hd_writes (c_head m) (c_places m) (c_hd m))) (c_hd m) (c_head m) (c_places m) (c_sts m).

Inductive cop : Type :=
| CStart (t : stamp4)
| CStore (k : nat) (full : list (list N)) (rest : list N) (e : enc)
| CFinal.

Definition cstep (o : cop) (m : cmeas) : res cmeas :=
  match o with
  | CStart t => Ok (mkCM (c_file m) (set_time t (c_hd m)) (c_head m) (c_places m) (c_sts m))
  | CStore k full rest e => store_group k full rest e m
  | CFinal => Ok (finish m)
  end.

Fixpoint crun (ops : list cop) (m : cmeas) : res cmeas :=
  match ops with
  | [] => Ok m
  | o :: r => let* 'm := cstep o m in crun r m
  end.
End Comp.

(** The data bytes of a data group, block by block; [fuel] bounds the number of list blocks
    (dg4block.cpp:310-330 ReadData, datalistblock.cpp:28-106, readcache.cpp:371-398). *)
Definition list_data (fuel : nat) (inflate : list N -> nat -> list N) (f : file) (d : dg) : option (res (list (list N))) :=
  match read_blocks fuel f (d_link d) with
  | Some r => Some (let* 'ds := r in all_bytes inflate f ds)
  | None => None
  end.
