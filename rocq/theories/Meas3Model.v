(** Model of the file during a measurement with the MDF3 writer: InitMeasurement
    (mdfwriter.cpp:243-277), StartMeasurement (279-319), the saves of the sample queues
    (samplequeue.cpp:84-153) and FinalizeMeasurement (332-352). It joins the description blocks of
    Meta3Model.v and the records of Stream3Model.v. Each call is a list of single writes to the file,
    in the order in which the code makes them, so that a call that is interrupted is a prefix of it.

    Simplifications: one measurement in a new file; the records of a save are given (the loop over
    the queue, TrimQueue and the stop time are in QueueModel.v); the sample counters do not wrap at
    2^64. *)
From Verif Require Import Base BlockModel MetaModel IdentModel Meta3Model Stream3Model StreamSpec MeasModel.
Local Open Scope N_scope.

(* ------------------------------------------------------------------ *)
(** ** Positions *)

(** Each block remembers its position when it is written (mdfblock.cpp:622-625); found by following
    the writer of Meta3Model.v. *)
Section Places.
Context {T P : Type} (wr : T -> file -> res (file * nat)) (pl : T -> file -> P).

Fixpoint chain_places3 (prev : option nat) (xs : list T) (f : file) : list (nat * P) :=
  match xs with
  | [] => []
  | x :: r =>
      match wr x f with
      | Ok (f1, pos) =>
          let f2 := match prev with Some q => set3 f1 q 0 (N.of_nat pos) | None => f1 end in
          (pos, pl x f) :: chain_places3 (Some pos) r f2
      | _ => []
      end
  end.

End Places.

(** The channel groups of a data group that is written at the end of [f] (dg3block.cpp:90-126), and
    the data groups of a header (hd3block.cpp:155-218), each with its channel groups. *)
Definition dg3_places (d : dgb3) (f : file) : list (nat * unit) :=
  chain_places3 write_cg3 (fun _ _ => tt) None (d3_cgs d)
    (f ++ header3_bytes false ty_dg3 28 [0; 0; 0; d3_link d] ++ dg3_body d).
Definition hd3_places (h : hd3) (f : file) : list (nat * list (nat * unit)) :=
  let pos := length f in
  let f := f ++ header3_bytes false ty_hd3 208 [0; 0; 0] ++ hd3_body h in
  let '(f, ltx) := write_text3 (h3_comment h) f in
  chain_places3 write_dgb3 dg3_places None (h3_dgs h) (link3 f pos 1 ltx).

(* ------------------------------------------------------------------ *)
(** ** Rewriting blocks in place *)

(** Consecutive writes from [p] on. *)
Fixpoint seq_writes (p : nat) (bs : list (list N)) : list (nat * list N) :=
  match bs with
  | [] => []
  | b :: r => (p, b) :: seq_writes (p + length b) r
  end.

(** cg3block.cpp:142-160 Write of a block that is in the file, at [p]: only the number of records;
    the channels and the comment are in the file (162-182). *)
Definition cg3_writes (p : nat) (g : cg3) : list (nat * list N) := [((p + 22)%nat, le_bytes 4 (g3_nof g))].

(** The channel groups of a data group: samplequeue.cpp:144-150, dg3block.cpp:112-126 (the links do
    not change, so that UpdateLink writes nothing, mdfblock.cpp:735-737). *)
Definition cgs3_writes (cgs : list (nat * unit)) (d : dgb3) : list (nat * list N) :=
  concat (map (fun '((p, _), g) => cg3_writes p g) (combine cgs (d3_cgs d))).

(** dg3block.cpp:101-105 Write of a block that is in the file, at [p]; its data is not in the list of
    blocks (the DT block of a new data group is not made, samplequeue.cpp:469-485). *)
Definition dg3_writes (p : nat) (cgs : list (nat * unit)) (d : dgb3) : list (nat * list N) :=
  seq_writes (p + 20) [le_bytes 2 (w16 (N.of_nat (length (d3_cgs d)))); le_bytes 2 (ids_for d); le_bytes 4 0]
  ++ cgs3_writes cgs d.

(** hd3block.cpp:164-177. *)
Definition hd3_parts (h : hd3) : list (list N) :=
  let t := h3_time h in
  [le_bytes 2 (w16 (N.of_nat (length (h3_dgs h)))); str_bytes 10 (t3_date t); str_bytes 8 (t3_time t);
   str_bytes 32 (h3_author h); str_bytes 32 (h3_org h); str_bytes 32 (h3_project h); str_bytes 32 (h3_subject h);
   le_bytes 8 (t3_ns t); le_bytes 2 (t3_offset t); le_bytes 2 (t3_quality t); str_bytes 32 (t3_timer t)].

(** hd3block.cpp:155-219 Write of a block that is in the file, at [pos]: only the last data group is
    written again (202-207). *)
Definition hd3_writes (pos : nat) (pls : list (nat * list (nat * unit))) (h : hd3) : list (nat * list N) :=
  seq_writes (pos + 16) (hd3_parts h)
  ++ match rev (combine pls (h3_dgs h)) with
     | [] => []
     | ((p, cgs), d) :: _ => dg3_writes p cgs d
     end.

(* ------------------------------------------------------------------ *)
(** ** The measurement *)

(** The objects and the file. [m3_cnt k id]: IChannelGroup::Sample() of the channel group [id] of
    data group [k]. *)
Record meas3 : Type := mkM3 {
  m3_file : file;
  m3_hd : hd3;
  m3_head : nat;                              (* position of the HD block *)
  m3_places : list (nat * list (nat * unit));
  m3_cnt : nat -> N -> N
}.

(** Hd3Block: the list of data groups replaced, the start time set (hd3block.cpp:273-283). *)
Definition set_dgs3 (h : hd3) (ds : list dgb3) : hd3 :=
  mkHd3 (h3_time h) (h3_author h) (h3_org h) (h3_project h) (h3_subject h) (h3_comment h) ds.
Definition set_time3 (t : time3) (h : hd3) : hd3 :=
  mkHd3 t (h3_author h) (h3_org h) (h3_project h) (h3_subject h) (h3_comment h) (h3_dgs h).

(** dg3block.cpp:93-94: Write sets the number of record ids. *)
Definition set_ids3 (d : dgb3) : dgb3 := mkDgb3 (ids_for d) (d3_link d) (d3_cgs d).

(** Mdf3Writer: mdf3file.cpp:109-122 Write of a new file. *)
Definition init_meas3 (i : idb) (h : hd3) : res meas3 :=
  let* '(f, p) := write_file3 i h in
  Ok (mkM3 f (set_dgs3 h (map set_ids3 (h3_dgs h))) p (hd3_places h (write_id false i [])) (fun _ _ => 0)).

(** mdfwriter.cpp:420-441 IsFirstMeasurement (no group of an MDF3 file is a VLSD group). *)
Definition is_first3 (h : hd3) : bool :=
  forallb (fun d => forallb (fun g => g3_nof g =? 0) (d3_cgs d)) (h3_dgs h).

(** samplequeue.cpp:128-139: the writes of the records, at the end [p] of the file. *)
Fixpoint record_writes (nrid : N) (p : nat) (recs : list srec) : list (nat * list N) :=
  match recs with
  | [] => []
  | r :: t =>
      seq_writes p ((if 0 <? nrid then [[w8 (r_id r)]] else []) ++ [r_data r]
                    ++ (if 1 <? nrid then [[w8 (r_id r)]] else []))
      ++ record_writes nrid (p + length (put3 nrid (r_id r) (r_data r))) t
  end.

(** samplequeue.cpp:155-163 IncrementNofSamples for all records of the save: the counter of each
    group, and its number of records (cg3block.h, 32 bits) if the group has one of them. *)
Definition count_recs (recs : list srec) (c : N -> N) (id : N) : N := c id + occ id recs.
Definition count_cg3 (recs : list srec) (c : N -> N) (g : cg3) : cg3 :=
  mkCg3 (g3_id g) (g3_size g)
    (if existsb (fun r => r_id r =? g3_id g) recs then w32 (count_recs recs c (g3_id g)) else g3_nof g)
    (g3_sr g) (g3_cns g) (g3_comment g).

(** samplequeue.cpp:100-153 CleanQueue of data group [k] for the records [recs], and SaveQueue of the
    only data group (84-98): the writes, and the objects after them. SetLastPosition (469-485) stores
    the end of the file as position of the data, if there is none. [None]: no such data group. *)
Definition save3 (k : nat) (recs : list srec) (m : meas3) : option (list (nat * list N) * meas3) :=
  match nth_error (m3_places m) k, nth_error (h3_dgs (m3_hd m)) k with
  | Some (p, cgs), Some d =>
      let new := d3_link d =? 0 in
      let l := if new then N.of_nat (length (m3_file m)) else d3_link d in
      let d' := mkDgb3 (d3_ids d) l (map (count_cg3 recs (m3_cnt m k)) (d3_cgs d)) in
      let ws := (if new then [((p + 16)%nat, le_bytes 4 (w32 l))] else [])
                ++ record_writes (d3_ids d) (length (m3_file m)) recs
                ++ cgs3_writes cgs d' in
      Some (ws, mkM3 (puts (m3_file m) ws) (set_dgs3 (m3_hd m) (upd_nth k (fun _ => d') (h3_dgs (m3_hd m))))
                  (m3_head m) (m3_places m)
                  (fun j => if (j =? k)%nat then count_recs recs (m3_cnt m k) else m3_cnt m j))
  | _, _ => None
  end.

(** The calls. *)
Inductive op3 : Type :=
| Start3 (t : time3)
| Save3 (k : nat) (recs : list srec)
| Final3.

(** The writes a call makes, and the state after it. StartMeasurement sets the time of the header in
    memory if no samples have been saved (mdfwriter.cpp:289-295). *)
Definition call3 (o : op3) (m : meas3) : option (list (nat * list N) * meas3) :=
  match o with
  | Start3 t =>
      Some ([], if is_first3 (m3_hd m)
                then mkM3 (m3_file m) (set_time3 t (m3_hd m)) (m3_head m) (m3_places m) (m3_cnt m) else m)
  | Save3 k recs => save3 k recs m
  | Final3 =>
      let ws := hd3_writes (m3_head m) (m3_places m) (m3_hd m) in
      Some (ws, mkM3 (puts (m3_file m) ws) (m3_hd m) (m3_head m) (m3_places m) (m3_cnt m))
  end.

Fixpoint run3 (ops : list op3) (m : meas3) : option meas3 :=
  match ops with
  | [] => Some m
  | o :: r => match call3 o m with Some (_, m) => run3 r m | None => None end
  end.

(** The file when the program stops after [j] writes of the call [o]. *)
Definition stopped3 (o : op3) (j : nat) (m : meas3) : option file :=
  match call3 o m with
  | Some (ws, _) => Some (puts (m3_file m) (firstn j ws))
  | None => None
  end.

(* ------------------------------------------------------------------ *)
(** ** Reading it *)

(** The data group as the record reader sees it (Stream3Model.v). *)
Definition group3_of (g : cg3) : group3 := mkG3 (g3_id g) (N.to_nat (g3_size g)) (g3_nof g) [].
Definition dgroup3_of (d : dgb3) : dg3 := mkD3 (d3_ids d) (map group3_of (d3_cgs d)) (N.to_nat (d3_link d)).
