(** Model of the sample queue and of the writers that drain it: mdflib/src/samplequeue.cpp,
    mdflib/src/writer4samplequeue.cpp, mdflib/src/convertersamplequeue.cpp, the worker thread of
    mdflib/src/writecache.cpp and the sample writing functions of mdflib/src/cg4block.cpp.

    Concurrency: all queue accesses are made under one mutex (WriteCache::locker_), so an execution
    is a sequence of critical sections. The worker releases the mutex once per sample, while it
    writes that sample; a schedule is a list of producer saves and worker steps, where a worker
    step runs from one release of the mutex to the next one.

    Simplifications: the file can always be opened and written; null pointers and the early
    returns for a missing DT/HL block are not modelled (they leave the mutex unlocked,
    writer4samplequeue.cpp:56-62); allocation does not fail. *)
From Verif Require Import Base StreamModel.
Local Open Scope N_scope.

(** samplerecord.h:22-27. *)
Record sample : Type := mkS {
  s_ts : N;
  s_id : N;
  s_rec : list N;
  s_has : bool;       (* vlsd_data *)
  s_vbuf : list N     (* vlsd_buffer *)
}.

(** samplerecord.h:30-34 SampleRecord::SampleSize. *)
Definition sample_size (s : sample) : N :=
  N.of_nat (length (s_rec s)) + N.of_nat (length (s_vbuf s)) + 4.

(** queue_ and size_ (samplequeue.h:76-77); size_ is an atomic 64-bit counter. *)
Record queue : Type := mkQ { q_list : list sample; q_size : N }.

(** samplequeue.cpp:29-32 SampleQueue::AddSample. *)
Definition add_sample (q : queue) (s : sample) : queue :=
  mkQ (q_list q ++ [s]) (w64 (q_size q + sample_size s)).

(** samplequeue.cpp:34-37 SampleQueue::PushSample. *)
Definition push_sample (q : queue) (s : sample) : queue :=
  mkQ (s :: q_list q) (w64 (q_size q + sample_size s)).

(** size_ -= n on an unsigned 64-bit counter. *)
Definition sub64 (a b : N) : N := w64 (a + (2 ^ 64 - w64 b)).

(** samplequeue.cpp:39-44 SampleQueue::GetSample; [None]: front() of an empty deque. *)
Definition get_sample (q : queue) : option (sample * queue) :=
  match q_list q with
  | [] => None
  | s :: r => Some (s, mkQ r (sub64 (q_size q) (sample_size s)))
  end.

(** samplequeue.cpp:46-51 SampleQueue::PopSample. The function reads SampleSize() of the record
    after pop_front() has destroyed it: [stale] is the number it finds there, which the language
    does not determine. *)
Definition pop_sample (stale : sample -> N) (q : queue) : queue :=
  match q_list q with
  | [] => q
  | s :: r => mkQ r (sub64 (q_size q) (stale s))
  end.

(** samplequeue.cpp:53-56 SampleQueue::Reset. *)
Definition reset_queue (q : queue) : queue := mkQ [] 0.

(** samplequeue.cpp:58-61 SampleQueue::QueueSize. *)
Definition queue_size (idsize : N) (q : queue) : N :=
  w64 (q_size q + idsize * N.of_nat (length (q_list q))).

(** samplequeue.cpp:70-83: the test that ends the trimming loop. *)
Definition trim_done (start pre next_ts last_ts : N) : bool :=
  if 0 <? start then sub64 start pre <=? next_ts
  else sub64 last_ts next_ts <=? pre.

(** samplequeue.cpp:62-86 SampleQueue::TrimQueue, as a loop over the list. *)
Fixpoint trim_list (start pre : N) (l : list sample) : list sample :=
  match l with
  | a :: ((b :: _) as r) =>
      if trim_done start pre (s_ts b) (s_ts (last r b)) then l
      else trim_list start pre r
  | _ => l
  end.

(** TrimQueue with the counter: one PopSample per removed sample. *)
Fixpoint pop_n (stale : sample -> N) (n : nat) (q : queue) : queue :=
  match n with O => q | S k => pop_n stale k (pop_sample stale q) end.

Definition trim_queue (stale : sample -> N) (start pre : N) (q : queue) : queue :=
  pop_n stale (length (q_list q) - length (trim_list start pre (q_list q))) q.

(* ------------------------------------------------------------------ *)
(** ** Writing a sample of an MDF4 data group *)

(** The state of the channel groups that writing changes, by record id: Sample()/NofSamples(),
    vlsd_index_, the 64-bit number held in nof_invalid_bytes_:nof_data_bytes_ of a VLSD group, and
    the signal data of the group's SD channel. *)
Record enc : Type := mkE {
  e_cnt : N -> N;
  e_vidx : N -> N;
  e_tot : N -> N;
  e_sd : N -> list N
}.

Definition updl (f : N -> list N) (k : N) (v : list N) : N -> list N :=
  fun i => if i =? k then v else f i.

(** writer4samplequeue.cpp:99-104, 113-118: the index goes to the last 8 bytes. *)
Definition patch_index (rec : list N) (idx : N) : list N :=
  if (8 <=? length rec)%nat then firstn (length rec - 8) rec ++ le_bytes 8 (w64 idx) else rec.

(** cg4block.cpp:492-533, 535-576: IncrementSample and NofSamples(Sample()). *)
Definition count_up (e : enc) (id : N) : enc :=
  mkE (upd (e_cnt e) id (e_cnt e id + 1)) (e_vidx e) (e_tot e) (e_sd e).

(** cg4block.cpp:578-633 WriteVlsdSample and 635-691 WriteCompressedVlsdSample, the group's side. *)
Definition vlsd_up (e : enc) (id : N) (data : list N) : enc :=
  let n := N.of_nat (length data) in
  mkE (upd (e_cnt e) id (e_cnt e id + 1))
      (upd (e_vidx e) id (w64 (e_vidx e id + 4 + n)))
      (upd (e_tot e) id (w64 (e_tot e id + n)))
      (e_sd e).

(** The VLSD group of a sample: writer4samplequeue.cpp:84-89 and 247-253 (and the same lines of
    convertersamplequeue.cpp): the group with the next record id if it is flagged VLSD. *)
Definition vlsd_group (d : dgroup) (s : sample) : option group :=
  if s_has s then
    match find_cg_record_id d (w64 (s_id s + 1)) with
    | Some v => if g_vlsd v then Some v else None
    | None => None
    end
  else None.

(** writer4samplequeue.cpp:84-121 (SaveQueue), 247-285 (CleanQueueCompressed) and the same parts
    of convertersamplequeue.cpp: the bytes one sample adds to the data block and the new state.
    [has_sd] tells whether Cg4Block::FindSdChannel finds a channel (cg4block.cpp:693-703);
    cn4block.cpp:1275-1285 WriteSdSample. *)
Definition write_sample4 (d : dgroup) (has_sd : N -> bool) (e : enc) (g : group) (s : sample)
  : list N * enc :=
  match vlsd_group d s with
  | Some v =>
      (vlsd_record (d_idsize d) (g_id v) (s_vbuf s)
       ++ fixed_record (d_idsize d) (g_id g) (patch_index (s_rec s) (e_vidx e (g_id v))),
       count_up (vlsd_up e (g_id v) (s_vbuf s)) (g_id g))
  | None =>
      if s_has s && has_sd (g_id g) then
        let sd := e_sd e (g_id g) in
        (fixed_record (d_idsize d) (g_id g) (patch_index (s_rec s) (N.of_nat (length sd))),
         count_up (mkE (e_cnt e) (e_vidx e) (e_tot e)
           (updl (e_sd e) (g_id g)
             (sd ++ le_bytes 4 (w32 (N.of_nat (length (s_vbuf s)))) ++ s_vbuf s))) (g_id g))
      else
        (fixed_record (d_idsize d) (g_id g) (s_rec s), count_up e (g_id g))
  end.

(** The sample's group is looked up first; a sample without a group is dropped
    (writer4samplequeue.cpp:76-79, 241-246). *)
Definition emit4 (d : dgroup) (has_sd : N -> bool) (e : enc) (s : sample) : option (list N * enc) :=
  match find_cg_record_id d (s_id s) with
  | None => None
  | Some g => Some (write_sample4 d has_sd e g s)
  end.

(** cg4block.cpp:79-80 of a new block: everything zero. *)
Definition enc0 : enc := mkE (fun _ => 0) (fun _ => 0) (fun _ => 0) (fun _ => []).

(* ------------------------------------------------------------------ *)
(** ** The uncompressed drain *)

(** Settings of the writer that the drain reads: StartTime(), PreTrigTimeNs(), StopTime(), and
    whether TrimQueue does anything (it is empty in ConverterSampleQueue,
    convertersamplequeue.cpp:27-29). *)
Record cfg : Type := mkC { c_start : N; c_pre : N; c_stop : N; c_trim : bool }.

Definition cfg_trim (stale : sample -> N) (c : cfg) (q : queue) : queue :=
  if c_trim c then trim_queue stale (c_start c) (c_pre c) q else q.

(** The worker is idle (waiting for its next turn) or has taken a sample and released the mutex. *)
Inductive phase : Type := Idle | Holding (s : sample).

(** Uncompressed writer: queue, worker phase, data bytes written, group state. [u_log] records the
    samples written and [u_gone] the samples trimmed or dropped; nothing depends on them. *)
Record ust : Type := mkU {
  u_q : queue;
  u_phase : phase;
  u_out : list N;
  u_enc : enc;
  u_log : list sample;
  u_gone : list sample
}.

(** The loop head of writer4samplequeue.cpp:72-80 (convertersamplequeue.cpp:64-71): take samples
    until one is to be written. Ends idle when the queue is empty or the stop time is passed; that
    sample is already taken from the queue. [n] bounds the number of samples taken (the queue
    length). *)
Fixpoint take_loop (known : sample -> bool) (stop : N) (n : nat) (q : queue) (gone : list sample)
  : queue * phase * list sample :=
  match n with
  | O => (q, Idle, gone)
  | S k =>
      match get_sample q with
      | None => (q, Idle, gone)
      | Some (s, q') =>
          if (0 <? stop) && (stop <? s_ts s) then (q', Idle, gone ++ [s])
          else if known s then (q', Holding s, gone)
          else take_loop known stop k q' (gone ++ [s])
      end
  end.

Definition is_known (d : dgroup) (s : sample) : bool :=
  match find_cg_record_id d (s_id s) with Some _ => true | None => false end.

Definition take (d : dgroup) (c : cfg) (st : ust) : ust :=
  let '(q, ph, gone) :=
    take_loop (is_known d) (c_stop c) (length (q_list (u_q st))) (u_q st) (u_gone st) in
  mkU q ph (u_out st) (u_enc st) (u_log st) gone.

(** One worker step: from idle, SaveQueue/CleanQueue up to the first release of the mutex inside
    the loop (writer4samplequeue.cpp:66-80); otherwise write the sample, lock, next loop head
    (81-124). The producers may save samples between any two steps. *)
Definition work (d : dgroup) (has_sd : N -> bool) (stale : sample -> N) (c : cfg) (st : ust) : ust :=
  match u_phase st with
  | Idle =>
      let q := cfg_trim stale c (u_q st) in
      take d c
        (mkU q Idle (u_out st) (u_enc st) (u_log st)
           (u_gone st ++ firstn (length (q_list (u_q st)) - length (q_list q)) (q_list (u_q st))))
  | Holding s =>
      match emit4 d has_sd (u_enc st) s with
      | Some (bytes, e) =>
          take d c (mkU (u_q st) Idle (u_out st ++ bytes) e (u_log st ++ [s]) (u_gone st))
      | None => take d c (mkU (u_q st) Idle (u_out st) (u_enc st) (u_log st) (u_gone st ++ [s]))
      end
  end.

(** WriteCache::SaveSample and relatives (writecache.cpp:163-177): add under the mutex. *)
Definition save (s : sample) (st : ust) : ust :=
  mkU (add_sample (u_q st) s) (u_phase st) (u_out st) (u_enc st) (u_log st) (u_gone st).

Inductive act : Type := Save (s : sample) | Work.

Fixpoint run (d : dgroup) (has_sd : N -> bool) (stale : sample -> N) (c : cfg) (sch : list act)
    (st : ust) : ust :=
  match sch with
  | [] => st
  | Save s :: r => run d has_sd stale c r (save s st)
  | Work :: r => run d has_sd stale c r (work d has_sd stale c st)
  end.

Definition ust0 : ust := mkU (mkQ [] 0) Idle [] enc0 [] [].

(* ------------------------------------------------------------------ *)
(** ** The compressed drain *)

Definition buffer_max : N := 4000000.

(** Idle; CleanQueueCompressed entered and the mutex released to open the file
    (writer4samplequeue.cpp:175-197); a sample taken and the mutex released. *)
Inductive zphase : Type := ZIdle | ZOpened | ZHolding (s : sample).

(** Compressed writer: [z_blocks] are the data blocks written, each with the offset stored for it
    in its DL block; [z_buf] the buffer being filled, [z_off] offset_, [z_fin] the finalize argument
    of the running CleanQueueCompressed. *)
Record zst : Type := mkZ {
  z_q : queue;
  z_phase : zphase;
  z_fin : bool;
  z_buf : list N;
  z_blocks : list (N * list N);
  z_off : N;
  z_enc : enc;
  z_log : list sample;
  z_gone : list sample
}.

(** Append the buffer as a block: writer4samplequeue.cpp:222-232 and 289-308. *)
Definition flush (st : zst) : zst :=
  mkZ (z_q st) (z_phase st) (z_fin st) [] (z_blocks st ++ [(z_off st, z_buf st)])
      (w64 (z_off st + N.of_nat (length (z_buf st)))) (z_enc st) (z_log st) (z_gone st).

(** writer4samplequeue.cpp:287-309, after the loop: the rest of the buffer, if any. *)
Definition finish (st : zst) : zst :=
  let st := mkZ (z_q st) ZIdle (z_fin st) (z_buf st) (z_blocks st) (z_off st) (z_enc st)
              (z_log st) (z_gone st) in
  match z_buf st with [] => st | _ => flush st end.

(** The loop head, writer4samplequeue.cpp:200-207 (convertersamplequeue.cpp:183-186 without the
    stop time). *)
Definition ztake (c : cfg) (st : zst) : zst :=
  match get_sample (z_q st) with
  | None => finish st
  | Some (s, q') =>
      if (0 <? c_stop c) && (c_stop c <? s_ts s)
      then finish (mkZ q' ZIdle (z_fin st) (z_buf st) (z_blocks st) (z_off st) (z_enc st)
                     (z_log st) (z_gone st ++ [s]))
      else mkZ q' (ZHolding s) (z_fin st) (z_buf st) (z_blocks st) (z_off st) (z_enc st)
             (z_log st) (z_gone st)
  end.

(** max_index, writer4samplequeue.cpp:209-214. *)
Definition max_index (idsize : N) (buf : list N) (s : sample) : N :=
  N.of_nat (length (s_rec s)) + idsize + N.of_nat (length buf)
  + if s_has s then N.of_nat (length (s_vbuf s)) + 4 + idsize else 0.

(** writer4samplequeue.cpp:241-286: encode into the buffer, then the next loop head. *)
Definition zwrite (d : dgroup) (has_sd : N -> bool) (c : cfg) (s : sample) (st : zst) : zst :=
  match emit4 d has_sd (z_enc st) s with
  | Some (bytes, e) =>
      ztake c (mkZ (z_q st) ZIdle (z_fin st) (z_buf st ++ bytes) (z_blocks st) (z_off st) e
                 (z_log st ++ [s]) (z_gone st))
  | None =>
      ztake c (mkZ (z_q st) ZIdle (z_fin st) (z_buf st) (z_blocks st) (z_off st) (z_enc st)
                 (z_log st) (z_gone st ++ [s]))
  end.

(** TrimQueue inside the compressed drain. *)
Definition ztrim (stale : sample -> N) (c : cfg) (st : zst) : zst :=
  let q := cfg_trim stale c (z_q st) in
  mkZ q (z_phase st) (z_fin st) (z_buf st) (z_blocks st) (z_off st) (z_enc st) (z_log st)
      (z_gone st ++ firstn (length (q_list (z_q st)) - length (q_list q)) (q_list (z_q st))).

(** CleanQueueCompressed up to the first release of the mutex, writer4samplequeue.cpp:158-175. *)
Definition zopen (fin : bool) (st : zst) : zst :=
  match q_list (z_q st) with
  | [] => st
  | _ => mkZ (z_q st) ZOpened fin [] (z_blocks st) (z_off st) (z_enc st) (z_log st) (z_gone st)
  end.

(** One worker step. Idle: SaveQueueCompressed (fin = false, writer4samplequeue.cpp:147-156) or
    CleanQueueCompressed with finalize. Opened: lock, TrimQueue and the first loop head, 196-207.
    Holding: 208-286. The queue size test reads the queue without the mutex; here it is part of
    the same step. *)
Definition zwork (d : dgroup) (has_sd : N -> bool) (stale : sample -> N) (c : cfg) (fin : bool)
    (st : zst) : zst :=
  match z_phase st with
  | ZIdle =>
      if fin then zopen true st
      else
        let st := ztrim stale c st in
        if queue_size (d_idsize d) (z_q st) / buffer_max + 1 <? 2 then st else zopen false st
  | ZOpened => ztake c (ztrim stale c st)
  | ZHolding s =>
      if buffer_max <=? max_index (d_idsize d) (z_buf st) s then
        if z_fin st || (buffer_max <? queue_size (d_idsize d) (z_q st))
        then zwrite d has_sd c s (flush st)
        else finish (mkZ (push_sample (z_q st) s) ZIdle (z_fin st) (z_buf st) (z_blocks st)
                       (z_off st) (z_enc st) (z_log st) (z_gone st))
      else zwrite d has_sd c s st
  end.

Definition zsave (s : sample) (st : zst) : zst :=
  mkZ (add_sample (z_q st) s) (z_phase st) (z_fin st) (z_buf st) (z_blocks st) (z_off st)
      (z_enc st) (z_log st) (z_gone st).

Inductive zact : Type := ZSave (s : sample) | ZWork (fin : bool).

Fixpoint zrun (d : dgroup) (has_sd : N -> bool) (stale : sample -> N) (c : cfg) (sch : list zact)
    (st : zst) : zst :=
  match sch with
  | [] => st
  | ZSave s :: r => zrun d has_sd stale c r (zsave s st)
  | ZWork f :: r => zrun d has_sd stale c r (zwork d has_sd stale c f st)
  end.

Definition zst0 : zst := mkZ (mkQ [] 0) ZIdle false [] [] 0 enc0 [] [].
