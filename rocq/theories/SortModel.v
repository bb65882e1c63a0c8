(** Model of the observers that put a sample together from the records of its groups, the CAN
    message observer (mdflib/src/canbusobserver.cpp) and the sample record observer
    (mdflib/src/samplerecordobserver.cpp), and of the sorting task that copies a file through the
    latter (mdflib/src/copysampleobserver.cpp, mdflib/src/sortingtask.cpp). *)
From Verif Require Import Base StreamModel ObsModel QueueModel.
Local Open Scope N_scope.

(** MdfStorageType of a channel group (hd4block.cpp:224-283 sets it when a file is read). *)
Inductive storage : Type := SFixed | SMlsd | SVlsd.

(** static_cast<int64_t>(sample). *)
Definition s64 (n : N) : Z := twos 64 (w64 n).

(* ------------------------------------------------------------------ *)
(** ** The CAN message observer *)

(** canbusobserver.h:35-54: current_sample_index_, new_sample_, last_sample_ (its number, record and
    VLSD data) and sample_buffer_. A stored message is represented by the two byte arrays that
    ParseCanMessage makes it from; [cn_calls] lists the calls of OnCanMessage in the same way. *)
Record canst : Type := mkCan {
  cn_cur : Z;
  cn_new : bool;
  cn_sample : N;
  cn_rec : list N;
  cn_vlsd : list N;
  cn_buf : list (option (list N * list N));
  cn_calls : list (N * (list N * list N))
}.

(** A new observer. *)
Definition can0 : canst := mkCan (-1) false 0 [] [] [] [].

(** What the observer knows of its group: the record id, the ids it subscribes to
    (canbusobserver.cpp:20-23; none if the group is not recognised, 62-67), the number of samples and
    the storage type. *)
Record cangrp : Type := mkCg { cg_main : N; cg_ids : list N; cg_nof : N; cg_store : storage }.

(** canbusobserver.cpp:246-255 FireCallback: [answer] is what OnCanMessage returns. *)
Definition fire (answer : N -> bool) (s : canst) : bool * canst :=
  (answer (cn_sample s),
   mkCan (cn_cur s) (cn_new s) (cn_sample s) (cn_rec s) (cn_vlsd s) (cn_buf s)
     (cn_calls s ++ [(cn_sample s, (cn_rec s, cn_vlsd s))])).

Definition with_vlsd (s : canst) (v : list N) : canst :=
  mkCan (cn_cur s) (cn_new s) (cn_sample s) (cn_rec s) v (cn_buf s) (cn_calls s).
Definition with_rec (s : canst) (r : list N) : canst :=
  mkCan (cn_cur s) (cn_new s) (cn_sample s) r (cn_vlsd s) (cn_buf s) (cn_calls s).
Definition with_buf (s : canst) (b : list (option (list N * list N))) : canst :=
  mkCan (cn_cur s) (cn_new s) (cn_sample s) (cn_rec s) (cn_vlsd s) b (cn_calls s).

(** canbusobserver.cpp:131-156 HandleCallback. The answer of FireCallback is not used. *)
Definition handle_callback (answer : N -> bool) (g : cangrp) (id : N) (rec : list N) (s : canst) : canst :=
  if negb (id =? cg_main g) then
    let s := with_vlsd s rec in
    if negb (cn_new s) then snd (fire answer s) else s
  else
    let s := with_rec s rec in
    match cg_store g with
    | SVlsd => if negb (cn_new s) then snd (fire answer s) else s
    | SFixed | SMlsd => snd (fire answer s)
    end.

(** The assignment sample_buffer_[sample] behind its range test. *)
Definition keep (s : canst) : canst :=
  if cn_sample s <? N.of_nat (length (cn_buf s))
  then with_buf s (store (cn_buf s) (cn_sample s) (Some (cn_rec s, cn_vlsd s))) else s.

(** canbusobserver.cpp:158-223 HandleSample. *)
Definition handle_sample (g : cangrp) (id : N) (rec : list N) (s : canst) : canst :=
  if negb (id =? cg_main g) then
    let s := with_vlsd s rec in
    if negb (cn_new s) then keep s else s
  else
    let s := with_rec s rec in
    match cg_store g with
    | SVlsd => if negb (cn_new s) then keep s else s
    | SFixed | SMlsd => keep s
    end.

(** canbusobserver.cpp:225-237 CheckSampleBufferSize; the allocation does not fail. *)
Definition check_size (n : N) (b : list (option (list N * list N))) : list (option (list N * list N)) :=
  firstn (N.to_nat n) b ++ repeat None (N.to_nat n - length b).

(** canbusobserver.cpp:95-129 OnSample; [callback] is OnCanMessage, if set. *)
Definition can_on (callback : option (N -> bool)) (g : cangrp) (e : event) (s : canst) : bool * canst :=
  if (cg_nof g =? 0) || negb (existsb (N.eqb (e_id e)) (cg_ids g)) then (true, s)
  else if cg_nof g <=? e_sample e then (false, s)
  else
    let cur := s64 (e_sample e) in
    let s :=
      if (cn_cur s <? cur)%Z
      then mkCan cur true (e_sample e) [] [] (cn_buf s) (cn_calls s)
      else mkCan (cn_cur s) false (cn_sample s) (cn_rec s) (cn_vlsd s) (cn_buf s) (cn_calls s) in
    match callback with
    | Some answer => (true, handle_callback answer g (e_id e) (e_rec e) (with_buf s []))
    | None => (true, handle_sample g (e_id e) (e_rec e) (with_buf s (check_size (cg_nof g) (cn_buf s))))
    end.

(** canbusobserver.cpp:424-429 GetCanMessage; [None]: nullptr. *)
Definition get_can_message (s : canst) (sample : N) : option (list N * list N) :=
  match nth_error (cn_buf s) (N.to_nat sample) with Some (Some m) => Some m | _ => None end.

(** OnSample for a sequence of notifications, until it answers false. *)
Fixpoint can_run (callback : option (N -> bool)) (g : cangrp) (evs : list event) (s : canst) : bool * canst :=
  match evs with
  | [] => (true, s)
  | e :: r =>
      let (go, s1) := can_on callback g e s in
      if go then can_run callback g r s1 else (false, s1)
  end.

(* ------------------------------------------------------------------ *)
(** ** The sample record observer *)

(** samplerecordobserver.h:36-42: current_sample_index_ and last_sample_; [ro_out] are the samples
    passed on by OnSampleRecord. *)
Record recst : Type := mkRo { ro_cur : Z; ro_last : sample; ro_out : list sample }.

(** samplerecord.h:36-45 SampleRecord::Clear. *)
Definition clear_sample : sample := mkS 0 0 [] false [].
Definition rec0 : recst := mkRo (-1) clear_sample [].

(** What the observer knows of its group. [rg_rel] is static_cast<int64_t>(rel_time * 1e9) for the
    time GetTimestamp finds in a record, zero without a time channel. *)
Record recgrp : Type := mkRg {
  rg_main : N; rg_ids : list N; rg_store : storage; rg_base : N; rg_rel : N -> list N -> Z
}.

(** samplerecordobserver.cpp:57-62 GetSampleIndex. *)
Definition sample_no (cur : Z) : N := if (cur <? 0)%Z then 0 else Z.to_N cur.

(** uint64_t timestamp += int64_t. *)
Definition add_time (base : N) (rel : Z) : N := to_u64 (Z.of_N base + rel).

Definition pass_on (s : recst) : recst := mkRo (ro_cur s) clear_sample (ro_out s ++ [ro_last s]).

(** samplerecordobserver.cpp:68-95 HandleSample. *)
Definition handle_record (st : storage) (s : recst) : recst :=
  match st with
  | SVlsd => if s_has (ro_last s) then pass_on s else s
  | SMlsd | SFixed => pass_on s
  end.

(** samplerecordobserver.cpp:23-55 OnSample; it always answers true. *)
Definition rec_on (g : recgrp) (e : event) (s : recst) : recst :=
  if negb (existsb (N.eqb (e_id e)) (rg_ids g)) then s
  else
    let cur := s64 (e_sample e) in
    let s := if (ro_cur s <? cur)%Z then mkRo cur clear_sample (ro_out s) else s in
    let l := ro_last s in
    let s :=
      if e_id e =? rg_main g
      then mkRo (ro_cur s)
             (mkS (add_time (rg_base g) (rg_rel g (sample_no (ro_cur s)) (e_rec e))) (e_id e) (e_rec e)
                (s_has l) (s_vbuf l)) (ro_out s)
      else mkRo (ro_cur s) (mkS (s_ts l) (s_id l) (s_rec l) true (e_rec e)) (ro_out s) in
    match s_rec (ro_last s) with [] => s | _ => handle_record (rg_store g) s end.

(** samplerecordobserver.h:29 GetSampleTime. *)
Definition get_sample_time (g : recgrp) (s : recst) : N := rg_base g.

(* ------------------------------------------------------------------ *)
(** ** The sorting task *)

(** A source channel group: the VlsdRecordId() of its channels, without the zeros
    (isampleobserver.cpp:52-62), its storage type, the time of a record, RecalculateTime of the writer
    for a time stamp and a record (samplequeue.cpp:389-399) and whether one of its channels is of
    variable length (cg4block.cpp:693-707; the record id is not copied, cn4block.cpp:1366-1398). *)
Record sgroup : Type := mkSg {
  sg : group;
  sg_vlsds : list N;
  sg_store : storage;
  sg_rel : N -> list N -> Z;
  sg_stamp : N -> list N -> list N;
  sg_var : bool
}.

(** sortingtask.cpp:88-95: which groups get a destination group. *)
Definition is_copied (skip : bool) (x : sgroup) : bool :=
  negb (g_vlsd (sg x)) && negb (skip && (g_nof (sg x) =? 0)).

(** sortingtask.cpp:120-125: which of them get an observer. *)
Definition is_watched (x : sgroup) : bool := negb (g_vlsd (sg x)) && (0 <? g_nof (sg x)).

(** sortingtask.cpp:97-119, mdftask.cpp:256-288, cg4block.cpp:730-756: the destination data group has
    one channel group with the sizes and flags of the source. *)
Definition dest_dg (x : sgroup) : dgroup :=
  add_cg4 (mkDg 0 []) (mkGroup 0 (g_vlsd (sg x)) (g_data (sg x)) (g_inval (sg x)) 0).

(** copysampleobserver.cpp:23-30 OnSampleRecord and samplequeue.cpp:449-455 AddSample: the sample that
    goes into the queue of the destination data group. *)
Definition copy_sample (x : sgroup) (s : sample) : sample :=
  mkS (s_ts s) 0 (sg_stamp x (s_ts s) (s_rec s)) (s_has s) (s_vbuf s).

Definition sort_grp (base : N) (x : sgroup) : recgrp :=
  mkRg (g_id (sg x)) (g_id (sg x) :: sg_vlsds x) (sg_store x) base (sg_rel x).

(** The observers are numbered 1, 2, ... in the order of construction. *)
Fixpoint number {A} (n : N) (l : list A) : list (N * A) :=
  match l with
  | [] => []
  | x :: r => (n, x) :: number (n + 1) r
  end.

(** The groups of the observers, and their record ids. *)
Definition observed (sgs : list sgroup) : list (N * sgroup) := number 1 (filter is_watched sgs).
Definition ids_of (l : list (N * sgroup)) (p : N) : list N :=
  match find (fun y => fst y =? p) l with
  | Some y => g_id (sg (snd y)) :: sg_vlsds (snd y)
  | None => []
  end.

(** OnSample of one of these observers; the world is the state of all of them. *)
Definition sort_call (base : N) (l : list (N * sgroup)) (p : N) (e : event) (w : N -> recst)
  : bool * (N -> recst) :=
  match find (fun y => fst y =? p) l with
  | Some y => (true, fun q => if q =? p then rec_on (sort_grp base (snd y)) e (w p) else w q)
  | None => (true, w)
  end.

(** sortingtask.cpp:76-147 for one data group: observers are constructed for the groups with samples,
    the data group is read ([blocks] are the data blocks), and each sample passed on goes to the queue
    of its destination. The result are the destination groups with the samples queued for them. *)
Definition sort_dg (fuel : nat) (base : N) (skip : bool) (idsize : N) (sgs : list sgroup)
    (blocks : list (list N)) : option (res (list (sgroup * list sample))) :=
  let d := mkDg idsize (map sg sgs) in
  let l := observed sgs in
  let needs := needs_of (ids_of l) in
  let g0 := fold_left (fun g p => obs_new p g) (map fst l) (mkDgo [] [] (fun _ => false)) in
  let g := init_fast needs (map g_id (d_groups d)) g0 in
  match read_data d (subscribing needs g0) (fun e => fst (notify_obs (sort_call base l) g e (fun _ => rec0)))
          fuel blocks with
  | None => None
  | Some (Ok evs) =>
      let w := fold_left (fun w e => snd (notify_obs (sort_call base l) g e w)) evs (fun _ => rec0) in
      Some (Ok (map (fun x =>
        (x, match find (fun y => g_id (sg (snd y)) =? g_id (sg x)) l with
            | Some y => map (copy_sample x) (ro_out (w (fst y)))
            | None => []
            end)) (filter (is_copied skip) sgs)))
  | Some Fail => Some Fail
  | Some UB => Some UB
  end.
