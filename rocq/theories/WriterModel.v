(** Model of a measurement with the MDF4 writer, as seen by one data group: the calls
    InitMeasurement, SaveSample, StartMeasurement, StopMeasurement (mdflib/src/mdfwriter.cpp) and
    the worker thread (mdflib/src/writecache.cpp), around the uncompressed drain of QueueModel.

    Simplifications: StartMeasurement also rewrites the master times of queued records
    (RecalculateTimeMaster, samplequeue.cpp:389-447), which does not touch the time stamps used
    here and is not modelled; other data groups only delay the worker. *)
From Verif Require Import Base StreamModel QueueModel.
Local Open Scope N_scope.

(** Where the worker thread is: waiting in its loop (writecache.cpp:100-106), inside SaveQueue
    (118-121), inside the CleanQueue after the loop (138-145), or ended. *)
Inductive pc : Type := Loop | InSave | Cleaning | Finished.

Record wst : Type := mkW {
  w_u : ust;
  w_started : bool;     (* write_state_ == StartMeas *)
  w_pc : pc;
  w_cfg : cfg;
  w_stopping : bool;    (* stop_thread_ *)
  w_alive : bool;       (* the queue is in cache_ *)
  w_late : list sample  (* saves after the queue is gone; nothing depends on it *)
}.

(** Calls and worker turns. [OStop] is the beginning of StopMeasurement (ExitWriteCache sets
    stop_thread_ and waits for the thread, writecache.cpp:92-98); [OJoin t] is its end: the thread
    has ended, the queues are destroyed and stop_time_ is stored (mdfwriter.cpp:321-326). *)
Inductive wop : Type := OSave (s : sample) | OTick | OStart (t : N) | OStop | OJoin (t : N).

Definition set_u (u : ust) (w : wst) : wst :=
  mkW u (w_started w) (w_pc w) (w_cfg w) (w_stopping w) (w_alive w) (w_late w).
Definition set_pc (p : pc) (w : wst) : wst :=
  mkW (w_u w) (w_started w) p (w_cfg w) (w_stopping w) (w_alive w) (w_late w).

(** TrimQueue alone, writecache.cpp:113-116. *)
Definition trim_only (stale : sample -> N) (c : cfg) (u : ust) : ust :=
  let q := cfg_trim stale c (u_q u) in
  mkU q (u_phase u) (u_out u) (u_enc u) (u_log u)
    (u_gone u ++ firstn (length (q_list (u_q u)) - length (q_list q)) (q_list (u_q u))).

Definition is_idle (p : phase) : bool := match p with Idle => true | Holding _ => false end.

(** A worker step inside SaveQueue/CleanQueue; [back] is where it returns to. *)
Definition drain_step (d : dgroup) (has_sd : N -> bool) (stale : sample -> N) (inside back : pc)
    (w : wst) : wst :=
  let u := work d has_sd stale (w_cfg w) (w_u w) in
  set_pc (if is_idle (u_phase u) then back else inside) (set_u u w).

(** One turn of the worker thread, writecache.cpp:100-147. *)
Definition tick (d : dgroup) (has_sd : N -> bool) (stale : sample -> N) (periodic : bool) (w : wst) : wst :=
  match w_pc w with
  | Loop =>
      if w_stopping w then drain_step d has_sd stale Cleaning Finished w
      else if w_started w
      then if periodic then drain_step d has_sd stale InSave Loop w else w
      else set_u (trim_only stale (w_cfg w) (w_u w)) w
  | InSave => drain_step d has_sd stale InSave Loop w
  | Cleaning => drain_step d has_sd stale Cleaning Finished w
  | Finished => w
  end.

Definition wstep (d : dgroup) (has_sd : N -> bool) (stale : sample -> N) (periodic : bool)
    (o : wop) (w : wst) : wst :=
  match o with
  | OSave s =>
      (* writecache.cpp:163-177: without a queue the sample is dropped *)
      if w_alive w then set_u (save s (w_u w)) w
      else mkW (w_u w) (w_started w) (w_pc w) (w_cfg w) (w_stopping w) (w_alive w) (w_late w ++ [s])
  | OTick => tick d has_sd stale periodic w
  | OStart t =>
      (* mdfwriter.cpp:279-282 *)
      mkW (w_u w) true (w_pc w) (mkC t (c_pre (w_cfg w)) 0 (c_trim (w_cfg w))) (w_stopping w)
          (w_alive w) (w_late w)
  | OStop => mkW (w_u w) (w_started w) (w_pc w) (w_cfg w) true (w_alive w) (w_late w)
  | OJoin t =>
      match w_pc w with
      | Finished =>
          (* cache_.clear() destroys what is left in the queue; then the stop time is set *)
          let u := w_u w in
          mkW (mkU (mkQ [] 0) (u_phase u) (u_out u) (u_enc u) (u_log u) (u_gone u ++ q_list (u_q u)))
              false Finished (mkC (c_start (w_cfg w)) (c_pre (w_cfg w)) t (c_trim (w_cfg w)))
              (w_stopping w) false (w_late w)
      | _ => w
      end
  end.

Fixpoint wrun (d : dgroup) (has_sd : N -> bool) (stale : sample -> N) (periodic : bool)
    (ops : list wop) (w : wst) : wst :=
  match ops with
  | [] => w
  | o :: r => wrun d has_sd stale periodic r (wstep d has_sd stale periodic o w)
  end.

(** After InitMeasurement (mdfwriter.cpp:240-277): not started, start and stop time zero. *)
Definition winit (pre : N) (trim : bool) : wst :=
  mkW ust0 false Loop (mkC 0 pre 0 trim) false true [].
