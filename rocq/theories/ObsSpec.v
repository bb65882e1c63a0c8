(** Specification of the notification of observers (C53) and of the sample lists of a channel
    observer (C52), in terms of the events only. *)
From Verif Require Import Base StreamModel ObsModel.
Local Open Scope N_scope.

(** What a program does with the observers of a data group. *)
Inductive obs_op : Type := ONew (p : ptr) | OAttach (p : ptr) | ODetach (p : ptr) | ODetachAll.
Definition obs_apply (g : dgo) (o : obs_op) : dgo :=
  match o with
  | ONew p => obs_new p g
  | OAttach p => obs_attach p g
  | ODetach p => obs_detach p g
  | ODetachAll => detach_all g
  end.
Definition dgo_new : dgo := mkDgo [] [] (fun _ => false).

(** How often the observer [p] is attached after a history: its constructor attaches it, each further
    attachment counts, detaching ends all of them, and afterwards only a new construction attaches. *)
Definition att_step (p : ptr) (st : bool * nat) (o : obs_op) : bool * nat :=
  match o with
  | ONew q => if q =? p then (true, S (snd st)) else st
  | OAttach q => if (q =? p) && fst st then (true, S (snd st)) else st
  | ODetach q => if (q =? p) && fst st then (false, 0%nat) else st
  | ODetachAll => (false, 0%nat)
  end.
Definition attachments (p : ptr) (ops : list obs_op) : nat :=
  snd (fold_left (att_step p) ops (false, 0%nat)).

(** The observers asked about an event: one after the other, until one answers false. *)
Fixpoint ask {W} (call : ptr -> event -> W -> bool * W) (l : list ptr) (e : event) (w : W) : bool * W :=
  match l with
  | [] => (true, w)
  | p :: r => if fst (call p e w) then ask call r e (snd (call p e w)) else (false, snd (call p e w))
  end.

(** The latest event that satisfies [f]. *)
Fixpoint latest (f : event -> bool) (l : list event) : option event :=
  match l with
  | [] => None
  | e :: r => match latest f r with Some x => Some x | None => if f e then Some e else None end
  end.

Definition is_event (id sample : N) (e : event) : bool := (e_id e =? id) && (e_sample e =? sample).

(** What the record of a sample says: the value of a virtual channel is the number of the sample; a
    variable length channel whose values are not asked for only tells if its offset is valid. *)
Definition of_record {T} (t0 : T) (h : chan T) (rv : bool) (sample : N) (data : list N) (i : N) : bool * T :=
  match h_kind h with
  | KVirtual => (true, h_virt h sample)
  | KFixed => h_dec h data i
  | KVariable => if rv then h_dec h data i else (fst (h_off h data i), t0)
  end.

(** The value and validity a channel observer must show for a sample, of a channel without a separate
    variable length group. *)
Definition shown {T} (t0 : T) (h : chan T) (rv : bool) (evs : list event) (sample i : N) : bool * T :=
  match latest (is_event (h_rid h) sample) evs with
  | None => (false, t0)
  | Some e => of_record t0 h rv sample (e_rec e) i
  end.

(** The offset of a variable length sample. *)
Definition shown_offset {T} (h : chan T) (evs : list event) (sample i : N) : N :=
  match latest (is_event (h_rid h) sample) evs with
  | None => 0
  | Some e => snd (h_off h (e_rec e) i)
  end.

(** Of a channel with a separate variable length group: the value is the one of the record with the
    same number in that group, the validity what the latest record of either group says. *)
Definition shown_vlsd {T} (t0 : T) (h : chan T) (evs : list event) (sample i : N) : bool * T :=
  ( match latest (fun e => is_event (h_rid h) sample e || is_event (h_vlsd h) sample e) evs with
    | None => false
    | Some e => if e_id e =? h_rid h then fst (h_off h (e_rec e) i) else fst (h_dec h (e_rec e) i)
    end,
    match latest (is_event (h_vlsd h) sample) evs with
    | None => t0
    | Some e => snd (h_dec h (e_rec e) i)
    end ).

(** The events, each of them as often as the observer [p] was called with it. *)
Definition calls_of (p : ptr) (log : list (ptr * event)) : list event :=
  map snd (filter (fun x => fst x =? p) log).

(** An observer that answers [answer] and whose calls are written down. *)
Definition noted (answer : ptr -> event -> bool) (p : ptr) (e : event) (w : list (ptr * event))
  : bool * list (ptr * event) := (answer p e, w ++ [(p, e)]).

(** A channel observer after a sequence of calls, and all calls of the observers of a data group. *)
Definition run_obs {T} (h : chan T) (rv : bool) (evs : list event) (s : cobs T) : cobs T :=
  fold_left (fun s e => on_sample h rv e s) evs s.
Definition all_calls (answer : ptr -> event -> bool) (g : dgo) (evs : list event) : list (ptr * event) :=
  fold_left (fun w e => snd (notify_obs (noted answer) g e w)) evs [].

(** The numbers of the samples for which the sizes of the lists and the indices fit in 64 bits. *)
Definition fits {T} (h : chan T) (e : event) : Prop :=
  e_id e = h_rid h \/ (h_kind h = KVariable /\ h_vlsd h <> 0 /\ e_id e = h_vlsd h) ->
  e_sample e * h_asize h + h_asize h <= 2 ^ 64.

(** The observers of a list that subscribe to a record id, and those that are asked about an event
    when some answer false: up to and including the first of them. *)
Definition subscribers (needs : ptr -> N -> bool) (l : list ptr) (id : N) : list ptr :=
  filter (fun p => negb (p =? 0) && needs p id) l.
Fixpoint asked (answer : ptr -> bool) (l : list ptr) : list ptr :=
  match l with
  | [] => []
  | p :: r => p :: if answer p then asked answer r else []
  end.
