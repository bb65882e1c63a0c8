(** Model of the observer lists of a data group (mdflib/src/idatagroup.cpp,
    mdflib/src/isampleobserver.cpp) and of the channel observer (mdflib/src/channelobserver.h). *)
From Verif Require Import Base StreamModel.
Local Open Scope N_scope.

(* ------------------------------------------------------------------ *)
(** ** The observer list of a data group *)

(** An ISampleObserver*; 0 is nullptr. *)
Definition ptr := N.

(** IDataGroup::observer_list_ and fast_observer_list_ (a std::map), and for each observer whether
    its data_group_ is this data group (isampleobserver.h:225). *)
Record dgo : Type := mkDgo {
  do_list : list ptr;
  do_fast : list (N * list ptr);
  do_live : ptr -> bool
}.

Definition set_live (f : ptr -> bool) (p : ptr) (v : bool) : ptr -> bool :=
  fun q => if q =? p then v else f q.

(** idatagroup.cpp:16-18 AttachSampleObserver. *)
Definition attach (p : ptr) (g : dgo) : dgo := mkDgo (do_list g ++ [p]) (do_fast g) (do_live g).

(** idatagroup.cpp:20-30 DetachSampleObserver. *)
Definition detach (p : ptr) (g : dgo) : dgo :=
  mkDgo (filter (fun q => negb (q =? p)) (do_list g)) (do_fast g) (do_live g).

(** isampleobserver.cpp:12-23, the constructor: data_group_ is set and the observer attached. *)
Definition obs_new (p : ptr) (g : dgo) : dgo :=
  attach p (mkDgo (do_list g) (do_fast g) (set_live (do_live g) p true)).

(** isampleobserver.cpp:29-33 AttachObserver. *)
Definition obs_attach (p : ptr) (g : dgo) : dgo := if do_live g p then attach p g else g.

(** isampleobserver.cpp:35-40 DetachObserver; also the destructor, lines 25-27. *)
Definition obs_detach (p : ptr) (g : dgo) : dgo :=
  if do_live g p
  then let h := detach p g in mkDgo (do_list h) (do_fast h) (set_live (do_live h) p false)
  else g.

(** idatagroup.cpp:32-40 DetachAllSampleObservers. *)
Definition detach_all (g : dgo) : dgo :=
  mkDgo [] (do_fast g)
    (fold_left (fun f p => if p =? 0 then f else set_live f p false) (do_list g) (do_live g)).

(** isampleobserver.h:80-82 IsRecordIdNeeded of the observer [p]: its record_id_list_. *)
Definition needs_of (ids : ptr -> list N) (p : ptr) (id : N) : bool := existsb (N.eqb id) (ids p).

(** idatagroup.cpp:195-216 InitFastObserverList; [groups] are the record ids of ChannelGroups().
    emplace keeps an entry that is already there. *)
Definition fast_step (needs : ptr -> N -> bool) (l : list ptr) (fast : list (N * list ptr)) (id : N)
  : list (N * list ptr) :=
  let temp := filter (fun p => negb (p =? 0) && needs p id) l in
  match temp with
  | [] => fast
  | _ => if existsb (fun e => fst e =? id) fast then fast else fast ++ [(id, temp)]
  end.
Definition init_fast (needs : ptr -> N -> bool) (groups : list N) (g : dgo) : dgo :=
  mkDgo (do_list g) (fold_left (fast_step needs (do_list g)) groups []) (do_live g).

(** idatagroup.cpp:149-155 IsSubscribingOnRecord. *)
Definition subscribing (needs : ptr -> N -> bool) (g : dgo) (id : N) : bool :=
  existsb (fun p => negb (p =? 0) && needs p id) (do_list g).

Section Notify.
Context {W : Type}.
(** OnSample of the observer, with whatever it changes. *)
Variable call : ptr -> event -> W -> bool * W.

(** The loops idatagroup.cpp:49-57 and 66-73. *)
Fixpoint call_all (l : list ptr) (e : event) (w : W) : bool * W :=
  match l with
  | [] => (true, w)
  | p :: r =>
      if p =? 0 then call_all r e w
      else let (go, w1) := call p e w in if go then call_all r e w1 else (false, w1)
  end.

(** idatagroup.cpp:42-76 NotifySampleObservers. *)
Definition notify_obs (g : dgo) (e : event) (w : W) : bool * W :=
  match do_fast g with
  | [] => (false, w)
  | [_] => call_all (do_list g) e w
  | fast =>
      match find (fun x => fst x =? e_id e) fast with
      | None => (true, w)
      | Some x => call_all (snd x) e w
      end
  end.
End Notify.

(* ------------------------------------------------------------------ *)
(** ** The channel observer *)

(** The kinds of channels OnSample distinguishes (channelobserver.h:88-165). *)
Inductive ckind : Type := KVirtual | KVariable | KFixed.

(** What the observer asks of its channel: RecordId of the group, VlsdRecordId, ArraySize,
    GetUnsignedValue and GetChannelValue of a record and an array index (validity and value), and
    GetVirtualSample. *)
Record chan (T : Type) : Type := mkChan {
  h_kind : ckind;
  h_rid : N;
  h_vlsd : N;
  h_asize : N;
  h_off : list N -> N -> bool * N;
  h_dec : list N -> N -> bool * T;
  h_virt : N -> T
}.
Arguments mkChan {T}. Arguments h_kind {T}. Arguments h_rid {T}. Arguments h_vlsd {T}.
Arguments h_asize {T}. Arguments h_off {T}. Arguments h_dec {T}. Arguments h_virt {T}.

(** valid_list_, value_list_ and offset_list_. *)
Record cobs (T : Type) : Type := mkObs {
  b_values : list T;
  b_valids : list bool;
  b_offsets : list N
}.
Arguments mkObs {T}. Arguments b_values {T}. Arguments b_valids {T}. Arguments b_offsets {T}.

(** channelobserver.h:42-58: the constructor sizes the lists; nof is NofSamples of the group. *)
Definition cobs_new {T} (t0 : T) (h : chan T) (nof : N) : cobs T :=
  let n := N.to_nat (w64 (nof * h_asize h)) in
  mkObs (repeat t0 n) (repeat false n) (match h_kind h with KVariable => repeat 0 n | _ => [] end).

(** list[index] = v behind the test index < list.size(). *)
Definition store {A} (l : list A) (ix : N) (v : A) : list A :=
  if ix <? N.of_nat (length l)
  then firstn (N.to_nat ix) l ++ [v] ++ skipn (S (N.to_nat ix)) l else l.

Definition put_value {T} (ix : N) (v : T) (s : cobs T) := mkObs (store (b_values s) ix v) (b_valids s) (b_offsets s).
Definition put_valid {T} (ix : N) (v : bool) (s : cobs T) := mkObs (b_values s) (store (b_valids s) ix v) (b_offsets s).
Definition put_off {T} (ix : N) (v : N) (s : cobs T) := mkObs (b_values s) (b_valids s) (store (b_offsets s) ix v).

(** sample * array_size + array_index in uint64_t. *)
Definition sample_index (asize sample i : N) : N := w64 (w64 (sample * asize) + i).

(** for (array_index = 0; array_index < array_size; ++array_index). *)
Definition each {S : Type} (asize : N) (body : N -> S -> S) (s : S) : S :=
  fold_left (fun s i => body (N.of_nat i) s) (seq 0 (N.to_nat asize)) s.

(** channelobserver.h:73-170 OnSample; it always returns true. [rv] is ReadVlsdData(). *)
Definition on_sample {T} (h : chan T) (rv : bool) (e : event) (s : cobs T) : cobs T :=
  let parse := (e_id e =? h_rid h) || ((0 <? h_vlsd h) && (e_id e =? h_vlsd h)) in
  if negb parse then s else
  match h_kind h with
  | KVirtual =>
      if h_rid h =? e_id e then
        each (h_asize h) (fun i s =>
          let ix := sample_index (h_asize h) (e_sample e) i in
          put_valid ix true (put_value ix (h_virt h (e_sample e)) s)) s
      else s
  | KVariable =>
      if h_rid h =? e_id e then
        each (h_asize h) (fun i s =>
          let (valid, off) := h_off h (e_rec e) i in
          let ix := sample_index (h_asize h) (e_sample e) i in
          let s1 := put_valid ix valid (put_off ix off s) in
          if rv && (h_vlsd h =? 0) then
            let (valid2, v) := h_dec h (e_rec e) i in
            put_value ix v (put_valid ix valid2 s1)
          else s1) s
      else if (0 <? h_vlsd h) && (e_id e =? h_vlsd h) then
        each (h_asize h) (fun i s =>
          let ix := sample_index (h_asize h) (e_sample e) i in
          let (valid, v) := h_dec h (e_rec e) i in
          put_valid ix valid (put_value ix v s)) s
      else s
  | KFixed =>
      if h_rid h =? e_id e then
        each (h_asize h) (fun i s =>
          let ix := sample_index (h_asize h) (e_sample e) i in
          let (valid, v) := h_dec h (e_rec e) i in
          put_valid ix valid (put_value ix v s)) s
      else s
  end.

(** channelobserver.h:176-183 GetSampleUnsigned (and 195-203, 215-222, 234-250: the same with a
    conversion of the stored value): the returned validity and the stored value. *)
Definition get_sample {T} (t0 : T) (h : chan T) (s : cobs T) (sample i : N) : bool * T :=
  let ix := sample_index (h_asize h) sample i in
  ( if ix <? N.of_nat (length (b_valids s)) then nth (N.to_nat ix) (b_valids s) false else false,
    if ix <? N.of_nat (length (b_values s)) then nth (N.to_nat ix) (b_values s) t0 else t0 ).

(** channelobserver.cpp:76-83 GetSampleByteArray. *)
Definition get_byte_array {T} (t0 : T) (s : cobs T) (sample : N) : bool * T :=
  ( if sample <? N.of_nat (length (b_valids s)) then nth (N.to_nat sample) (b_valids s) false else false,
    if sample <? N.of_nat (length (b_values s)) then nth (N.to_nat sample) (b_values s) t0 else t0 ).

(** GetOffsetList()[index] for a sample and an array index below the sizes. *)
Definition get_offset {T} (h : chan T) (s : cobs T) (sample i : N) : option N :=
  nth_error (b_offsets s) (N.to_nat (sample_index (h_asize h) sample i)).
