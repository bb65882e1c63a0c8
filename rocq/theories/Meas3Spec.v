(** Specification vocabulary for the file of an MDF3 measurement. *)
From Verif Require Import Base BlockModel StreamModel StreamSpec Stream3Model Stream3Proofs MetaModel IdentModel Meta3Model
  Meta3Spec Meas3Model.
Local Open Scope N_scope.

(** The data groups saved, in order, and no data group is saved again after another one has been:
    with more than one, each is saved once at the end of the measurement (samplequeue.cpp:90-97). *)
Definition sources3 (ops : list op3) : list nat :=
  flat_map (fun o => match o with Save3 k _ => [k] | _ => [] end) ops.
Definition in_turn3 (ops : list op3) : Prop :=
  forall l1 k l2, sources3 ops = l1 ++ k :: l2 -> In k l1 -> last l1 k = k.

(** The records saved for a data group. *)
Definition saved3 (k : nat) (ops : list op3) : list srec :=
  flat_map (fun o => match o with Save3 j recs => if (j =? k)%nat then recs else [] | _ => [] end) ops.

(** A new file: no data and no counters yet. *)
Definition new3 (h : hd3) : Prop :=
  Forall (fun d => d3_link d = 0 /\ Forall (fun g => g3_nof g = 0) (d3_cgs d)) (h3_dgs h).

(** A channel group after its records [recs] were saved; a data group with the data at [l]. *)
Definition cg3_after (recs : list srec) (g : cg3) : cg3 :=
  mkCg3 (g3_id g) (g3_size g) (w32 (occ (g3_id g) recs)) (g3_sr g) (g3_cns g) (g3_comment g).
Definition dg3_after (recs : list srec) (l : N) (d : dgb3) : dgb3 :=
  mkDgb3 (d3_ids d) l (map (cg3_after recs) (d3_cgs d)).

(** No group has samples after these calls. *)
Fixpoint fresh_from (k : nat) (ops : list op3) (ds : list dgb3) : bool :=
  match ds with
  | [] => true
  | d :: r => forallb (fun g => w32 (occ (g3_id g) (saved3 k ops)) =? 0) (d3_cgs d) && fresh_from (S k) ops r
  end.
Definition fresh3 (h : hd3) (ops : list op3) : bool := fresh_from 0 ops (h3_dgs h).

(** The start time in memory and in the file: StartMeasurement sets it if there are no samples yet,
    FinalizeMeasurement stores it. [done] are the calls before [ops]. *)
Fixpoint times3 (h : hd3) (done : list op3) (mem disk : time3) (ops : list op3) : time3 * time3 :=
  match ops with
  | [] => (mem, disk)
  | o :: r =>
      times3 h (done ++ [o]) (match o with Start3 t => if fresh3 h done then t else mem | _ => mem end)
        (match o with Final3 => mem | _ => disk end) r
  end.
Definition stored_time3 (h : hd3) (ops : list op3) : time3 := snd (times3 h [] (h3_time h) (h3_time h) ops).
Definition known_time3 (h : hd3) (ops : list op3) : time3 := fst (times3 h [] (h3_time h) (h3_time h) ops).

(** The calls fit the description: the data groups saved exist, and the times fit their fields. *)
Definition calls3_ok (h : hd3) (ops : list op3) : Prop :=
  (forall k, In k (sources3 ops) -> (k < length (h3_dgs h))%nat) /\
  (forall t, In (Start3 t) ops -> time3_ok t).

(** Records that fit a data group: its groups have different ids that fit a byte (one group has id 0,
    dg3block.cpp:151-153) and a record size, and each record has the id and the size of a group. *)
Definition records3_ok (d : dgb3) (recs : list srec) : Prop :=
  let t := dgroup3_of (set_ids3 d) in
  dg3_ok t /\ (forall g, In g (d3_cgs d) -> g3_id g < 256) /\ Forall (rec3_ok t) recs.

(** Every field of a time comes from one of two times. *)
Definition time3_of (a b t : time3) : Prop :=
  (t3_date t = t3_date a \/ t3_date t = t3_date b) /\ (t3_time t = t3_time a \/ t3_time t = t3_time b) /\
  (t3_ns t = t3_ns a \/ t3_ns t = t3_ns b) /\ (t3_offset t = t3_offset a \/ t3_offset t = t3_offset b) /\
  (t3_quality t = t3_quality a \/ t3_quality t = t3_quality b) /\ (t3_timer t = t3_timer a \/ t3_timer t = t3_timer b).

(** [sub] is [l] with some elements left out. *)
Inductive part_of {A} : list A -> list A -> Prop :=
| part_nil : part_of [] []
| part_keep : forall x s l, part_of s l -> part_of (x :: s) (x :: l)
| part_drop : forall x s l, part_of s l -> part_of s (x :: l).

(** What an observer of all channel groups is told for these records: each one once, in order, with
    its index within its group; and for [recs] after [prev]. *)
Definition told (recs : list srec) : list event := numbered (fun _ => true) [] recs.
Definition told_after (prev recs : list srec) : list event := numbered (fun _ => true) prev recs.

(** The same data group, up to the counters of its groups and the position of its data. *)
Definition same_but_nof (g g' : cg3) : Prop :=
  g' = mkCg3 (g3_id g) (g3_size g) (g3_nof g') (g3_sr g) (g3_cns g) (g3_comment g).
Definition same_description3 (d d' : dgb3) : Prop :=
  d3_ids d' = d3_ids d /\ Forall2 same_but_nof (d3_cgs d) (d3_cgs d').

(** Each counter is the number of the records [old] or of [old ++ new]. *)
Definition counters3 (old new : list srec) (d : dgb3) : Prop :=
  Forall (fun g => g3_nof g = occ (g3_id g) old \/ g3_nof g = occ (g3_id g) (old ++ new)) (d3_cgs d).

(** The header without the start time and the data groups. *)
Definition same_texts3 (h h' : hd3) : Prop :=
  h3_author h' = h3_author h /\ h3_org h' = h3_org h /\ h3_project h' = h3_project h /\
  h3_subject h' = h3_subject h /\ h3_comment h' = h3_comment h.
