(** Specification vocabulary for the file of a measurement. *)
From Verif Require Import Base BlockModel MetaModel MetaSpec IdentModel IdentSpec QueueModel MeasModel.
Local Open Scope N_scope.

(** The data groups saved, in order. *)
Definition sources (ops : list mop) : list nat :=
  flat_map (fun o => match o with MSave k _ _ => [k] | _ => [] end) ops.

(** No data group is saved again after another one has been: with more than one, each is saved once
    at the end of the measurement, or the data is compressed (mdf4writer.cpp:87-90). *)
Definition in_turn (ops : list mop) : Prop :=
  forall l1 k l2, sources ops = l1 ++ k :: l2 -> In k l1 -> last l1 k = k.

(** The bytes saved for a data group, and its counters after the last save. *)
Definition saved (k : nat) (ops : list mop) : list N :=
  flat_map (fun o => match o with MSave j bytes _ => if (j =? k)%nat then bytes else [] | _ => [] end) ops.
Definition counters (k : nat) (ops : list mop) : option enc :=
  fold_left (fun a o => match o with MSave j _ e => if (j =? k)%nat then Some e else a | _ => a end) ops None.

(** The start time of the last StartMeasurement before the last FinalizeMeasurement; the one of the
    new file if there is none. *)
Definition times (t : stamp4) (ops : list mop) : stamp4 * stamp4 :=
  fold_left (fun '(mem, disk) o => match o with
                                   | MStart t => (t, disk)
                                   | MFinal => (mem, mem)
                                   | MSave _ _ _ => (mem, disk)
                                   end) ops (t, t).
Definition stored_time (t : stamp4) (ops : list mop) : stamp4 := snd (times t ops).

(** A channel group with counters: the number of samples, and of a VLSD group the number of bytes as
    two halves. *)
Definition counted (c : option enc) (g : cg) : cg :=
  match c with
  | None => g
  | Some e =>
      mkCg (g_record g) (w64 (e_cnt e (g_record g))) (g_flags g) (g_separator g)
        (if N.testbit (g_flags g) 0 then w32 (e_tot e (g_record g)) else g_data g)
        (if N.testbit (g_flags g) 0 then w32 (e_tot e (g_record g) / 2 ^ 32) else g_inval g)
        (g_name g) (g_si g) (g_md g) (g_cns g)
  end.

(** Data group [d], number [k], after the calls, with its data at [l]. *)
Definition dg_after (ops : list mop) (k : nat) (l : N) (d : dg) : dg :=
  mkDg (d_idsize d) (d_md d) l (map (counted (counters k ops)) (d_cgs d)).

(** The calls fit the description: the data groups that are saved exist and have no data before, and
    the times are numbers of their sizes. *)
Definition calls_ok (h : hd) (ops : list mop) : Prop :=
  (forall k, In k (sources ops) -> exists d, nth_error (h_dgs h) k = Some d /\ d_link d = 0) /\
  (forall t, In (MStart t) ops -> stamp_ok t).
