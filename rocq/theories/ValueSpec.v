(** Specification vocabulary for the values of a measurement. *)
From Verif Require Import Base BlockModel ConvModel CcModel QueueModel StreamModel ObsModel ObsSpec ChannelModel ChannelSpec MetaModel MeasModel ValueModel.
From Coq Require Import Reals.
From Flocq Require Import Core.Core IEEE754.BinarySingleNaN.
Local Open Scope N_scope.

(** The SetChannelValue calls on group [g] before its sample number [n] is saved; [None] if the program
    saves fewer samples of the group. *)
Fixpoint calls_before (p : list pop) (g : nat) (n : nat) : option (list setop) :=
  match p with
  | [] => None
  | PSet k o :: r => option_map (fun l => if (k =? g)%nat then o :: l else l) (calls_before r g n)
  | PSave k _ :: r =>
      if (k =? g)%nat then match n with O => Some [] | S m => calls_before r g m end
      else calls_before r g n
  end.

(** The time given with sample number [n] of group [g]. *)
Fixpoint time_of (p : list pop) (g : nat) (n : nat) : N :=
  match p with
  | [] => 0
  | PSet _ _ :: r => time_of r g n
  | PSave k ts :: r =>
      if (k =? g)%nat then match n with O => ts | S m => time_of r g m end else time_of r g n
  end.

(** The number of samples of group [g]. *)
Definition saves (p : list pop) (g : nat) : nat :=
  length (filter (fun o => match o with PSave k _ => (k =? g)%nat | _ => false end) p).

(** What a reader must show for an element of a channel after the calls [l]: the value set last and its
    validity; zero if none was set. *)
Definition value_after (f2d d2f : N -> N) (c : chan) (l : list setop) (ci : nat) (idx : N) : value * bool :=
  match last_write l ci idx with
  | Some (v, valid) => (as_stored f2d d2f c v, if ch_invalid c then valid else true)
  | None => (zero_value f2d c, true)
  end.

(** The program fits the description [gs] the application has made: it sets numeric channels of
    ordinary groups to values that fit, and saves samples of ordinary groups. *)
Definition call_ok (d2f : N -> N) (gs : list cg) (o : pop) : Prop :=
  match o with
  | PSet k o => exists g, nth_error gs k = Some g /\ is_vlsd g = false /\ op_ok d2f (chans_of g) (chans_of (prepare_cg g)) o
  | PSave k ts => exists g, nth_error gs k = Some g /\ is_vlsd g = false /\ ts < 2 ^ 63
  end.
Definition sizes_small (gs : list cg) : Prop := Forall (fun g => is_vlsd g = false -> record_bytes (chans_of g) < 2 ^ 28) gs.

(** The observer of a channel [c] of group [g] of the file (ObsModel.v), with the value functions of
    ChannelModel. *)
Definition obs_chan (h2d f2d : N -> N) (g : cg) (c : cn) : ObsModel.chan value :=
  let ch := chan_of g c in
  ObsModel.mkChan KFixed (g_record g) 0 (ch_array ch) (fun _ _ => (false, 0))
    (fun rec idx => match get_channel h2d f2d ch rec idx with Ok (v, ok) => (ok, v) | _ => (false, VU 0) end)
    (fun _ => VU 0).

(** The samples of a program as the queue holds them. *)
Definition program_samples (d2f : N -> N) (gs : list cg) (p : list pop) : res (list sample) :=
  run_prog d2f gs p (new_bufs gs).

(* ------------------------------------------------------------------ *)
(** ** Times *)

(** The value of a time of [t] seconds in a channel: a float, or the whole seconds; an unsigned channel
    has zero for times before the start. [None]: the channel cannot hold it. *)
Definition time_value (c : chan) (t : dbl) : option value :=
  match ch_dtype c with
  | FloatLe | FloatBe => Some (VF (bits_of_dbl t))
  | UnsignedLe | UnsignedBe =>
      let z := Z.max 0 (Btrunc t) in
      if is_finite t && (z <? 2 ^ Z.of_N (ch_bits c))%Z then Some (VU (Z.to_N z)) else None
  | SignedLe | SignedBe =>
      let z := Btrunc t in
      let m := (2 ^ (Z.of_N (ch_bits c) - 1))%Z in
      if is_finite t && (- m <=? z)%Z && (z <? m)%Z then Some (VS z) else None
  | _ => None
  end.

(** The position of the time master: the first channel of type Master with sync type Time or None. *)
Fixpoint master_pos (l : list cn) : option nat :=
  match l with
  | [] => None
  | mkCn h _ :: r =>
      if (n_type h =? 2) && ((n_sync h =? 0) || (n_sync h =? 1)) then Some 0%nat else option_map S (master_pos r)
  end.

(** The time [ts] after the start [T], in seconds: a difference of nanoseconds, divided in double
    arithmetic. *)
Definition seconds (T ts : N) : dbl := fdiv (of_Z (Z.of_N ts - Z.of_N T)) (of_Z 1000000000).

(** The calls of a sample with the one that sets its time. *)
Definition stamped (off : N -> bool) (T : N) (g : cg) (ts : N) (ops : list setop) : list setop :=
  match master_pos (g_cns g) with
  | None => ops
  | Some mi =>
      if off (g_record g) then ops
      else match nth_error (chans_of g) mi with
           | None => ops
           | Some c => match time_value c (seconds T ts) with Some v => ops ++ [mkOp mi v true 0] | None => ops end
           end
  end.

(** The time master of a group of the description is a number without invalidation bit and without
    conversion. *)
Definition master_plain (off : N -> bool) (g : cg) : Prop :=
  is_vlsd g = false -> off (g_record g) = false ->
  forall mi, master_pos (g_cns (prepare_cg g)) = Some mi ->
  exists c0 h cx, nth_error (chans_of g) mi = Some c0 /\ numeric c0 /\ ch_invalid c0 = false /\
    nth_error (g_cns g) mi = Some (mkCn h cx) /\ n_conv h = None.

(** The time of a sample can be held by the time master of its group. *)
Definition time_fits (off : N -> bool) (T : N) (g : cg) (ts : N) : Prop :=
  off (g_record g) = false -> forall mi c, master_pos (g_cns (prepare_cg g)) = Some mi ->
  nth_error (chans_of (prepare_cg g)) mi = Some c -> time_value c (seconds T ts) <> None.

(* ------------------------------------------------------------------ *)
(** ** What a reader shows *)

(** The reader of data group [d'], made from the channel groups [gs] of the application, shows the
    values of the samples whose calls are [calls group number]: for every numeric channel of an ordinary
    group, any observers [ids] that do not stop the reading, and any that is attached and subscribes to
    the group, the observer of the channel shows for every sample what was set last. *)
Definition values_shown (h2d f2d d2f : N -> N) (gs : list cg) (calls : nat -> nat -> option (list setop))
    (fuel : nat) (d' : dg) (blocks : list (list N)) : Prop :=
  forall j g ci c0, nth_error gs j = Some g -> is_vlsd g = false -> nth_error (chans_of g) ci = Some c0 -> numeric c0 ->
  exists g' c', nth_error (d_cgs d') j = Some g' /\ nth_error (g_cns g') ci = Some c' /\
    g_record g' = g_record g /\ ch_array (chan_of g' c') = ch_array c0 /\ ch_dtype (chan_of g' c') = ch_dtype c0 /\
    (forall n, calls j n <> None <-> N.of_nat n < g_samples g') /\
    forall rv ids g0 q, q <> 0 -> In q (do_list g0) -> In (g_record g) (ids q) ->
      let og := init_fast (needs_of ids) (map g_record (d_cgs d')) g0 in
      let ch := obs_chan h2d f2d g' c' in
      let answer := fun _ _ => true in
      exists evs,
        read_data (dgroup_of d') (subscribing (needs_of ids) g0) (fun ev => fst (notify_obs (noted answer) og ev [])) fuel blocks
          = Some (Ok evs) /\
        forall n idx ops, calls j n = Some ops -> idx < ch_array c0 ->
          get_sample (VU 0) ch (run_obs ch rv (calls_of q (all_calls answer og evs)) (cobs_new (VU 0) ch (g_samples g'))) (N.of_nat n) idx
          = let '(v, ok) := value_after f2d d2f (chan_of g' c') ops ci idx in (ok, v).

(** The calls of a program with those that set the times, for a measurement started at [T]. *)
Definition timed_calls (off : N -> bool) (T : N) (gs : list cg) (p : list pop) (j n : nat) : option (list setop) :=
  match nth_error gs j, calls_before p j n with
  | Some g, Some ops => Some (stamped off T (prepare_cg g) (time_of p j n) ops)
  | _, _ => None
  end.
