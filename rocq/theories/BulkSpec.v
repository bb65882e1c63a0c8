(** Specification vocabulary for records built with data writers: the values of a record as a history of
    SetChannelValue calls, without any bytes. *)
From Verif Require Import Base BlockModel StreamModel ChannelModel ChannelSpec MetaModel MeasModel ValueModel ValueSpec BulkModel.
Local Open Scope N_scope.
Local Open Scope list_scope.

(** The number of the channel that layout number [y] of a group describes: the masters are left out. *)
Definition not_master (cs : list chan) (ci : nat) : bool :=
  match nth_error cs ci with Some c => match ch_type c with Master => false | _ => true end | None => false end.
Definition layout_channel (g : cg) (y : nat) : option nat :=
  nth_error (filter (not_master (chans_of g)) (seq 0 (length (chans_of g)))) y.

(** A typed value as the value of a channel. *)
Definition value_of (f2d : N -> N) (v : tval) : value :=
  match v with TU _ n => VU n | TS _ z => VS z | TF n => VF (f2d n) | TD n => VF n end.

Definition number_type (t : dtype) : bool :=
  match t with UnsignedLe | UnsignedBe | SignedLe | SignedBe | FloatLe | FloatBe => true | _ => false end.
(** SetValue has an effect: the channel holds numbers of the size of the argument. *)
Definition takes (c : chan) (v : tval) : bool := number_type (ch_dtype c) && (data_bytes c =? N.of_nat (size_of v)).

(** The argument has the kind of the channel. *)
Definition tval_fits (f2d d2f : N -> N) (c : chan) (v : tval) : Prop :=
  match ch_dtype c, v with
  | UnsignedLe, TU _ n | UnsignedBe, TU _ n => n < 2 ^ ch_bits c
  | SignedLe, TS _ z | SignedBe, TS _ z => (- Z.of_N (2 ^ (ch_bits c - 1)) <= z < Z.of_N (2 ^ (ch_bits c - 1)))%Z
  | FloatLe, TF n | FloatBe, TF n => n < 2 ^ 32 /\ d2f (f2d n) = n
  | FloatLe, TD n | FloatBe, TD n => n < 2 ^ 64
  | _, _ => False
  end.

(** The validity of a channel after the calls. *)
Definition valid_after (l : list setop) (ci : nat) : bool :=
  match last_write l ci 0 with Some (_, ok) => ok | None => true end.

(** The calls behind the buffers of the groups and of the data writers. *)
Record hist : Type := mkHist { hi_group : nat -> list setop; hi_writers : list (nat * list setop) }.
Definition put_hist (f : nat -> list setop) (k : nat) (l : list setop) : nat -> list setop := fun j => if (j =? k)%nat then l else f j.
Definition put_calls (ws : list (nat * list setop)) (w : nat) (l : list setop) : list (nat * list setop) :=
  match nth_error ws w with Some (k, _) => firstn w ws ++ (k, l) :: skipn (S w) ws | None => ws end.

(** SetValue as a call: the value, the validity stays. *)
Definition typed_call (f2d : N -> N) (g : cg) (y : nat) (v : tval) (l : list setop) : list setop :=
  match layout_channel g y with
  | None => l
  | Some ci =>
      match nth_error (chans_of g) ci with
      | None => l
      | Some c => if takes c v then l ++ [mkOp ci (value_of f2d v) (valid_after l ci) 0] else l
      end
  end.

(** The samples of a program: group, time and the calls behind the record. *)
Fixpoint bulk_history (f2d : N -> N) (gs : list cg) (p : list bop) (h : hist) : list (nat * N * list setop) :=
  match p with
  | [] => []
  | BSet k o :: r => bulk_history f2d gs r (mkHist (put_hist (hi_group h) k (hi_group h k ++ [o])) (hi_writers h))
  | BSave k ts :: r => (k, ts, hi_group h k) :: bulk_history f2d gs r h
  | BNew k :: r => bulk_history f2d gs r (mkHist (hi_group h) (hi_writers h ++ [(k, hi_group h k)]))
  | BValue w y v :: r =>
      match nth_error (hi_writers h) w with
      | None => []
      | Some (k, l) =>
          match nth_error gs k with
          | None => []
          | Some g => bulk_history f2d gs r (mkHist (hi_group h) (put_calls (hi_writers h) w (typed_call f2d g y v l)))
          end
      end
  | BReset w :: r => bulk_history f2d gs r (mkHist (hi_group h) (put_calls (hi_writers h) w []))
  | BRaw w _ :: r => bulk_history f2d gs r h
  | BAdd w ts :: r =>
      match nth_error (hi_writers h) w with
      | None => []
      | Some (k, l) => (k, ts, l) :: bulk_history f2d gs r h
      end
  end.
Definition no_hist : hist := mkHist (fun _ => []) [].
(** Sample number [n] of group [j]. *)
Definition bulk_sample (f2d : N -> N) (gs : list cg) (p : list bop) (j n : nat) : option (nat * N * list setop) :=
  nth_error (filter (fun x => (fst (fst x) =? j)%nat) (bulk_history f2d (map prepare_cg gs) p no_hist)) n.
Definition bulk_calls (f2d : N -> N) (gs : list cg) (p : list bop) (j n : nat) : option (list setop) :=
  option_map snd (bulk_sample f2d gs p j n).
Definition bulk_time (f2d : N -> N) (gs : list cg) (p : list bop) (j n : nat) : N :=
  match bulk_sample f2d gs p j n with Some (_, ts, _) => ts | None => 0 end.
(** The calls with those that set the times, for a measurement started at [T]. *)
Definition bulk_timed (f2d : N -> N) (off : N -> bool) (T : N) (gs : list cg) (p : list bop) (j n : nat) : option (list setop) :=
  match nth_error gs j, bulk_calls f2d gs p j n with
  | Some g, Some ops => Some (stamped off T (prepare_cg g) (bulk_time f2d gs p j n) ops)
  | _, _ => None
  end.

(** The program fits the description: calls of ValueSpec on the groups; data writers are made for
    ordinary groups and used after that; a value that a channel takes has the kind of the channel; raw
    records have another length than the record, that is, are refused. [ws] are the groups of the data
    writers made so far. *)
Fixpoint bulk_ok (f2d d2f : N -> N) (gs : list cg) (ws : list nat) (p : list bop) : Prop :=
  match p with
  | [] => True
  | BSet k o :: r => ValueSpec.call_ok d2f gs (PSet k o) /\ bulk_ok f2d d2f gs ws r
  | BSave k ts :: r => ValueSpec.call_ok d2f gs (PSave k ts) /\ bulk_ok f2d d2f gs ws r
  | BNew k :: r => (exists g, nth_error gs k = Some g /\ is_vlsd g = false) /\ bulk_ok f2d d2f gs (ws ++ [k]) r
  | BValue w y v :: r =>
      (exists k g ci c0 c, nth_error ws w = Some k /\ nth_error gs k = Some g /\ layout_channel (prepare_cg g) y = Some ci /\
         nth_error (chans_of g) ci = Some c0 /\ nth_error (chans_of (prepare_cg g)) ci = Some c /\
         (takes c v = true -> numeric c0 /\ tval_fits f2d d2f c v)) /\
      bulk_ok f2d d2f gs ws r
  | BReset w :: r => (w < length ws)%nat /\ bulk_ok f2d d2f gs ws r
  | BRaw w bytes :: r =>
      (exists k g, nth_error ws w = Some k /\ nth_error gs k = Some g /\ N.of_nat (length bytes) <> record_bytes (chans_of g)) /\
      bulk_ok f2d d2f gs ws r
  | BAdd w ts :: r => (w < length ws)%nat /\ ts < 2 ^ 63 /\ bulk_ok f2d d2f gs ws r
  end.
