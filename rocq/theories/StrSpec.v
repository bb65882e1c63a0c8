(** Specification vocabulary for texts, byte arrays and CANopen dates in channels of fixed length. *)
From Verif Require Import Base BlockModel StreamModel QueueModel ObsModel ObsSpec ChannelModel ChannelSpec TextModel TimeModel MetaModel MeasModel
  ValueModel ValueSpec StrModel.
Local Open Scope N_scope.
Local Open Scope list_scope.

(** The channels of the description that hold characters: a text or an array of bytes, of a fixed whole
    number of bytes, one value per sample. *)
Definition is_chars (t : dtype) : Prop :=
  match t with
  | StrAscii | StrUtf8 | StrUtf16Le | StrUtf16Be | ByteArray | MimeSample | MimeStream => True
  | _ => False
  end.
Definition chars (c : chan) : Prop :=
  ch_type c = FixedLength /\ is_chars (ch_dtype c) /\ ch_array c <= 1 /\ 8 <= ch_bits c /\ ch_bits c mod 8 = 0.
(** CANopen dates and times; their size is set when the file is prepared. *)
Definition is_date (t : dtype) : Prop := t = CanOpenDate \/ t = CanOpenTime.
Definition dates (c : chan) : Prop := ch_type c = FixedLength /\ is_date (ch_dtype c) /\ ch_array c <= 1.

(** The bytes a channel of [k] bytes must hold after a call: a text must leave room for the zero at its end,
    byte arrays may fill the channel; the rest is zero. *)
Definition is_string (t : dtype) : bool :=
  match t with StrAscii | StrUtf8 | StrUtf16Le | StrUtf16Be => true | _ => false end.
Definition size_in (c : chan) : nat := N.to_nat (ch_bits c / 8).
Definition bytes_of_text (c : chan) (s : list N) : list N :=
  pad (size_in c) (if is_string (ch_dtype c) then firstn (size_in c - 1) s else s).
Definition bytes_of_ns (z : zone) (c : chan) (ns : N) : list N :=
  match ch_dtype c with CanOpenDate => canopen_date z ns | _ => canopen_time z ns end.

(** The last call on channel [ci]: the bytes and whether they are valid. *)
Definition put_by (z : zone) (c : chan) (ci : nat) (o : sop) : option (list N * bool) :=
  match o with
  | SNum _ => None
  | SText k s valid => if (k =? ci)%nat then Some (bytes_of_text c s, valid) else None
  | SBytes k s valid => if (k =? ci)%nat then Some (pad (size_in c) s, valid) else None
  | SNs k ns valid => if (k =? ci)%nat then Some (bytes_of_ns z c ns, valid) else None
  end.
Fixpoint last_put (z : zone) (c : chan) (ci : nat) (l : list sop) : option (list N * bool) :=
  match l with
  | [] => None
  | o :: r => match last_put z c ci r with Some x => Some x | None => put_by z c ci o end
  end.
(** What the channel must hold after the calls: zeros if none was made. *)
Definition held (z : zone) (c : chan) (l : list sop) (ci : nat) : list N * bool :=
  match last_put z c ci l with
  | Some (w, valid) => (w, if ch_invalid c then valid else true)
  | None => (repeat 0 (size_in c), true)
  end.

(** The numbers set by the calls. *)
Definition nums (l : list sop) : list setop := flat_map (fun o => match o with SNum o => [o] | _ => [] end) l.

(** A call that fits the description [l] and the prepared channels [l']. *)
Definition sop_ok (d2f : N -> N) (l l' : list chan) (o : sop) : Prop :=
  match o with
  | SNum o => op_ok d2f l l' o
  | SText ci s _ => (exists c0, nth_error l ci = Some c0 /\ chars c0) /\ bytes_ok s
  | SBytes ci s _ =>
      (exists c0 c, nth_error l ci = Some c0 /\ nth_error l' ci = Some c /\ (chars c0 \/ (dates c0 /\ length s = size_in c))) /\ bytes_ok s
  | SNs ci ns _ => exists c0, nth_error l ci = Some c0 /\ dates c0
  end.
Definition xcall_ok (d2f : N -> N) (gs : list cg) (o : xop) : Prop :=
  match o with
  | XSet k o => exists g, nth_error gs k = Some g /\ is_vlsd g = false /\ sop_ok d2f (chans_of g) (chans_of (prepare_cg g)) o
  | XSave k ts => exists g, nth_error gs k = Some g /\ is_vlsd g = false /\ ts < 2 ^ 63
  end.

(** The calls on group [g] before its sample number [n], and the time of the sample. *)
Fixpoint xcalls (p : list xop) (g : nat) (n : nat) : option (list sop) :=
  match p with
  | [] => None
  | XSet k o :: r => option_map (fun l => if (k =? g)%nat then o :: l else l) (xcalls r g n)
  | XSave k _ :: r =>
      if (k =? g)%nat then match n with O => Some [] | S m => xcalls r g m end else xcalls r g n
  end.
Fixpoint xtime (p : list xop) (g : nat) (n : nat) : N :=
  match p with
  | [] => 0
  | XSet _ _ :: r => xtime r g n
  | XSave k ts :: r => if (k =? g)%nat then match n with O => ts | S m => xtime r g m end else xtime r g n
  end.
Definition text_samples (z : zone) (d2f : N -> N) (gs : list cg) (p : list xop) : res (list sample) :=
  run_text z d2f gs p (new_bufs gs).

(** The numbers of a sample, and the call that sets its time, for a measurement started at [T]. *)
Definition xnums (p : list xop) (j n : nat) : option (list setop) := option_map nums (xcalls p j n).
Definition xtimed (off : N -> bool) (T : N) (gs : list cg) (p : list xop) (j n : nat) : option (list setop) :=
  match nth_error gs j, xnums p j n with
  | Some g, Some ops => Some (stamped off T (prepare_cg g) (xtime p j n) ops)
  | _, _ => None
  end.

(* ------------------------------------------------------------------ *)
(** ** What a reader shows *)

(** An observer of channel [c] of group [g] of the file, with some function that reads its value. *)
Definition obs_with {A : Type} (a0 : A) (read : chan -> list N -> bool * A) (g : cg) (c : cn) : ObsModel.chan A :=
  ObsModel.mkChan KFixed (g_record g) 0 1 (fun _ _ => (false, 0)) (fun rec _ => read (chan_of g c) rec) (fun _ => a0).

(** The value of the bytes a channel holds: the text of the bytes, or the bytes. *)
Definition as_chars (c : chan) (w : list N) : list N :=
  match string_form (ch_dtype c) with
  | Some k => match text_of k w with Ok t => t | _ => [] end
  | None => w
  end.
(** The text GetChannelValue gives: of byte arrays the hexadecimal digits. *)
Definition digits16 : list N := [48; 49; 50; 51; 52; 53; 54; 55; 56; 57; 65; 66; 67; 68; 69; 70].
Definition as_string (c : chan) (w : list N) : list N :=
  if is_string (ch_dtype c) then as_chars c w
  else concat (map (fun b => [nth (N.to_nat (b / 16)) digits16 0; nth (N.to_nat (b mod 16)) digits16 0]) w).
Definition as_ns (z : zone) (c : chan) (w : list N) : N :=
  match (match ch_dtype c with CanOpenDate => date_of_canopen z w | _ => time_of_canopen z w end) with Ok ns => ns | _ => 0 end.

(** For every channel of the application that satisfies [P] the observers of the reader show, for every
    sample, [show] of the bytes the channel must hold after the calls of the sample. *)
Definition held_shown {A : Type} (a0 : A) (read : chan -> list N -> bool * A) (P : chan -> Prop) (show : chan -> list N -> A)
    (z : zone) (gs : list cg) (calls : nat -> nat -> option (list sop)) (fuel : nat) (d' : dg) (blocks : list (list N)) : Prop :=
  forall j g ci c0, nth_error gs j = Some g -> is_vlsd g = false -> nth_error (chans_of g) ci = Some c0 -> P c0 ->
  exists g' c', nth_error (d_cgs d') j = Some g' /\ nth_error (g_cns g') ci = Some c' /\
    g_record g' = g_record g /\ ch_dtype (chan_of g' c') = ch_dtype c0 /\ ch_invalid (chan_of g' c') = ch_invalid c0 /\
    (is_chars (ch_dtype c0) -> ch_bits (chan_of g' c') = ch_bits c0) /\
    (forall n, calls j n <> None <-> N.of_nat n < g_samples g') /\
    forall rv ids g0 q, q <> 0 -> In q (do_list g0) -> In (g_record g) (ids q) ->
      let og := init_fast (needs_of ids) (map g_record (d_cgs d')) g0 in
      let ch := obs_with a0 read g' c' in
      let answer := fun _ _ => true in
      exists evs,
        read_data (dgroup_of d') (subscribing (needs_of ids) g0) (fun ev => fst (notify_obs (noted answer) og ev [])) fuel blocks
          = Some (Ok evs) /\
        forall n ops, calls j n = Some ops ->
          get_sample a0 ch (run_obs ch rv (calls_of q (all_calls answer og evs)) (cobs_new a0 ch (g_samples g'))) (N.of_nat n) 0
          = let '(w, ok) := held z (chan_of g' c') ops ci in (ok, show (chan_of g' c') w).

(** Numbers, texts, byte arrays and dates together. *)
Definition all_shown (z : zone) (h2d f2d d2f : N -> N) (gs : list cg) (numbers : nat -> nat -> option (list setop))
    (calls : nat -> nat -> option (list sop)) (fuel : nat) (d' : dg) (blocks : list (list N)) : Prop :=
  values_shown h2d f2d d2f gs numbers fuel d' blocks /\
  held_shown [] get_vector chars as_chars z gs calls fuel d' blocks /\
  held_shown [] get_string chars as_string z gs calls fuel d' blocks /\
  held_shown 0 (get_ns z) dates (as_ns z) z gs calls fuel d' blocks.
