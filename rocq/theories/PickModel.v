(** Model of the observers that a reader makes for channels: mdflib/src/mdfreader.cpp,
    mdflib/src/channelobserver.h, mdflib/src/ichannelobserver.cpp, include/mdf/ichannelobserver.h.

    Simplifications: null pointers in the lists of groups and channels are not modelled; names hold no
    NUL (the code compares C strings); the place of a sample in the observer's list is ObsModel.v's
    concern; virtual channels and the text of floating-point values are not modelled. *)
From Verif Require Import Base ChannelModel XmlModel.
Local Open Scope N_scope.

(** The type of the stored samples, the T of detail::ChannelObserver<T> (channelobserver.h:14-24):
    an unsigned or signed integer of [w] bits, float, double, std::string, std::vector<uint8_t>. *)
Inductive store : Type :=
| KeepU (w : N) | KeepS (w : N) | KeepFloat | KeepDouble | KeepText | KeepBytes.

(** mdfreader.cpp:89-180 CreateChannelObserver of a channel; [None] is the null pointer. *)
Definition pick_store (c : chan) : option store :=
  let size := data_bytes c in
  match ch_dtype c with
  | UnsignedLe | UnsignedBe =>
      Some (if size =? 1 then KeepU 8 else if size =? 2 then KeepU 16
            else if size =? 4 then KeepU 32 else KeepU 64)
  | SignedLe | SignedBe =>
      Some (if size <=? 1 then KeepS 8 else if size <=? 2 then KeepS 16
            else if size <=? 4 then KeepS 32 else KeepS 64)
  | FloatLe | FloatBe => Some (if size <=? 4 then KeepFloat else KeepDouble)
  | StrUtf16Le | StrUtf16Be | StrUtf8 | StrAscii => Some KeepText
  | MimeStream | MimeSample | ByteArray => Some KeepBytes
  | CanOpenDate | CanOpenTime => Some (KeepU 64)
  | ComplexLe | ComplexBe => None
  end.

(** The static_cast<T> of include/mdf/ichannel.h:632-707 GetChannelValue. The value of a channel has the
    kind of its data type, so the other combinations do not arise; they are left as they are. *)
Definition keep_as (float_to_double double_to_float : N -> N) (s : store) (v : value) : value :=
  match s, v with
  | KeepU w, VU u => VU (u mod 2 ^ w)
  | KeepS w, VS z => VS (twos w (to_u64 z mod 2 ^ w))
  | KeepFloat, VF d => VF (float_to_double (double_to_float d))
  | _, _ => v
  end.

(** What the observer of a channel holds of one record: the decoded value, stored as a T
    (channelobserver.h OnSample), with its valid flag. [Fail] is a value that cannot be decoded or a
    missing observer. *)
Definition observed (half_to_double float_to_double double_to_float : N -> N)
    (c : chan) (rec : list N) (idx : N) : res (value * bool) :=
  match pick_store c with
  | None => Fail
  | Some s =>
      bind (get_channel half_to_double float_to_double c rec idx)
        (fun '(v, ok) => Ok (keep_as float_to_double double_to_float s v, ok))
  end.

(** channelobserver.h:173-181 GetSampleUnsigned of the stored integer, then
    include/mdf/ichannelobserver.h:219-281 GetChannelValue into a uint64_t. The data type selects
    GetSampleUnsigned or GetSampleSigned; both then cast to 64 bits. *)
Definition as_uint64 (v : value) : option N :=
  match v with VU u => Some (w64 u) | VS z => Some (to_u64 z) | VF _ => None end.

(** The same into an int64_t (channelobserver.h:194-202 GetSampleSigned for signed channels). *)
Definition as_int64 (v : value) : option Z :=
  match v with
  | VU u => Some (twos 64 (w64 u))
  | VS z => Some (twos 64 (to_u64 z))
  | VF _ => None
  end.

(** ichannelobserver.cpp:114-133 GetChannelValue into a std::string, integer data types: std::to_string
    of the 64-bit value. *)
Definition as_text (v : value) : option (list N) :=
  match v with
  | VU u => Some (int_text (Z.of_N (w64 u)))
  | VS z => Some (int_text (twos 64 (to_u64 z)))
  | VF _ => None
  end.

(* ------------------------------------------------------------------ *)
(** ** Which channel *)

(** A channel group as these functions see it: NofSamples() and the names of its channels. *)
Record cgroup : Type := mkGroup { g_samples : N; g_names : list (list N) }.

(** The state of the search: nof_samples, and the places of channel_group and channel. *)
Definition found : Type := (N * option (nat * nat))%type.

(** mdfreader.cpp:195-207, the inner loop over the channels of group [g] from place [i]. *)
Fixpoint search_names (name : list N) (samples : N) (g i : nat) (names : list (list N)) (st : found)
  : found :=
  match names with
  | [] => st
  | n :: r =>
      let st' := if ieq name n
                 then if fst st <=? samples then (samples, Some (g, i)) else st
                 else st in
      search_names name samples g (S i) r st'
  end.

(** mdfreader.cpp:190-208, the outer loop over the groups from place [g]. *)
Fixpoint search_groups (name : list N) (g : nat) (gs : list cgroup) (st : found) : found :=
  match gs with
  | [] => st
  | x :: r =>
      search_groups name (S g) r (search_names name (g_samples x) g 0 (g_names x) st)
  end.

(** mdfreader.cpp:182-213 CreateChannelObserver by name: the group and channel that it observes. *)
Definition pick_named (gs : list cgroup) (name : list N) : option (nat * nat) :=
  snd (search_groups name 0 gs (0, None)).

(** mdfreader.cpp:215-225 CreateChannelObserverForChannelGroup: the places of the observed channels. *)
Definition group_list (g : nat) (x : cgroup) : list (nat * nat) :=
  map (fun i => (g, i)) (seq 0 (length (g_names x))).

(** mdfreader.cpp:227-245 CreateChannelObserverForDataGroup, from the group at place [g]. *)
Fixpoint data_group_list (g : nat) (gs : list cgroup) : list (nat * nat) :=
  match gs with
  | [] => []
  | x :: r => (if g_samples x =? 0 then [] else group_list g x) ++ data_group_list (S g) r
  end.
