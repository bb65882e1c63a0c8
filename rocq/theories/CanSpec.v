(** Specification of CAN messages: what a user sees through the getters, what each setter should do to
    it, and what the channels of a stored message should yield. *)
From Verif Require Import Base ChannelModel BusModel BusSpec CanModel.
Local Open Scope N_scope.

(** The members are in the range of their C++ types; the error type is one of the enumerators. *)
Record can_ok (m : can) : Prop := {
  co_bus : can_bus_ m < 2 ^ 8;
  co_id : can_id_ m < 2 ^ 32;
  co_dlc : can_dlc_ m < 2 ^ 8;
  co_data : bytes_ok (can_data_ m);
  co_pos : can_pos_ m < 2 ^ 16;
  co_err : can_err_ m < 8;
  co_dur : can_dur_ m < 2 ^ 32;
  co_crc : can_crc_ m < 2 ^ 32
}.

(** What the getters of a message return. *)
Definition can_get (m : can) (f : can_field) : content :=
  match f with
  | CfBus => num (can_bus_ m)
  | CfId => num (can_id m)
  | CfIde => flag (can_ext m)
  | CfDlc => num (can_dlc m)
  | CfLength => num (can_length m)
  | CfData => Bytes (can_data m)
  | CfFlag g => flag (can_has g m)
  | CfDur => num (can_dur_ m)
  | CfCrc => num (can_crc_ m)
  | CfErr => num (can_err_ m)
  | CfPos => num (can_pos_ m)
  | CfTime => num (can_time_ m)
  end.

(** What the channel of a field should yield: the value of the getter. Data bytes stored in the record
    are filled up with 0xFF to the maximum length. *)
Definition can_content (st : storage) (max : nat) (m : can) (f : can_field) : content :=
  match f, st with
  | CfData, Mlsd => Bytes (padded 255 max (can_data m))
  | _, _ => can_get m f
  end.

(** The length of the record of a message. *)
Definition can_size (t : can_type) (mand : bool) (st : storage) (max : nat) : nat :=
  let d := match st with Mlsd => max | _ => 8%nat end in
  match t with
  | CanData => (if mand then 15 else 24) + d
  | CanRemote => if mand then 15 else 24
  | CanError => 26 + d
  | CanOverload => 10
  end%nat.

(** The number of bytes of a CAN FD data length code (ISO 11898-1). *)
Definition code_length (dlc : N) : N :=
  if dlc <=? 8 then dlc else
  match dlc with
  | 9 => 12 | 10 => 16 | 11 => 20 | 12 => 24 | 13 => 32 | 14 => 48 | _ => 64
  end.

(** The calls of a user. *)
Inductive can_op : Type :=
| CoBus (v : N) | CoId (v : N) | CoExt (b : bool) | CoDlc (v : N) | CoLength (v : N)
| CoData (d : list N) | CoFlag (f : can_flag) (b : bool) | CoPos (v : N) | CoErr (v : N)
| CoDur (v : N) | CoCrc (v : N) | CoTime (v : N) | CoReset.

Definition can_apply (m : can) (o : can_op) : can :=
  match o with
  | CoBus v => can_set_bus m v
  | CoId v => can_set_id m v
  | CoExt b => can_set_ext m b
  | CoDlc v => can_set_dlc m v
  | CoLength v => can_set_length m v
  | CoData d => can_set_data m d
  | CoFlag f b => can_set_flag f m b
  | CoPos v => can_set_pos m v
  | CoErr v => can_set_err m v
  | CoDur v => can_set_dur m v
  | CoCrc v => can_set_crc m v
  | CoTime v => can_set_time m v
  | CoReset => can_reset m
  end.

(** The arguments are values of the C++ parameter types. *)
Definition can_arg_ok (o : can_op) : Prop :=
  match o with
  | CoBus v | CoDlc v | CoLength v => v < 2 ^ 8
  | CoId v | CoDur v | CoCrc v => v < 2 ^ 32
  | CoPos v => v < 2 ^ 16
  | CoErr v => v < 8
  | CoData d => bytes_ok d
  | CoExt _ | CoFlag _ _ | CoTime _ | CoReset => True
  end.

(** The least data length code with room for [n] bytes, 0 when there is none. *)
Definition code_for (n : N) : N :=
  if n <=? 8 then n else if n <=? 12 then 9 else if n <=? 16 then 10 else if n <=? 20 then 11
  else if n <=? 24 then 12 else if n <=? 32 then 13 else if n <=? 48 then 14
  else if n <=? 64 then 15 else 0.

(** What a call does to the value of one field, [c] being the value before. A call changes only the
    fields listed. MessageId also decides the extended flag, the data decide length and code. Reset
    keeps the checksum and the time stamp. *)
Definition can_effect (o : can_op) (f : can_field) (c : content) : content :=
  match o, f with
  | CoBus v, CfBus => num v
  | CoId v, CfId => num (v mod 2 ^ 31)
  | CoId v, CfIde => flag (2048 <=? v)
  | CoExt b, CfIde => flag b
  | CoDlc v, CfDlc => num (v mod 16)
  | CoLength v, CfLength => num v
  | CoLength v, CfDlc => num (code_for v)
  | CoLength v, CfData => match c with Bytes l => Bytes (padded 0 (N.to_nat v) l) | _ => c end
  | CoData d, CfData => Bytes d
  | CoData d, CfLength => num (N.of_nat (length d) mod 256)
  | CoData d, CfDlc => num (code_for (N.of_nat (length d) mod 256))
  | CoFlag g b, CfFlag h => if flag_eqb g h then flag b else c
  | CoPos v, CfPos => num v
  | CoErr v, CfErr => num v
  | CoDur v, CfDur => num v
  | CoCrc v, CfCrc => num v
  | CoTime v, CfTime => num v
  | CoReset, CfCrc | CoReset, CfTime => c
  | CoReset, CfData => Bytes []
  | CoReset, _ => num 0
  | _, _ => c
  end.

(** The argument of the last call of Dir, Srr, ..., R1 for the flag; false if there is none since the
    message was made or reset. *)
Fixpoint last_flag (f : can_flag) (ops : list can_op) (before : bool) : bool :=
  match ops with
  | [] => before
  | CoFlag g b :: r => last_flag f r (if flag_eqb g f then b else before)
  | CoReset :: r => last_flag f r false
  | _ :: r => last_flag f r before
  end.

(** The fields a decoded message does not show: R0 and the error type never, and for error frames the
    bit position, which overwrites the frame duration. *)
Definition can_lost (t : can_type) (f : can_field) : bool :=
  match f with
  | CfFlag FgR0 | CfErr | CfPos => true
  | CfDur => match t with CanError => true | _ => false end
  | _ => false
  end.
