(** Specification of LIN messages: the contents of a message seen through its getters, and histories
    of setter calls. *)
From Verif Require Import Base ChannelModel BusModel BusSpec LinModel.
Local Open Scope N_scope.

(** The members are in the range of their C++ types. *)
Record lin_ok (m : lin) : Prop := {
  lo_bus : lin_bus_ m < 2 ^ 8;
  lo_id : lin_id_ m < 2 ^ 8;
  lo_len : lin_len_ m < 2 ^ 8;
  lo_crc : lin_crc_ m < 2 ^ 8;
  lo_sof : lin_sof_ m < 2 ^ 64;
  lo_baud : lin_baud_ m < 2 ^ 32;
  lo_rbaud : lin_rbaud_ m < 2 ^ 32;
  lo_break : lin_break_ m < 2 ^ 32;
  lo_delim : lin_delim_ m < 2 ^ 32;
  lo_data : bytes_ok (lin_data_ m) /\ N.of_nat (length (lin_data_ m)) < 2 ^ 16;
  lo_spare : lin_spare_ m < 2 ^ 8;
  lo_total : lin_total_ m < 2 ^ 32
}.

(** What the channel of a field should yield: the value of the getter. The 8 data bytes of a record
    are filled up with 0xFF. *)
Definition lin_content (f2d : N -> N) (m : lin) (f : lin_field) : content :=
  match f with
  | LfBus => num (lin_bus m)
  | LfId => num (lin_id m)
  | LfDir => flag (lin_dir m)
  | LfReceived => num (lin_received m)
  | LfLength => num (lin_length m)
  | LfData => Bytes (padded 255 8 (lin_data m))
  | LfCrc => num (lin_crc_ m)
  | LfModel => Num (VS (model_z (lin_model_ m)))
  | LfSof => num (lin_sof_ m)
  | LfBaud => Num (VF (f2d (lin_baud_ m)))
  | LfRespBaud => Num (VF (f2d (lin_rbaud_ m)))
  | LfBreak => num (lin_break_ m)
  | LfDelim => num (lin_delim_ m)
  | LfExpected => num (lin_expected m)
  | LfTotal => num (lin_total_ m)
  | LfDominant => num (lin_dominant_n m)
  end.

(** The fields whose channel does not match the record: the direction of frames and checksum errors,
    the start of frame of wake up and spike, the checksum model of receive errors. *)
Definition lin_mismatch (t : lin_type) (f : lin_field) : bool :=
  match t, f with
  | LinFrame, LfDir | LinChecksumError, LfDir => true
  | LinWakeUp, LfSof | LinSpike, LfSof => true
  | LinReceiveError, LfModel => true
  | _, _ => false
  end.

(** The setter calls of a user. *)
Inductive lin_op : Type :=
| OpBus (v : N) | OpId (v : N) | OpDir (b : bool) | OpReceived (v : N) | OpLength (v : N)
| OpData (d : list N) | OpCrc (v : N) | OpModel (k : lin_model) | OpSof (v : N) | OpBaud (v : N)
| OpRespBaud (v : N) | OpBreak (v : N) | OpDelim (v : N) | OpExpected (v : N)
| OpTotal (v : N) | OpDominant (k : lin_dominant) | OpReset.

Definition lin_apply (m : lin) (o : lin_op) : lin :=
  match o with
  | OpBus v => lin_set_bus m v
  | OpId v => lin_set_id m v
  | OpDir b => lin_set_dir m b
  | OpReceived v => lin_set_received m v
  | OpLength v => lin_set_length m v
  | OpData d => lin_set_data m d
  | OpCrc v => lin_set_crc m v
  | OpModel k => lin_set_model m k
  | OpSof v => lin_set_sof m v
  | OpBaud v => lin_set_baud m v
  | OpRespBaud v => lin_set_rbaud m v
  | OpBreak v => lin_set_break m v
  | OpDelim v => lin_set_delim m v
  | OpExpected v => lin_set_expected m v
  | OpTotal v => lin_set_total m v
  | OpDominant k => lin_set_dominant m k
  | OpReset => lin_reset m
  end.

(** The argument is a value of the parameter's C++ type; data of less than 2^16 bytes. *)
Definition lin_arg_ok (o : lin_op) : Prop :=
  match o with
  | OpBus v | OpId v | OpReceived v | OpLength v | OpCrc v | OpExpected v => v < 2 ^ 8
  | OpSof v => v < 2 ^ 64
  | OpBaud v | OpRespBaud v | OpBreak v | OpDelim v | OpTotal v => v < 2 ^ 32
  | OpData d => bytes_ok d /\ N.of_nat (length d) < 2 ^ 16
  | OpDir _ | OpModel _ | OpDominant _ | OpReset => True
  end.

(** What a call does to what the user sees: an identifier has 6 bits, counts have 4 bits, the data
    bytes set the data length, and nothing else changes. *)
Definition lin_expect (o : lin_op) (f : lin_field) : option content :=
  match o, f with
  | OpBus v, LfBus => Some (num v)
  | OpId v, LfId => Some (num (v mod 64))
  | OpDir b, LfDir => Some (flag b)
  | OpReceived v, LfReceived => Some (num (v mod 16))
  | OpLength v, LfLength => Some (num (v mod 16))
  | OpData d, LfData => Some (Bytes (padded 255 8 d))
  | OpData d, LfLength => Some (num (N.of_nat (length d) mod 16))
  | OpCrc v, LfCrc => Some (num v)
  | OpModel k, LfModel => Some (Num (VS (model_z k)))
  | OpSof v, LfSof => Some (num v)
  | OpBaud v, LfBaud => Some (Num (VF v))
  | OpRespBaud v, LfRespBaud => Some (Num (VF v))
  | OpBreak v, LfBreak => Some (num v)
  | OpDelim v, LfDelim => Some (num v)
  | OpExpected v, LfExpected => Some (num (v mod 16))
  | OpTotal v, LfTotal => Some (num v)
  | OpDominant k, LfDominant => Some (num (dominant_n k))
  | OpReset, _ => Some (lin_content (fun x => x) lin_new f)
  | _, _ => None
  end.

(** The last call that determines the field, else the value of a new message. *)
Fixpoint lin_last (ops : list lin_op) (f : lin_field) : option content :=
  match ops with
  | [] => None
  | o :: r => match lin_last r f with Some v => Some v | None => lin_expect o f end
  end.
