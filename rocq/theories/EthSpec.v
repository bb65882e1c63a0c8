(** Specification of Ethernet messages: the contents of a message seen through its getters, and
    histories of setter calls. *)
From Verif Require Import Base ChannelModel BusModel BusSpec EthModel.
Local Open Scope N_scope.

(** The members are in the range of their C++ types. *)
Record eth_ok (m : eth) : Prop := {
  eo_bus : eth_bus_ m < 2 ^ 8;
  eo_src : bytes_ok (eth_src_ m) /\ length (eth_src_ m) = 6%nat;
  eo_dst : bytes_ok (eth_dst_ m) /\ length (eth_dst_ m) = 6%nat;
  eo_kind : eth_kind_ m < 2 ^ 16;
  eo_recv : eth_recv_ m < 2 ^ 16;
  eo_len : eth_len_ m < 2 ^ 16;
  eo_data : bytes_ok (eth_data_ m);
  eo_crc : eth_crc_ m < 2 ^ 32;
  eo_exp : eth_exp_ m < 2 ^ 32;
  eo_pad : eth_pad_ m < 2 ^ 16
}.

(** What the channel of a field should yield: the value of the getter. *)
Definition eth_content (m : eth) (f : eth_field) : content :=
  match f with
  | EfBus => num (eth_bus_ m)
  | EfSource => Bytes (eth_src_ m)
  | EfDestination => Bytes (eth_dst_ m)
  | EfType => num (eth_kind_ m)
  | EfReceived => num (eth_recv_ m)
  | EfLength => num (eth_len_ m)
  | EfData => Bytes (eth_data_ m)
  | EfCrc => num (eth_crc_ m)
  | EfExpected => num (eth_exp_ m)
  | EfDir => flag (eth_dir_ m)
  | EfError => num (error_n (eth_err_ m))
  | EfPad => num (eth_pad_ m)
  end.

(** The number of bytes of the records of a group. *)
Definition eth_size (t : eth_type) (mand : bool) : nat :=
  match t, mand with
  | EthFrame, true => 35
  | EthFrame, false => 42
  | EthChecksumError, true => 33
  | EthChecksumError, false => 46
  | _, true => 25
  | _, false => 42
  end.

(** The group has a channel for the data bytes. *)
Definition eth_has_data (t : eth_type) (mand : bool) : bool :=
  match t with EthFrame => true | _ => negb mand end.

(** The setter calls of a user. *)
Inductive eth_op : Type :=
| EoBus (v : N) | EoDir (b : bool) | EoErr (e : eth_error) | EoSource (l : list N)
| EoDestination (l : list N) | EoType (v : N) | EoReceived (v : N) | EoLength (v : N)
| EoData (l : list N) | EoCrc (v : N) | EoExpected (v : N) | EoPad (v : N) | EoReset.

Definition eth_apply (m : eth) (o : eth_op) : eth :=
  match o with
  | EoBus v => eth_set_bus m v
  | EoDir b => eth_set_dir m b
  | EoErr e => eth_set_err m e
  | EoSource l => eth_set_src m l
  | EoDestination l => eth_set_dst m l
  | EoType v => eth_set_kind m v
  | EoReceived v => eth_set_recv m v
  | EoLength v => eth_set_len m v
  | EoData l => eth_set_data m l
  | EoCrc v => eth_set_crc m v
  | EoExpected v => eth_set_exp m v
  | EoPad v => eth_set_pad m v
  | EoReset => eth_reset m
  end.

(** The argument is a value of the parameter's C++ type. *)
Definition eth_arg_ok (o : eth_op) : Prop :=
  match o with
  | EoBus v => v < 2 ^ 8
  | EoType v | EoReceived v | EoLength v | EoPad v => v < 2 ^ 16
  | EoCrc v | EoExpected v => v < 2 ^ 32
  | EoSource l | EoDestination l => bytes_ok l /\ length l = 6%nat
  | EoData l => bytes_ok l
  | EoDir _ | EoErr _ | EoReset => True
  end.

(** What a call does to what the user sees: the data bytes set the data length (16 bits), and
    nothing else changes. *)
Definition eth_effect (o : eth_op) (f : eth_field) : option content :=
  match o, f with
  | EoBus v, EfBus => Some (num v)
  | EoDir b, EfDir => Some (flag b)
  | EoErr e, EfError => Some (num (error_n e))
  | EoSource l, EfSource => Some (Bytes l)
  | EoDestination l, EfDestination => Some (Bytes l)
  | EoType v, EfType => Some (num v)
  | EoReceived v, EfReceived => Some (num v)
  | EoLength v, EfLength => Some (num v)
  | EoData l, EfData => Some (Bytes l)
  | EoData l, EfLength => Some (num (N.of_nat (length l) mod 2 ^ 16))
  | EoCrc v, EfCrc => Some (num v)
  | EoExpected v, EfExpected => Some (num v)
  | EoPad v, EfPad => Some (num v)
  | EoReset, EfDir | EoReset, EfError => None
  | EoReset, _ => Some (eth_content eth_new f)
  | _, _ => None
  end.

(** The last call that determines the field. *)
Fixpoint eth_last (ops : list eth_op) (f : eth_field) : option content :=
  match ops with
  | [] => None
  | o :: r => match eth_last r f with Some v => Some v | None => eth_effect o f end
  end.
