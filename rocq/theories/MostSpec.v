(** Specification of MOST messages: the contents of a message seen through its getters, and
    histories of setter calls. *)
From Verif Require Import Base ChannelModel BusModel BusSpec MostModel.
Local Open Scope N_scope.

(** The width of an address: 48 bits of a MAC address in an Ethernet packet, 16 bits otherwise. *)
Definition most_width (t : most_type) : N := match t with MostEthernetPacket => 48 | _ => 16 end.

(** The members are in the range MOST gives them: a 2-bit speed, addresses of the width of the
    message type, acknowledge codes of 3 and 4 bits, at most 65535 bytes of data, and so on. *)
Record most_ok (t : most_type) (m : most) : Prop := {
  mo_bus : most_bus_ m < 2 ^ 8;
  mo_speed : most_speed_ m < 2 ^ 2;
  mo_src : most_src_ m < 2 ^ most_width t;
  mo_dst : most_dst_ m < 2 ^ most_width t;
  mo_spec : most_spec_ m < 2 ^ 16;
  mo_recv : most_recv_ m < 2 ^ 16;
  mo_data : bytes_ok (most_data_ m) /\ N.of_nat (length (most_data_ m)) < 2 ^ 16;
  mo_crc : most_crc_ m < 2 ^ 32;
  mo_cack : most_cack_ m < 2 ^ 3;
  mo_pack : most_pack_ m < 2 ^ 3;
  mo_txack : most_txack_ m < 2 ^ 4;
  mo_pindex : most_pindex_ m < 2 ^ 8;
  mo_ctype : most_ctype_ m < 2 ^ 4;
  mo_state : most_state_ m < 2 ^ 8;
  mo_device : most_device_ m < 2 ^ 8;
  mo_bound : most_bound_ m < 2 ^ 16;
  mo_free : most_free_ m < 2 ^ 16;
  mo_layout : most_layout_ m < 2 ^ 8;
  mo_table : bytes_ok (most_table_ m) /\ N.of_nat (length (most_table_ m)) < 2 ^ 16
}.

(** What the channel of a property should yield: the value of the getter, and for the lengths the
    number of bytes. *)
Definition most_content (m : most) (f : most_field) : content :=
  match f with
  | MxBus => num (most_bus_ m)
  | MxSpeed => num (most_speed_ m)
  | MxNode => flag (most_node_ m)
  | MxTx => flag (most_tx_ m)
  | MxSrc => num (most_src_ m)
  | MxDst => num (most_dst_ m)
  | MxSpec => num (most_spec_ m)
  | MxRecv => num (most_recv_ m)
  | MxData => Bytes (most_data_ m)
  | MxCrc => num (most_crc_ m)
  | MxCack => num (most_cack_ m)
  | MxPack => num (most_pack_ m)
  | MxTxack => num (most_txack_ m)
  | MxPindex => num (most_pindex_ m)
  | MxFailed => flag (most_failed_ m)
  | MxCtype => num (most_ctype_ m)
  | MxState => num (most_state_ m)
  | MxDevice => num (most_device_ m)
  | MxBound => num (most_bound_ m)
  | MxFree => num (most_free_ m)
  | MxLayout => num (most_layout_ m)
  | MxTable => Bytes (most_table_ m)
  | MxClosed => flag (most_closed_ m)
  | MxShutdown => flag (most_shutdown_ m)
  | MxLength => num (N.of_nat (length (most_data_ m)))
  | MxTableLength => num (N.of_nat (length (most_table_ m)))
  end.

(** The number of bytes of the records of a group. *)
Definition most_size (t : most_type) (mand : bool) : nat :=
  match t, mand with
  | MostEthernetPacket, true => 36 | MostEthernetPacket, false => 42
  | MostMessage, true | MostPacket, true => 28
  | MostMessage, false | MostPacket, false => 35
  | MostBoundDesc, _ => 11 | MostAllocTable, _ => 22
  | _, _ => 10
  end.

(** The variable length data of a message. *)
Definition most_payload (t : most_type) (m : most) : option (list N) :=
  match t with
  | MostMessage | MostPacket | MostEthernetPacket => Some (most_data_ m)
  | MostAllocTable => Some (most_table_ m)
  | _ => None
  end.

(** The argument is in the range of the property. *)
Definition most_arg_ok (t : most_type) (o : most_op) : Prop :=
  match o with
  | MoBus v => v < 2 ^ 8
  | MoSpeed v => v < 2 ^ 2
  | MoNode v => True
  | MoTx v => True
  | MoSrc v => v < 2 ^ most_width t
  | MoDst v => v < 2 ^ most_width t
  | MoSpec v => v < 2 ^ 16
  | MoRecv v => v < 2 ^ 16
  | MoData v => bytes_ok v /\ N.of_nat (length v) < 2 ^ 16
  | MoCrc v => v < 2 ^ 32
  | MoCack v => v < 2 ^ 3
  | MoPack v => v < 2 ^ 3
  | MoTxack v => v < 2 ^ 4
  | MoPindex v => v < 2 ^ 8
  | MoFailed v => True
  | MoCtype v => v < 2 ^ 4
  | MoState v => v < 2 ^ 8
  | MoDevice v => v < 2 ^ 8
  | MoBound v => v < 2 ^ 16
  | MoFree v => v < 2 ^ 16
  | MoLayout v => v < 2 ^ 8
  | MoTable v => bytes_ok v /\ N.of_nat (length v) < 2 ^ 16
  | MoClosed v => True
  | MoShutdown v => True
  end.

(** What a call does to what the user sees, except for the two byte counts. *)
Definition most_effect (o : most_op) (f : most_field) : option content :=
  match o, f with
  | MoBus v, MxBus => Some (num v)
  | MoSpeed v, MxSpeed => Some (num v)
  | MoNode v, MxNode => Some (flag v)
  | MoTx v, MxTx => Some (flag v)
  | MoSrc v, MxSrc => Some (num v)
  | MoDst v, MxDst => Some (num v)
  | MoSpec v, MxSpec => Some (num v)
  | MoRecv v, MxRecv => Some (num v)
  | MoData v, MxData => Some (Bytes v)
  | MoCrc v, MxCrc => Some (num v)
  | MoCack v, MxCack => Some (num v)
  | MoPack v, MxPack => Some (num v)
  | MoTxack v, MxTxack => Some (num v)
  | MoPindex v, MxPindex => Some (num v)
  | MoFailed v, MxFailed => Some (flag v)
  | MoCtype v, MxCtype => Some (num v)
  | MoState v, MxState => Some (num v)
  | MoDevice v, MxDevice => Some (num v)
  | MoBound v, MxBound => Some (num v)
  | MoFree v, MxFree => Some (num v)
  | MoLayout v, MxLayout => Some (num v)
  | MoTable v, MxTable => Some (Bytes v)
  | MoClosed v, MxClosed => Some (flag v)
  | MoShutdown v, MxShutdown => Some (flag v)
  | MoData v, MxLength => Some (num (N.of_nat (length v)))
  | MoTable v, MxTableLength => Some (num (N.of_nat (length v)))
  | _, _ => None
  end.

(** The last call that determines the property. *)
Fixpoint most_last (ops : list most_op) (f : most_field) : option content :=
  match ops with
  | [] => None
  | o :: r => match most_last r f with Some v => Some v | None => most_effect o f end
  end.

(** The two byte counts: the last value set, or the largest number of data bytes given since then
    if that is larger. *)
Definition most_count (set : most_op -> option N) (ops : list most_op) : N :=
  fold_left (fun n o => match set o with
                        | Some v => v
                        | None => match o with MoData l => N.max n (N.of_nat (length l)) | _ => n end
                        end) ops 0.
Definition sets_spec (o : most_op) : option N := match o with MoSpec v => Some v | _ => None end.
Definition sets_recv (o : most_op) : option N := match o with MoRecv v => Some v | _ => None end.
