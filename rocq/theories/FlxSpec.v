(** Specification of FlexRay messages: the contents of a message seen through its getters, and
    histories of setter calls. *)
From Verif Require Import Base ChannelModel BusModel BusSpec FlxModel.
Local Open Scope N_scope.

(** The members are in the range FlexRay gives them: an 11-bit identifier, a 6-bit cycle counter, a
    24-bit checksum, a payload of up to 254 bytes, and so on. *)
Record flx_ok (m : flx) : Prop := {
  fo_bus : flx_bus_ m < 2 ^ 8;
  fo_id : flx_id_ m < 2 ^ 11;
  fo_cycle : flx_cycle_ m < 2 ^ 6;
  fo_data : bytes_ok (flx_data_ m) /\ (length (flx_data_ m) <= 254)%nat;
  fo_paylen : flx_paylen_ m < 2 ^ 8;
  fo_crc : flx_crc_ m < 2 ^ 24;
  fo_hcrc : flx_hcrc_ m < 2 ^ 16;
  fo_flen : flx_flen_ m < 2 ^ 32;
  fo_plen : flx_plen_ m < 2 ^ 8;
  fo_switch : flx_switch_ m < 2 ^ 16;
  fo_upd : flx_upd_ m < 2 ^ 12;
  fo_byteoff : flx_byteoff_ m < 2 ^ 8;
  fo_bitoff : flx_bitoff_ m < 2 ^ 3;
  fo_mask : flx_mask_ m < 2 ^ 2;
  fo_slen : flx_slen_ m < 2 ^ 8;
  fo_stype : flx_stype_ m < 2 ^ 2
}.

(** What the channel of a property should yield: the value of the getter, and for the data length
    the number of data bytes. *)
Definition flx_content (m : flx) (f : flx_field) : content :=
  match f with
  | FxBus => num (flx_bus_ m)
  | FxId => num (flx_id_ m)
  | FxCycle => num (flx_cycle_ m)
  | FxChan => flag (flx_chan_ m)
  | FxTx => flag (flx_tx_ m)
  | FxData => Bytes (flx_data_ m)
  | FxPaylen => num (flx_paylen_ m)
  | FxCrc => num (flx_crc_ m)
  | FxHcrc => num (flx_hcrc_ m)
  | FxRes => flag (flx_res_ m)
  | FxPre => flag (flx_pre_ m)
  | FxNormal => flag (flx_normal_ m)
  | FxSync => flag (flx_sync_ m)
  | FxStartup => flag (flx_startup_ m)
  | FxFlen => num (flx_flen_ m)
  | FxPlen => num (flx_plen_ m)
  | FxMux => flag (flx_mux_ m)
  | FxSwitch => num (flx_switch_ m)
  | FxPvalid => flag (flx_pvalid_ m)
  | FxUpd => num (flx_upd_ m)
  | FxByteoff => num (flx_byteoff_ m)
  | FxBitoff => num (flx_bitoff_ m)
  | FxSyntax => flag (flx_syntax_ m)
  | FxContent => flag (flx_content_ m)
  | FxBoundary => flag (flx_boundary_ m)
  | FxConflict => flag (flx_conflict_ m)
  | FxEvalid => flag (flx_evalid_ m)
  | FxMask => num (flx_mask_ m)
  | FxSlen => num (flx_slen_ m)
  | FxStype => num (flx_stype_ m)
  | FxLength => num (N.of_nat (length (flx_data_ m)))
  end.

(** The number of bytes of the records of a group. *)
Definition flx_size (t : flx_type) (mand : bool) : nat :=
  match t, mand with
  | FlxFrame, true => 24 | FlxFrame, false => 34
  | FlxPdu, true => 24 | FlxPdu, false => 28
  | FlxFrameHeader, true => 13 | FlxFrameHeader, false => 34
  | FlxNullFrame, true => 12 | FlxNullFrame, false => 34
  | FlxErrorFrame, true => 12 | FlxErrorFrame, false => 35
  | FlxSymbol, true => 10 | FlxSymbol, false => 12
  end.

(** The group has a channel for the data bytes. *)
Definition flx_has_data (t : flx_type) (mand : bool) : bool :=
  match t with FlxFrame | FlxPdu => true | FlxSymbol => false | _ => negb mand end.

(** The argument is in the range of the property. *)
Definition flx_arg_ok (o : flx_op) : Prop :=
  match o with
  | FoBus v => v < 2 ^ 8
  | FoId v => v < 2 ^ 11
  | FoCycle v => v < 2 ^ 6
  | FoChan v => True
  | FoTx v => True
  | FoData v => bytes_ok v /\ (length v <= 254)%nat
  | FoPaylen v => v < 2 ^ 8
  | FoCrc v => v < 2 ^ 24
  | FoHcrc v => v < 2 ^ 16
  | FoRes v => True
  | FoPre v => True
  | FoNormal v => True
  | FoSync v => True
  | FoStartup v => True
  | FoFlen v => v < 2 ^ 32
  | FoPlen v => v < 2 ^ 8
  | FoMux v => True
  | FoSwitch v => v < 2 ^ 16
  | FoPvalid v => True
  | FoUpd v => v < 2 ^ 12
  | FoByteoff v => v < 2 ^ 8
  | FoBitoff v => v < 2 ^ 3
  | FoSyntax v => True
  | FoContent v => True
  | FoBoundary v => True
  | FoConflict v => True
  | FoEvalid v => True
  | FoMask v => v < 2 ^ 2
  | FoSlen v => v < 2 ^ 8
  | FoStype v => v < 2 ^ 2
  end.

(** What a call does to what the user sees. *)
Definition flx_effect (o : flx_op) (f : flx_field) : option content :=
  match o, f with
  | FoBus v, FxBus => Some (num v)
  | FoId v, FxId => Some (num v)
  | FoCycle v, FxCycle => Some (num v)
  | FoChan v, FxChan => Some (flag v)
  | FoTx v, FxTx => Some (flag v)
  | FoData v, FxData => Some (Bytes v)
  | FoPaylen v, FxPaylen => Some (num v)
  | FoCrc v, FxCrc => Some (num v)
  | FoHcrc v, FxHcrc => Some (num v)
  | FoRes v, FxRes => Some (flag v)
  | FoPre v, FxPre => Some (flag v)
  | FoNormal v, FxNormal => Some (flag v)
  | FoSync v, FxSync => Some (flag v)
  | FoStartup v, FxStartup => Some (flag v)
  | FoFlen v, FxFlen => Some (num v)
  | FoPlen v, FxPlen => Some (num v)
  | FoMux v, FxMux => Some (flag v)
  | FoSwitch v, FxSwitch => Some (num v)
  | FoPvalid v, FxPvalid => Some (flag v)
  | FoUpd v, FxUpd => Some (num v)
  | FoByteoff v, FxByteoff => Some (num v)
  | FoBitoff v, FxBitoff => Some (num v)
  | FoSyntax v, FxSyntax => Some (flag v)
  | FoContent v, FxContent => Some (flag v)
  | FoBoundary v, FxBoundary => Some (flag v)
  | FoConflict v, FxConflict => Some (flag v)
  | FoEvalid v, FxEvalid => Some (flag v)
  | FoMask v, FxMask => Some (num v)
  | FoSlen v, FxSlen => Some (num v)
  | FoStype v, FxStype => Some (num v)
  | FoData v, FxLength => Some (num (N.of_nat (length v)))
  | _, _ => None
  end.

(** The last call that determines the property. *)
Fixpoint flx_last (ops : list flx_op) (f : flx_field) : option content :=
  match ops with
  | [] => None
  | o :: r => match flx_last r f with Some v => Some v | None => flx_effect o f end
  end.
