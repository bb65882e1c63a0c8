(** Model of mdflib/src/flexraymessage.cpp, include/mdf/flexraymessage.h and the channels created by
    mdflib/src/flexrayconfigadapter.cpp. *)
From Verif Require Import Base ChannelModel BusModel.
Local Open Scope N_scope.

(** flexraymessage.h:18-25 FlexRayMessageType. *)
Inductive flx_type : Type :=
| FlxFrame | FlxPdu | FlxFrameHeader | FlxNullFrame | FlxErrorFrame | FlxSymbol.

(** The members of IFlexRayEvent and its six derived classes, flexraymessage.h:59-263, in one record: an
    object has only the members of its class, the other ones keep their initial value. The fill
    bytes of a frame header are its data bytes (flexraymessage.cpp:136-142). *)
Record flx : Type := mkFlx {
  flx_bus_ : N; (* bus_channel_, uint8_t *)
  flx_id_ : N; (* frame_id_, uint16_t, 11 bits are stored *)
  flx_cycle_ : N; (* cycle_count_, uint8_t, 6 bits are stored *)
  flx_chan_ : bool; (* channel_, true for B *)
  flx_tx_ : bool; (* direction_, true for Tx *)
  flx_data_ : list N; (* data_bytes_ *)
  flx_paylen_ : N; (* payload_length_, uint8_t *)
  flx_crc_ : N; (* crc_, uint32_t, 24 bits are stored *)
  flx_hcrc_ : N; (* header_crc_, uint16_t *)
  flx_res_ : bool; (* reserved_ *)
  flx_pre_ : bool; (* payload_preamble_ *)
  flx_normal_ : bool; (* null_frame_, true for NormalFrame *)
  flx_sync_ : bool; (* sync_frame_ *)
  flx_startup_ : bool; (* startup_frame_ *)
  flx_flen_ : N; (* frame_length_, uint32_t *)
  flx_plen_ : N; (* pdu_length_, uint8_t *)
  flx_mux_ : bool; (* multiplexed_ *)
  flx_switch_ : N; (* switch_, uint16_t *)
  flx_pvalid_ : bool; (* valid_ of a PDU *)
  flx_upd_ : N; (* update_bit_pos_, uint16_t, a 12-bit channel *)
  flx_byteoff_ : N; (* pdu_byte_offset_, uint8_t *)
  flx_bitoff_ : N; (* pdu_bit_offset_, uint8_t, 3 bits are stored *)
  flx_syntax_ : bool; (* syntax_error_ *)
  flx_content_ : bool; (* content_error_ *)
  flx_boundary_ : bool; (* boundary_error_ *)
  flx_conflict_ : bool; (* tx_conflict_ *)
  flx_evalid_ : bool; (* valid_ of an error frame *)
  flx_mask_ : N; (* mask_, 1..3 *)
  flx_slen_ : N; (* length_ of a symbol, uint8_t *)
  flx_stype_ : N (* type_ of a symbol, 0..3 *)
}.

(** A new message of a type: the initial values of the members, and flexraymessage.cpp:186-189 for
    the null frame. *)
Definition flx_new (t : flx_type) : flx :=
  mkFlx
    0 0 0 false false [] 0 0 0 false false (match t with FlxNullFrame => false | _ => true end)
    false false 0 0 false 0 true 0xFFF 0 0 false false false false false 3 0 0.

(** The setter calls of flexraymessage.h. *)
Inductive flx_op : Type :=
| FoBus (v : N)
| FoId (v : N)
| FoCycle (v : N)
| FoChan (v : bool)
| FoTx (v : bool)
| FoData (v : list N)
| FoPaylen (v : N)
| FoCrc (v : N)
| FoHcrc (v : N)
| FoRes (v : bool)
| FoPre (v : bool)
| FoNormal (v : bool)
| FoSync (v : bool)
| FoStartup (v : bool)
| FoFlen (v : N)
| FoPlen (v : N)
| FoMux (v : bool)
| FoSwitch (v : N)
| FoPvalid (v : bool)
| FoUpd (v : N)
| FoByteoff (v : N)
| FoBitoff (v : N)
| FoSyntax (v : bool)
| FoContent (v : bool)
| FoBoundary (v : bool)
| FoConflict (v : bool)
| FoEvalid (v : bool)
| FoMask (v : N)
| FoSlen (v : N)
| FoStype (v : N).

(** Each setter assigns one member. *)
Definition flx_apply (m : flx) (o : flx_op) : flx :=
  match o with
  | FoBus v => mkFlx
    v (flx_id_ m) (flx_cycle_ m) (flx_chan_ m) (flx_tx_ m) (flx_data_ m) (flx_paylen_ m)
    (flx_crc_ m) (flx_hcrc_ m) (flx_res_ m) (flx_pre_ m) (flx_normal_ m) (flx_sync_ m)
    (flx_startup_ m) (flx_flen_ m) (flx_plen_ m) (flx_mux_ m) (flx_switch_ m) (flx_pvalid_ m)
    (flx_upd_ m) (flx_byteoff_ m) (flx_bitoff_ m) (flx_syntax_ m) (flx_content_ m)
    (flx_boundary_ m) (flx_conflict_ m) (flx_evalid_ m) (flx_mask_ m) (flx_slen_ m)
    (flx_stype_ m)
  | FoId v => mkFlx
    (flx_bus_ m) v (flx_cycle_ m) (flx_chan_ m) (flx_tx_ m) (flx_data_ m) (flx_paylen_ m)
    (flx_crc_ m) (flx_hcrc_ m) (flx_res_ m) (flx_pre_ m) (flx_normal_ m) (flx_sync_ m)
    (flx_startup_ m) (flx_flen_ m) (flx_plen_ m) (flx_mux_ m) (flx_switch_ m) (flx_pvalid_ m)
    (flx_upd_ m) (flx_byteoff_ m) (flx_bitoff_ m) (flx_syntax_ m) (flx_content_ m)
    (flx_boundary_ m) (flx_conflict_ m) (flx_evalid_ m) (flx_mask_ m) (flx_slen_ m)
    (flx_stype_ m)
  | FoCycle v => mkFlx
    (flx_bus_ m) (flx_id_ m) v (flx_chan_ m) (flx_tx_ m) (flx_data_ m) (flx_paylen_ m)
    (flx_crc_ m) (flx_hcrc_ m) (flx_res_ m) (flx_pre_ m) (flx_normal_ m) (flx_sync_ m)
    (flx_startup_ m) (flx_flen_ m) (flx_plen_ m) (flx_mux_ m) (flx_switch_ m) (flx_pvalid_ m)
    (flx_upd_ m) (flx_byteoff_ m) (flx_bitoff_ m) (flx_syntax_ m) (flx_content_ m)
    (flx_boundary_ m) (flx_conflict_ m) (flx_evalid_ m) (flx_mask_ m) (flx_slen_ m)
    (flx_stype_ m)
  | FoChan v => mkFlx
    (flx_bus_ m) (flx_id_ m) (flx_cycle_ m) v (flx_tx_ m) (flx_data_ m) (flx_paylen_ m)
    (flx_crc_ m) (flx_hcrc_ m) (flx_res_ m) (flx_pre_ m) (flx_normal_ m) (flx_sync_ m)
    (flx_startup_ m) (flx_flen_ m) (flx_plen_ m) (flx_mux_ m) (flx_switch_ m) (flx_pvalid_ m)
    (flx_upd_ m) (flx_byteoff_ m) (flx_bitoff_ m) (flx_syntax_ m) (flx_content_ m)
    (flx_boundary_ m) (flx_conflict_ m) (flx_evalid_ m) (flx_mask_ m) (flx_slen_ m)
    (flx_stype_ m)
  | FoTx v => mkFlx
    (flx_bus_ m) (flx_id_ m) (flx_cycle_ m) (flx_chan_ m) v (flx_data_ m) (flx_paylen_ m)
    (flx_crc_ m) (flx_hcrc_ m) (flx_res_ m) (flx_pre_ m) (flx_normal_ m) (flx_sync_ m)
    (flx_startup_ m) (flx_flen_ m) (flx_plen_ m) (flx_mux_ m) (flx_switch_ m) (flx_pvalid_ m)
    (flx_upd_ m) (flx_byteoff_ m) (flx_bitoff_ m) (flx_syntax_ m) (flx_content_ m)
    (flx_boundary_ m) (flx_conflict_ m) (flx_evalid_ m) (flx_mask_ m) (flx_slen_ m)
    (flx_stype_ m)
  | FoData v => mkFlx
    (flx_bus_ m) (flx_id_ m) (flx_cycle_ m) (flx_chan_ m) (flx_tx_ m) v (flx_paylen_ m)
    (flx_crc_ m) (flx_hcrc_ m) (flx_res_ m) (flx_pre_ m) (flx_normal_ m) (flx_sync_ m)
    (flx_startup_ m) (flx_flen_ m) (flx_plen_ m) (flx_mux_ m) (flx_switch_ m) (flx_pvalid_ m)
    (flx_upd_ m) (flx_byteoff_ m) (flx_bitoff_ m) (flx_syntax_ m) (flx_content_ m)
    (flx_boundary_ m) (flx_conflict_ m) (flx_evalid_ m) (flx_mask_ m) (flx_slen_ m)
    (flx_stype_ m)
  | FoPaylen v => mkFlx
    (flx_bus_ m) (flx_id_ m) (flx_cycle_ m) (flx_chan_ m) (flx_tx_ m) (flx_data_ m) v
    (flx_crc_ m) (flx_hcrc_ m) (flx_res_ m) (flx_pre_ m) (flx_normal_ m) (flx_sync_ m)
    (flx_startup_ m) (flx_flen_ m) (flx_plen_ m) (flx_mux_ m) (flx_switch_ m) (flx_pvalid_ m)
    (flx_upd_ m) (flx_byteoff_ m) (flx_bitoff_ m) (flx_syntax_ m) (flx_content_ m)
    (flx_boundary_ m) (flx_conflict_ m) (flx_evalid_ m) (flx_mask_ m) (flx_slen_ m)
    (flx_stype_ m)
  | FoCrc v => mkFlx
    (flx_bus_ m) (flx_id_ m) (flx_cycle_ m) (flx_chan_ m) (flx_tx_ m) (flx_data_ m)
    (flx_paylen_ m) v (flx_hcrc_ m) (flx_res_ m) (flx_pre_ m) (flx_normal_ m) (flx_sync_ m)
    (flx_startup_ m) (flx_flen_ m) (flx_plen_ m) (flx_mux_ m) (flx_switch_ m) (flx_pvalid_ m)
    (flx_upd_ m) (flx_byteoff_ m) (flx_bitoff_ m) (flx_syntax_ m) (flx_content_ m)
    (flx_boundary_ m) (flx_conflict_ m) (flx_evalid_ m) (flx_mask_ m) (flx_slen_ m)
    (flx_stype_ m)
  | FoHcrc v => mkFlx
    (flx_bus_ m) (flx_id_ m) (flx_cycle_ m) (flx_chan_ m) (flx_tx_ m) (flx_data_ m)
    (flx_paylen_ m) (flx_crc_ m) v (flx_res_ m) (flx_pre_ m) (flx_normal_ m) (flx_sync_ m)
    (flx_startup_ m) (flx_flen_ m) (flx_plen_ m) (flx_mux_ m) (flx_switch_ m) (flx_pvalid_ m)
    (flx_upd_ m) (flx_byteoff_ m) (flx_bitoff_ m) (flx_syntax_ m) (flx_content_ m)
    (flx_boundary_ m) (flx_conflict_ m) (flx_evalid_ m) (flx_mask_ m) (flx_slen_ m)
    (flx_stype_ m)
  | FoRes v => mkFlx
    (flx_bus_ m) (flx_id_ m) (flx_cycle_ m) (flx_chan_ m) (flx_tx_ m) (flx_data_ m)
    (flx_paylen_ m) (flx_crc_ m) (flx_hcrc_ m) v (flx_pre_ m) (flx_normal_ m) (flx_sync_ m)
    (flx_startup_ m) (flx_flen_ m) (flx_plen_ m) (flx_mux_ m) (flx_switch_ m) (flx_pvalid_ m)
    (flx_upd_ m) (flx_byteoff_ m) (flx_bitoff_ m) (flx_syntax_ m) (flx_content_ m)
    (flx_boundary_ m) (flx_conflict_ m) (flx_evalid_ m) (flx_mask_ m) (flx_slen_ m)
    (flx_stype_ m)
  | FoPre v => mkFlx
    (flx_bus_ m) (flx_id_ m) (flx_cycle_ m) (flx_chan_ m) (flx_tx_ m) (flx_data_ m)
    (flx_paylen_ m) (flx_crc_ m) (flx_hcrc_ m) (flx_res_ m) v (flx_normal_ m) (flx_sync_ m)
    (flx_startup_ m) (flx_flen_ m) (flx_plen_ m) (flx_mux_ m) (flx_switch_ m) (flx_pvalid_ m)
    (flx_upd_ m) (flx_byteoff_ m) (flx_bitoff_ m) (flx_syntax_ m) (flx_content_ m)
    (flx_boundary_ m) (flx_conflict_ m) (flx_evalid_ m) (flx_mask_ m) (flx_slen_ m)
    (flx_stype_ m)
  | FoNormal v => mkFlx
    (flx_bus_ m) (flx_id_ m) (flx_cycle_ m) (flx_chan_ m) (flx_tx_ m) (flx_data_ m)
    (flx_paylen_ m) (flx_crc_ m) (flx_hcrc_ m) (flx_res_ m) (flx_pre_ m) v (flx_sync_ m)
    (flx_startup_ m) (flx_flen_ m) (flx_plen_ m) (flx_mux_ m) (flx_switch_ m) (flx_pvalid_ m)
    (flx_upd_ m) (flx_byteoff_ m) (flx_bitoff_ m) (flx_syntax_ m) (flx_content_ m)
    (flx_boundary_ m) (flx_conflict_ m) (flx_evalid_ m) (flx_mask_ m) (flx_slen_ m)
    (flx_stype_ m)
  | FoSync v => mkFlx
    (flx_bus_ m) (flx_id_ m) (flx_cycle_ m) (flx_chan_ m) (flx_tx_ m) (flx_data_ m)
    (flx_paylen_ m) (flx_crc_ m) (flx_hcrc_ m) (flx_res_ m) (flx_pre_ m) (flx_normal_ m) v
    (flx_startup_ m) (flx_flen_ m) (flx_plen_ m) (flx_mux_ m) (flx_switch_ m) (flx_pvalid_ m)
    (flx_upd_ m) (flx_byteoff_ m) (flx_bitoff_ m) (flx_syntax_ m) (flx_content_ m)
    (flx_boundary_ m) (flx_conflict_ m) (flx_evalid_ m) (flx_mask_ m) (flx_slen_ m)
    (flx_stype_ m)
  | FoStartup v => mkFlx
    (flx_bus_ m) (flx_id_ m) (flx_cycle_ m) (flx_chan_ m) (flx_tx_ m) (flx_data_ m)
    (flx_paylen_ m) (flx_crc_ m) (flx_hcrc_ m) (flx_res_ m) (flx_pre_ m) (flx_normal_ m)
    (flx_sync_ m) v (flx_flen_ m) (flx_plen_ m) (flx_mux_ m) (flx_switch_ m) (flx_pvalid_ m)
    (flx_upd_ m) (flx_byteoff_ m) (flx_bitoff_ m) (flx_syntax_ m) (flx_content_ m)
    (flx_boundary_ m) (flx_conflict_ m) (flx_evalid_ m) (flx_mask_ m) (flx_slen_ m)
    (flx_stype_ m)
  | FoFlen v => mkFlx
    (flx_bus_ m) (flx_id_ m) (flx_cycle_ m) (flx_chan_ m) (flx_tx_ m) (flx_data_ m)
    (flx_paylen_ m) (flx_crc_ m) (flx_hcrc_ m) (flx_res_ m) (flx_pre_ m) (flx_normal_ m)
    (flx_sync_ m) (flx_startup_ m) v (flx_plen_ m) (flx_mux_ m) (flx_switch_ m) (flx_pvalid_ m)
    (flx_upd_ m) (flx_byteoff_ m) (flx_bitoff_ m) (flx_syntax_ m) (flx_content_ m)
    (flx_boundary_ m) (flx_conflict_ m) (flx_evalid_ m) (flx_mask_ m) (flx_slen_ m)
    (flx_stype_ m)
  | FoPlen v => mkFlx
    (flx_bus_ m) (flx_id_ m) (flx_cycle_ m) (flx_chan_ m) (flx_tx_ m) (flx_data_ m)
    (flx_paylen_ m) (flx_crc_ m) (flx_hcrc_ m) (flx_res_ m) (flx_pre_ m) (flx_normal_ m)
    (flx_sync_ m) (flx_startup_ m) (flx_flen_ m) v (flx_mux_ m) (flx_switch_ m) (flx_pvalid_ m)
    (flx_upd_ m) (flx_byteoff_ m) (flx_bitoff_ m) (flx_syntax_ m) (flx_content_ m)
    (flx_boundary_ m) (flx_conflict_ m) (flx_evalid_ m) (flx_mask_ m) (flx_slen_ m)
    (flx_stype_ m)
  | FoMux v => mkFlx
    (flx_bus_ m) (flx_id_ m) (flx_cycle_ m) (flx_chan_ m) (flx_tx_ m) (flx_data_ m)
    (flx_paylen_ m) (flx_crc_ m) (flx_hcrc_ m) (flx_res_ m) (flx_pre_ m) (flx_normal_ m)
    (flx_sync_ m) (flx_startup_ m) (flx_flen_ m) (flx_plen_ m) v (flx_switch_ m) (flx_pvalid_ m)
    (flx_upd_ m) (flx_byteoff_ m) (flx_bitoff_ m) (flx_syntax_ m) (flx_content_ m)
    (flx_boundary_ m) (flx_conflict_ m) (flx_evalid_ m) (flx_mask_ m) (flx_slen_ m)
    (flx_stype_ m)
  | FoSwitch v => mkFlx
    (flx_bus_ m) (flx_id_ m) (flx_cycle_ m) (flx_chan_ m) (flx_tx_ m) (flx_data_ m)
    (flx_paylen_ m) (flx_crc_ m) (flx_hcrc_ m) (flx_res_ m) (flx_pre_ m) (flx_normal_ m)
    (flx_sync_ m) (flx_startup_ m) (flx_flen_ m) (flx_plen_ m) (flx_mux_ m) v (flx_pvalid_ m)
    (flx_upd_ m) (flx_byteoff_ m) (flx_bitoff_ m) (flx_syntax_ m) (flx_content_ m)
    (flx_boundary_ m) (flx_conflict_ m) (flx_evalid_ m) (flx_mask_ m) (flx_slen_ m)
    (flx_stype_ m)
  | FoPvalid v => mkFlx
    (flx_bus_ m) (flx_id_ m) (flx_cycle_ m) (flx_chan_ m) (flx_tx_ m) (flx_data_ m)
    (flx_paylen_ m) (flx_crc_ m) (flx_hcrc_ m) (flx_res_ m) (flx_pre_ m) (flx_normal_ m)
    (flx_sync_ m) (flx_startup_ m) (flx_flen_ m) (flx_plen_ m) (flx_mux_ m) (flx_switch_ m) v
    (flx_upd_ m) (flx_byteoff_ m) (flx_bitoff_ m) (flx_syntax_ m) (flx_content_ m)
    (flx_boundary_ m) (flx_conflict_ m) (flx_evalid_ m) (flx_mask_ m) (flx_slen_ m)
    (flx_stype_ m)
  | FoUpd v => mkFlx
    (flx_bus_ m) (flx_id_ m) (flx_cycle_ m) (flx_chan_ m) (flx_tx_ m) (flx_data_ m)
    (flx_paylen_ m) (flx_crc_ m) (flx_hcrc_ m) (flx_res_ m) (flx_pre_ m) (flx_normal_ m)
    (flx_sync_ m) (flx_startup_ m) (flx_flen_ m) (flx_plen_ m) (flx_mux_ m) (flx_switch_ m)
    (flx_pvalid_ m) v (flx_byteoff_ m) (flx_bitoff_ m) (flx_syntax_ m) (flx_content_ m)
    (flx_boundary_ m) (flx_conflict_ m) (flx_evalid_ m) (flx_mask_ m) (flx_slen_ m)
    (flx_stype_ m)
  | FoByteoff v => mkFlx
    (flx_bus_ m) (flx_id_ m) (flx_cycle_ m) (flx_chan_ m) (flx_tx_ m) (flx_data_ m)
    (flx_paylen_ m) (flx_crc_ m) (flx_hcrc_ m) (flx_res_ m) (flx_pre_ m) (flx_normal_ m)
    (flx_sync_ m) (flx_startup_ m) (flx_flen_ m) (flx_plen_ m) (flx_mux_ m) (flx_switch_ m)
    (flx_pvalid_ m) (flx_upd_ m) v (flx_bitoff_ m) (flx_syntax_ m) (flx_content_ m)
    (flx_boundary_ m) (flx_conflict_ m) (flx_evalid_ m) (flx_mask_ m) (flx_slen_ m)
    (flx_stype_ m)
  | FoBitoff v => mkFlx
    (flx_bus_ m) (flx_id_ m) (flx_cycle_ m) (flx_chan_ m) (flx_tx_ m) (flx_data_ m)
    (flx_paylen_ m) (flx_crc_ m) (flx_hcrc_ m) (flx_res_ m) (flx_pre_ m) (flx_normal_ m)
    (flx_sync_ m) (flx_startup_ m) (flx_flen_ m) (flx_plen_ m) (flx_mux_ m) (flx_switch_ m)
    (flx_pvalid_ m) (flx_upd_ m) (flx_byteoff_ m) v (flx_syntax_ m) (flx_content_ m)
    (flx_boundary_ m) (flx_conflict_ m) (flx_evalid_ m) (flx_mask_ m) (flx_slen_ m)
    (flx_stype_ m)
  | FoSyntax v => mkFlx
    (flx_bus_ m) (flx_id_ m) (flx_cycle_ m) (flx_chan_ m) (flx_tx_ m) (flx_data_ m)
    (flx_paylen_ m) (flx_crc_ m) (flx_hcrc_ m) (flx_res_ m) (flx_pre_ m) (flx_normal_ m)
    (flx_sync_ m) (flx_startup_ m) (flx_flen_ m) (flx_plen_ m) (flx_mux_ m) (flx_switch_ m)
    (flx_pvalid_ m) (flx_upd_ m) (flx_byteoff_ m) (flx_bitoff_ m) v (flx_content_ m)
    (flx_boundary_ m) (flx_conflict_ m) (flx_evalid_ m) (flx_mask_ m) (flx_slen_ m)
    (flx_stype_ m)
  | FoContent v => mkFlx
    (flx_bus_ m) (flx_id_ m) (flx_cycle_ m) (flx_chan_ m) (flx_tx_ m) (flx_data_ m)
    (flx_paylen_ m) (flx_crc_ m) (flx_hcrc_ m) (flx_res_ m) (flx_pre_ m) (flx_normal_ m)
    (flx_sync_ m) (flx_startup_ m) (flx_flen_ m) (flx_plen_ m) (flx_mux_ m) (flx_switch_ m)
    (flx_pvalid_ m) (flx_upd_ m) (flx_byteoff_ m) (flx_bitoff_ m) (flx_syntax_ m) v
    (flx_boundary_ m) (flx_conflict_ m) (flx_evalid_ m) (flx_mask_ m) (flx_slen_ m)
    (flx_stype_ m)
  | FoBoundary v => mkFlx
    (flx_bus_ m) (flx_id_ m) (flx_cycle_ m) (flx_chan_ m) (flx_tx_ m) (flx_data_ m)
    (flx_paylen_ m) (flx_crc_ m) (flx_hcrc_ m) (flx_res_ m) (flx_pre_ m) (flx_normal_ m)
    (flx_sync_ m) (flx_startup_ m) (flx_flen_ m) (flx_plen_ m) (flx_mux_ m) (flx_switch_ m)
    (flx_pvalid_ m) (flx_upd_ m) (flx_byteoff_ m) (flx_bitoff_ m) (flx_syntax_ m)
    (flx_content_ m) v (flx_conflict_ m) (flx_evalid_ m) (flx_mask_ m) (flx_slen_ m)
    (flx_stype_ m)
  | FoConflict v => mkFlx
    (flx_bus_ m) (flx_id_ m) (flx_cycle_ m) (flx_chan_ m) (flx_tx_ m) (flx_data_ m)
    (flx_paylen_ m) (flx_crc_ m) (flx_hcrc_ m) (flx_res_ m) (flx_pre_ m) (flx_normal_ m)
    (flx_sync_ m) (flx_startup_ m) (flx_flen_ m) (flx_plen_ m) (flx_mux_ m) (flx_switch_ m)
    (flx_pvalid_ m) (flx_upd_ m) (flx_byteoff_ m) (flx_bitoff_ m) (flx_syntax_ m)
    (flx_content_ m) (flx_boundary_ m) v (flx_evalid_ m) (flx_mask_ m) (flx_slen_ m)
    (flx_stype_ m)
  | FoEvalid v => mkFlx
    (flx_bus_ m) (flx_id_ m) (flx_cycle_ m) (flx_chan_ m) (flx_tx_ m) (flx_data_ m)
    (flx_paylen_ m) (flx_crc_ m) (flx_hcrc_ m) (flx_res_ m) (flx_pre_ m) (flx_normal_ m)
    (flx_sync_ m) (flx_startup_ m) (flx_flen_ m) (flx_plen_ m) (flx_mux_ m) (flx_switch_ m)
    (flx_pvalid_ m) (flx_upd_ m) (flx_byteoff_ m) (flx_bitoff_ m) (flx_syntax_ m)
    (flx_content_ m) (flx_boundary_ m) (flx_conflict_ m) v (flx_mask_ m) (flx_slen_ m)
    (flx_stype_ m)
  | FoMask v => mkFlx
    (flx_bus_ m) (flx_id_ m) (flx_cycle_ m) (flx_chan_ m) (flx_tx_ m) (flx_data_ m)
    (flx_paylen_ m) (flx_crc_ m) (flx_hcrc_ m) (flx_res_ m) (flx_pre_ m) (flx_normal_ m)
    (flx_sync_ m) (flx_startup_ m) (flx_flen_ m) (flx_plen_ m) (flx_mux_ m) (flx_switch_ m)
    (flx_pvalid_ m) (flx_upd_ m) (flx_byteoff_ m) (flx_bitoff_ m) (flx_syntax_ m)
    (flx_content_ m) (flx_boundary_ m) (flx_conflict_ m) (flx_evalid_ m) v (flx_slen_ m)
    (flx_stype_ m)
  | FoSlen v => mkFlx
    (flx_bus_ m) (flx_id_ m) (flx_cycle_ m) (flx_chan_ m) (flx_tx_ m) (flx_data_ m)
    (flx_paylen_ m) (flx_crc_ m) (flx_hcrc_ m) (flx_res_ m) (flx_pre_ m) (flx_normal_ m)
    (flx_sync_ m) (flx_startup_ m) (flx_flen_ m) (flx_plen_ m) (flx_mux_ m) (flx_switch_ m)
    (flx_pvalid_ m) (flx_upd_ m) (flx_byteoff_ m) (flx_bitoff_ m) (flx_syntax_ m)
    (flx_content_ m) (flx_boundary_ m) (flx_conflict_ m) (flx_evalid_ m) (flx_mask_ m) v
    (flx_stype_ m)
  | FoStype v => mkFlx
    (flx_bus_ m) (flx_id_ m) (flx_cycle_ m) (flx_chan_ m) (flx_tx_ m) (flx_data_ m)
    (flx_paylen_ m) (flx_crc_ m) (flx_hcrc_ m) (flx_res_ m) (flx_pre_ m) (flx_normal_ m)
    (flx_sync_ m) (flx_startup_ m) (flx_flen_ m) (flx_plen_ m) (flx_mux_ m) (flx_switch_ m)
    (flx_pvalid_ m) (flx_upd_ m) (flx_byteoff_ m) (flx_bitoff_ m) (flx_syntax_ m)
    (flx_content_ m) (flx_boundary_ m) (flx_conflict_ m) (flx_evalid_ m) (flx_mask_ m)
    (flx_slen_ m) v
  end.

(* ------------------------------------------------------------------ *)
(** ** ToRaw *)

(** flexraymessage.cpp:52-55 and the same lines of the other frame types: FlexRayChannel() is the
    value-initialised enumerator A, not the member. *)
Definition flx_head (n : nat) (m : flx) : list stmt :=
  [ do_resize n;
    poke 8 (flx_bus_ m);
    put_num 11 (flx_id_ m) 9;
    poke 11 (N.land (flx_cycle_ m) 0x3F);
    poke_or 11 (N.shiftl (N.land 0 0x01) 6) ].

(** flexraymessage.cpp:56. *)
Definition flx_direction (m : flx) : list stmt :=
  [ poke_or 11 (N.shiftl (N.land (b2n (flx_tx_ m)) 0x01) 7) ].

(** flexraymessage.cpp:71-77: checksums and flags. *)
Definition flx_flags (m : flx) : list stmt :=
  [ put_num 24 (flx_crc_ m) 14;
    put_num 16 (flx_hcrc_ m) 17;
    poke 19 (b2n (flx_res_ m));
    poke_or 19 (N.shiftl (b2n (flx_pre_ m)) 1);
    poke_or 19 (N.shiftl (N.land (b2n (flx_normal_ m)) 0x01) 2);
    poke_or 19 (N.shiftl (b2n (flx_sync_ m)) 3);
    poke_or 19 (N.shiftl (b2n (flx_startup_ m)) 4) ].

(** flexraymessage.cpp:43-80 FlexRayFrame::ToRaw. *)
Definition flx_frame (mand : bool) (m : flx) : list stmt :=
  flx_head (if mand then 24 else 34) m ++ flx_direction m ++
  [ poke 12 (flx_paylen_ m);
    poke 13 (w8 (N.of_nat (length (flx_data_ m)))) ]
  ++ (if mand then [ put_num 64 0 14 ] else
  flx_flags m ++
  [ put_num 32 (flx_flen_ m) 20;
    put_num 64 0 24 ]).

(** flexraymessage.cpp:95-129 FlexRayPdu::ToRaw. *)
Definition flx_pdu (mand : bool) (m : flx) : list stmt :=
  flx_head (if mand then 24 else 28) m ++
  [ poke 12 (flx_plen_ m);
    poke 13 (w8 (N.of_nat (length (flx_data_ m)))) ]
  ++ (if mand then [ put_num 64 0 14 ] else
  [ poke 14 (b2n (flx_mux_ m));
    poke_or 14 (N.shiftl (b2n (flx_pvalid_ m)) 1);
    poke_or 14 (N.shiftl (N.land (flx_bitoff_ m) 0x07) 2);
    put_num 16 (flx_switch_ m) 15;
    put_num 16 (flx_upd_ m) 17;
    poke 19 (flx_byteoff_ m);
    put_num 64 0 20 ]).

(** flexraymessage.cpp:144-184 FlexRayFrameHeader::ToRaw. *)
Definition flx_frame_header (mand : bool) (m : flx) : list stmt :=
  flx_head (if mand then 13 else 34) m ++ flx_direction m ++
  [ poke 12 (flx_paylen_ m) ]
  ++ (if mand then [] else
  [ poke 13 (w8 (N.of_nat (length (flx_data_ m)))) ] ++
  flx_flags m ++
  [ put_num 32 (flx_flen_ m) 20;
    put_num 64 0 24 ]).

(** flexraymessage.cpp:191-231 FlexRayNullFrame::ToRaw. *)
Definition flx_null_frame (mand : bool) (m : flx) : list stmt :=
  flx_head (if mand then 12 else 34) m ++ flx_direction m
  ++ (if mand then [] else
  [ poke 12 (flx_paylen_ m);
    poke 13 (w8 (N.of_nat (length (flx_data_ m)))) ] ++
  flx_flags m ++
  [ put_num 32 (flx_flen_ m) 20;
    put_num 64 0 24 ]).

(** flexraymessage.cpp:238-285 FlexRayErrorFrame::ToRaw. *)
Definition flx_error_frame (mand : bool) (m : flx) : list stmt :=
  flx_head (if mand then 12 else 35) m ++ flx_direction m
  ++ (if mand then [] else
  [ poke 12 (flx_paylen_ m);
    poke 13 (w8 (N.of_nat (length (flx_data_ m)))) ] ++
  flx_flags m ++
  [ poke_or 19 (N.shiftl (b2n (flx_syntax_ m)) 5);
    poke_or 19 (N.shiftl (b2n (flx_content_ m)) 6);
    poke_or 19 (N.shiftl (b2n (flx_boundary_ m)) 7);
    poke 20 (b2n (flx_conflict_ m));
    poke_or 20 (N.shiftl (b2n (flx_evalid_ m)) 1);
    put_num 32 (flx_flen_ m) 21;
    put_num 64 0 25 ]).

(** flexraymessage.cpp:292-312 FlexRaySymbol::ToRaw; FlexRayChannelMask() is a value-initialised
    enum, 0. *)
Definition flx_symbol (mand : bool) (m : flx) : list stmt :=
  [ do_resize (if mand then 10 else 12);
    poke 8 (flx_bus_ m);
    poke 9 (N.land (flx_cycle_ m) 0x3F);
    poke_or 9 (N.shiftl (N.land 0 0x03) 6) ]
  ++ (if mand then [] else
  [ poke 10 (flx_slen_ m);
    poke 11 (flx_stype_ m) ]).

(** The ToRaw functions; [mand] is MandatoryMembersOnly() of the data group. *)
Definition flx_to_raw (t : flx_type) (mand : bool) (m : flx) (rec : list N) : res raw :=
  match t with
  | FlxFrame => with_data (flx_data_ m) (run (flx_frame mand m) rec)
  | FlxPdu => with_data (flx_data_ m) (run (flx_pdu mand m) rec)
  | FlxFrameHeader =>
      if mand then plain (run (flx_frame_header mand m) rec)
      else with_data (flx_data_ m) (run (flx_frame_header mand m) rec)
  | FlxNullFrame =>
      if mand then plain (run (flx_null_frame mand m) rec)
      else with_data (flx_data_ m) (run (flx_null_frame mand m) rec)
  | FlxErrorFrame =>
      if mand then plain (run (flx_error_frame mand m) rec)
      else with_data (flx_data_ m) (run (flx_error_frame mand m) rec)
  | FlxSymbol => plain (run (flx_symbol mand m) rec)
  end.

(* ------------------------------------------------------------------ *)
(** ** The channels of the FlexRay configuration *)

(** The properties of a FlexRay message that have a channel. *)
Inductive flx_field : Type :=
| FxBus | FxId | FxCycle | FxChan | FxTx | FxData | FxPaylen | FxCrc | FxHcrc | FxRes | FxPre
| FxNormal | FxSync | FxStartup | FxFlen | FxPlen | FxMux | FxSwitch | FxPvalid | FxUpd
| FxByteoff | FxBitoff | FxSyntax | FxContent | FxBoundary | FxConflict | FxEvalid | FxMask
| FxSlen | FxStype | FxLength.

(** flexrayconfigadapter.cpp:204-208 and the same lines of the other groups. *)
Definition flx_head_channels : list (flx_field * chan) :=
  [ (FxBus, bus_channel); (FxId, bits_channel 9 0 11); (FxCycle, bits_channel 11 0 6);
    (FxChan, bit_channel 11 6) ].

(** flexrayconfigadapter.cpp:223-229. *)
Definition flx_flag_channels : list (flx_field * chan) :=
  [ (FxCrc, bits_channel 14 0 24); (FxHcrc, bits_channel 17 0 16); (FxRes, bits_channel 19 0 1);
    (FxPre, bits_channel 19 1 1); (FxNormal, bit_channel 19 2); (FxSync, bits_channel 19 3 1);
    (FxStartup, bits_channel 19 4 1) ].

(** flexrayconfigadapter.cpp:184-235 CreateFrameChannel. *)
Definition flx_frame_channels (mand : bool) : list (flx_field * chan) :=
  flx_head_channels ++
  [ (FxTx, bit_channel 11 7); (FxPaylen, bits_channel 12 0 8); (FxLength, bits_channel 13 0 8) ]
  ++ (if mand then [ (FxData, vlsd_channel 14) ] else
  flx_flag_channels ++ [ (FxFlen, bits_channel 20 0 32); (FxData, vlsd_channel 24) ]).

(** flexrayconfigadapter.cpp:237-282 CreatePduChannel. *)
Definition flx_pdu_channels (mand : bool) : list (flx_field * chan) :=
  flx_head_channels ++
  [ (FxPlen, bits_channel 12 0 8); (FxLength, bits_channel 13 0 8) ]
  ++ (if mand then [ (FxData, vlsd_channel 14) ] else
  [ (FxMux, bits_channel 14 0 1); (FxSwitch, bits_channel 15 0 16); (FxPvalid, bits_channel 14 1 1);
    (FxUpd, bits_channel 17 0 12); (FxByteoff, bits_channel 19 0 8); (FxBitoff, bits_channel 14 2 3);
    (FxData, vlsd_channel 20) ]).

(** flexrayconfigadapter.cpp:284-335 CreateFrameHeaderChannel. *)
Definition flx_header_channels (mand : bool) : list (flx_field * chan) :=
  flx_head_channels ++
  [ (FxTx, bit_channel 11 7); (FxPaylen, bits_channel 12 0 8) ]
  ++ (if mand then [] else
  (FxLength, bits_channel 13 0 8) ::
  flx_flag_channels ++ [ (FxFlen, bits_channel 20 0 32); (FxData, vlsd_channel 24) ]).

(** flexrayconfigadapter.cpp:337-387 CreateNullFrameChannel. *)
Definition flx_null_channels (mand : bool) : list (flx_field * chan) :=
  flx_head_channels ++
  [ (FxTx, bit_channel 11 7) ]
  ++ (if mand then [] else
  (FxPaylen, bits_channel 12 0 8) :: (FxLength, bits_channel 13 0 8) ::
  flx_flag_channels ++ [ (FxFlen, bits_channel 20 0 32); (FxData, vlsd_channel 24) ]).

(** flexrayconfigadapter.cpp:389-444 CreateErrorFrameChannel. *)
Definition flx_error_channels (mand : bool) : list (flx_field * chan) :=
  flx_head_channels ++
  [ (FxTx, bit_channel 11 7) ]
  ++ (if mand then [] else
  (FxPaylen, bits_channel 12 0 8) :: (FxLength, bits_channel 13 0 8) ::
  flx_flag_channels ++
  [ (FxSyntax, bits_channel 19 5 1); (FxContent, bits_channel 19 6 1);
    (FxBoundary, bits_channel 19 7 1); (FxConflict, bits_channel 20 0 1);
    (FxEvalid, bits_channel 20 1 1); (FxFlen, bits_channel 21 0 32); (FxData, vlsd_channel 25) ]).

(** flexrayconfigadapter.cpp:446-479 CreateSymbolChannel. *)
Definition flx_symbol_channels (mand : bool) : list (flx_field * chan) :=
  [ (FxBus, bus_channel); (FxCycle, bits_channel 9 0 6); (FxMask, bits_channel 9 6 2) ]
  ++ (if mand then [] else
  [ (FxSlen, bits_channel 10 0 8); (FxStype, bits_channel 11 0 2) ]).

(** flexrayconfigadapter.cpp:21-36 CreateConfig: one channel group per message type. *)
Definition flx_channels (t : flx_type) (mand : bool) : list (flx_field * chan) :=
  match t with
  | FlxFrame => flx_frame_channels mand
  | FlxPdu => flx_pdu_channels mand
  | FlxFrameHeader => flx_header_channels mand
  | FlxNullFrame => flx_null_channels mand
  | FlxErrorFrame => flx_error_channels mand
  | FlxSymbol => flx_symbol_channels mand
  end.
