(** Model of texts, byte arrays and CANopen dates in channels of fixed length: the calls of an
    application (mdflib/src/ichannel.cpp, include/mdf/ichannel.h SetChannelValue) and what a reader
    gets (GetChannelValue, mdflib/src/cn4block.cpp GetTextValue, GetByteArrayValue), in the programs of
    ValueModel.

    Simplifications: numbers written as text into numeric channels and numbers written into text
    channels (std::stoull, std::to_string) are not modelled, nor channels of variable length, whose
    values are not in the record ([Fail]); wide characters have 32 bits as in TextModel; a value that
    is not found in the record is shown as empty. *)
From Verif Require Import Base BlockModel StreamModel QueueModel WriterModel ChannelModel ChannelSpec TextModel TimeModel MetaModel MeasModel ValueModel.
Local Open Scope N_scope.

(** include/mdf/ichannel.h:83-101: the texts, by the number TextModel has for their form. *)
Definition string_form (t : dtype) : option N :=
  match t with
  | StrAscii => Some 0
  | StrUtf8 => Some 1
  | StrUtf16Le => Some 2
  | StrUtf16Be => Some 3
  | _ => None
  end.

Definition fixed_only (c : chan) (r : res (list N)) : res (list N) :=
  match ch_type c with VariableLength => Fail | _ => r end.

(** ichannel.cpp:762-813 SetChannelValue<std::string>; MdfHelper::TextToByteArray (mdfhelper.cpp:336-342)
    copies the bytes. *)
Definition set_string (c : chan) (buf : list N) (s : list N) (valid : bool) : res (list N) :=
  fixed_only c
    match ch_dtype c with
    | StrAscii | StrUtf8 | StrUtf16Le | StrUtf16Be => set_text_fixed c buf s valid
    | ByteArray | MimeSample | MimeStream => set_bytes_fixed c buf s valid
    | CanOpenDate | CanOpenTime | ComplexLe | ComplexBe => Ok (set_valid c buf false 0)
    | UnsignedLe | UnsignedBe | SignedLe | SignedBe | FloatLe | FloatBe => Fail
    end.

(** ichannel.cpp:815-852 SetChannelValue<std::vector<uint8_t>>. *)
Definition set_vector (c : chan) (buf : list N) (s : list N) (valid : bool) : res (list N) :=
  fixed_only c
    match ch_dtype c with
    | StrAscii | StrUtf8 | StrUtf16Le | StrUtf16Be | ByteArray | MimeSample | MimeStream => set_bytes_fixed c buf s valid
    | CanOpenDate | CanOpenTime =>
        if N.of_nat (length s) =? data_bytes c then set_bytes_fixed c buf s valid else Ok (set_valid c buf false 0)
    | _ => Ok (set_valid c buf false 0)
    end.

(** ichannel.h:762-782 SetChannelValue<uint64_t> on CANopen channels; numbers are ValueModel's. *)
Definition set_ns (z : zone) (c : chan) (buf : list N) (ns : N) (valid : bool) : res (list N) :=
  match ch_dtype c with
  | CanOpenDate => if data_bytes c =? 7 then set_bytes_fixed c buf (canopen_date z ns) valid else Ok (set_valid c buf false 0)
  | CanOpenTime => if data_bytes c =? 6 then set_bytes_fixed c buf (canopen_time z ns) valid else Ok (set_valid c buf false 0)
  | _ => Fail
  end.

(** A call on the channels of a group. *)
Inductive sop : Type :=
| SNum (o : setop)
| SText (ci : nat) (s : list N) (valid : bool)
| SBytes (ci : nat) (s : list N) (valid : bool)
| SNs (ci : nat) (ns : N) (valid : bool).

Definition with_chan (cs : list chan) (ci : nat) (f : chan -> res (list N)) : res (list N) :=
  match nth_error cs ci with None => Fail | Some c => f c end.
Definition run_sop (z : zone) (d2f : N -> N) (cs : list chan) (o : sop) (buf : list N) : res (list N) :=
  match o with
  | SNum o => run_ops d2f cs [o] buf
  | SText ci s valid => with_chan cs ci (fun c => set_string c buf s valid)
  | SBytes ci s valid => with_chan cs ci (fun c => set_vector c buf s valid)
  | SNs ci ns valid => with_chan cs ci (fun c => set_ns z c buf ns valid)
  end.
Fixpoint run_sops (z : zone) (d2f : N -> N) (cs : list chan) (l : list sop) (buf : list N) : res (list N) :=
  match l with
  | [] => Ok buf
  | o :: r => bind (run_sop z d2f cs o buf) (run_sops z d2f cs r)
  end.

(** A program: calls on the channels of group [g], and SaveSample of group [g] at a time
    (samplequeue.cpp:161-186). *)
Inductive xop : Type :=
| XSet (g : nat) (o : sop)
| XSave (g : nat) (ts : N).
Fixpoint run_text (z : zone) (d2f : N -> N) (gs : list cg) (p : list xop) (bufs : nat -> list N) : res (list sample) :=
  match p with
  | [] => Ok []
  | XSet k o :: r =>
      match nth_error gs k with
      | None => Fail
      | Some g => bind (run_sop z d2f (chans_of g) o (bufs k)) (fun b => run_text z d2f gs r (put_buf bufs k b))
      end
  | XSave k ts :: r =>
      match nth_error gs k with
      | None => Fail
      | Some g => bind (run_text z d2f gs r bufs) (fun l => Ok (sample_of g ts (bufs k) :: l))
      end
  end.

(* ------------------------------------------------------------------ *)
(** ** Reading *)

(** cn4block.cpp:635-752 GetTextValue for a channel of fixed length. *)
Definition get_text (c : chan) (rec : list N) : res (list N) :=
  match string_form (ch_dtype c) with
  | Some k => bind (get_bytes c None [] rec) (text_of k)
  | None => Fail
  end.

Definition is_bytes (t : dtype) : bool := match t with ByteArray | MimeSample | MimeStream => true | _ => false end.

(** ichannel.cpp:585-659 GetChannelValue<std::vector<uint8_t>> of texts and byte arrays: the valid flag
    and the value. *)
Definition get_vector (c : chan) (rec : list N) : bool * list N :=
  match (if is_bytes (ch_dtype c) then get_bytes c None [] rec else get_text c rec) with
  | Ok v => (get_valid c rec 0, v)
  | _ => (false, [])
  end.

(** Two upper case hexadecimal digits, ichannel.cpp:710-714. *)
Definition hex_digit (n : N) : N := if n <? 10 then 48 + n else 55 + n.
Definition hex_text (l : list N) : list N := flat_map (fun b => [hex_digit (b / 16); hex_digit (b mod 16)]) l.

(** ichannel.cpp:661-760 GetChannelValue<std::string> of texts and byte arrays. *)
Definition get_string (c : chan) (rec : list N) : bool * list N :=
  let '(ok, v) := get_vector c rec in (ok, if is_bytes (ch_dtype c) then hex_text v else v).

(** ichannel.cpp:259-283 GetCanOpenDate, GetCanOpenTime, and ichannel.h:688-706. *)
Definition get_ns (z : zone) (c : chan) (rec : list N) : bool * N :=
  let at_byte (n : N) (f : list N -> res N) :=
    match rd_block rec (ch_byte c) n with
    | Some b => match f b with Ok ns => (get_valid c rec 0, ns) | _ => (false, 0) end
    | None => (false, 0)
    end in
  match ch_dtype c with
  | CanOpenDate => at_byte 7 (date_of_canopen z)
  | CanOpenTime => at_byte 6 (time_of_canopen z)
  | _ => (false, 0)
  end.
