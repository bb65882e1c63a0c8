(** Model of a channel observer (ObsModel.v) of a channel (ChannelModel.v): what OnSample
    (mdflib/src/channelobserver.h:73-170) gets from a channel that is stored in the record. *)
From Verif Require Import Base ChannelModel ObsModel PickModel.
Local Open Scope N_scope.

(** T{} (channelobserver.h:47-48), and static_cast<T>(0) of a value that could not be decoded
    (include/mdf/ichannel.h:638-660). *)
Definition zero_of (c : ChannelModel.chan) : value :=
  match ch_dtype c with
  | SignedLe | SignedBe => VS 0
  | FloatLe | FloatBe => VF 0
  | _ => VU 0
  end.

(** channelobserver.h:148-165, a channel in the record: GetChannelValue into a T for each array index.
    [rid] is the record id of its group. Simplification: a read outside the record, which is no defined
    behaviour, is shown as a value that could not be decoded; the theorems exclude it. *)
Definition observer_chan (half_to_double float_to_double double_to_float : N -> N)
    (c : ChannelModel.chan) (rid : N) : ObsModel.chan value :=
  ObsModel.mkChan KFixed rid 0 (ch_array c) (fun _ _ => (false, 0))
    (fun rec idx =>
       match observed half_to_double float_to_double double_to_float c rec idx with
       | Ok (v, ok) => (ok, v)
       | _ => (false, zero_of c)
       end)
    (fun _ => zero_of c).
