(** Model of the values of virtual channels, which are the numbers of the samples:
    include/mdf/ichannel.h:514-533 GetVirtualSample, mdflib/src/channelobserver.h:88-103.

    Simplifications: virtual channels with byte arrays are not modelled; the cast of an integer to a
    float or a double is a parameter. *)
From Verif Require Import Base ChannelModel ObsModel PickModel PickFileModel XmlModel.
Local Open Scope N_scope.

(** What the observer stores: a number or a text. *)
Inductive vvalue : Type := VNum (v : value) | VText (t : list N).

(** ichannel.h:514-533: static_cast<T> of the sample number, or its decimal text. [to_float] and
    [to_double] give the bits of the double that the stored value is read as. *)
Definition virtual_value (to_float to_double : N -> N) (s : store) (sample : N) : vvalue :=
  match s with
  | KeepU w => VNum (VU (sample mod 2 ^ w))
  | KeepS w => VNum (VS (twos w (sample mod 2 ^ w)))
  | KeepFloat => VNum (VF (to_float sample))
  | KeepDouble => VNum (VF (to_double sample))
  | KeepText => VText (int_text (Z.of_N sample))
  | KeepBytes => VNum (VU 0)
  end.

(** channelobserver.h:88-103 for the channel [c], in the type that the reader picks (mdfreader.cpp:89-180). *)
Definition virtual_chan (to_float to_double : N -> N) (c : ChannelModel.chan) (rid : N)
  : ObsModel.chan vvalue :=
  ObsModel.mkChan KVirtual rid 0 (ch_array c) (fun _ _ => (false, 0))
    (fun _ _ => (false, VNum (zero_of c)))
    (fun sample => match pick_store c with
                   | Some s => virtual_value to_float to_double s sample
                   | None => VNum (zero_of c)
                   end).
