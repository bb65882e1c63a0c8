(** Model of creating channels by name in an MDF 4 group whose channels have member channels:
    mdflib/src/ichannelgroup.cpp, cg4block.cpp.

    Simplification: of a new channel only the name is kept. *)
From Verif Require Import Base XmlModel MetaModel BusLogModel LookModel.
Local Open Scope N_scope.

(** cg4block.cpp:345-358 Channels. *)
Definition channels_of (l : list cn) : list cn := flat_map all_channels l.

(** ichannelgroup.cpp:42-57 CreateChannel by name: the channels of the group afterwards and the place of the
    returned one in Channels(). *)
Definition create_channel4 (l : list cn) (name : list N) : list cn * nat :=
  match find_place (fun c => beq (cn_name c) name) (channels_of l) with
  | Some i => (l, i)
  | None => (l ++ [mkCn (bare_cnh 0 0 0 0 0 0 0 name) []], length (channels_of l))
  end.

(** ichannelgroup.cpp:59-71 GetChannel by name: the place in Channels(). *)
Definition find_channel4 (l : list cn) (name : list N) : option nat :=
  find_place (fun c => contains name (cn_name c)) (channels_of l).
