(** Model of finding and creating channel groups and channels by name: mdflib/src/idatagroup.cpp,
    mdflib/src/ichannelgroup.cpp.

    Simplifications: a data group is the list of the names of its groups and a channel group the list of
    the names of its channels (LookTreeModel has the member channels); the lists have no null pointers; names hold
    no NUL (the code passes name.data() on); names are not changed after creation. *)
From Verif Require Import Base XmlModel BusLogModel.
Local Open Scope N_scope.

(** std::find_if: the place of the first member that satisfies [f]. *)
Fixpoint find_place {A} (f : A -> bool) (l : list A) : option nat :=
  match l with
  | [] => None
  | x :: r => if f x then Some 0%nat else option_map S (find_place f r)
  end.

(** idatagroup.cpp:121-139 GetChannelGroup by name. *)
Definition get_group (groups : list (list N)) (name : list N) : option nat :=
  match name with
  | [] => None
  | _ =>
      match find_place (fun g => beq g name) groups with
      | Some i => Some i
      | None =>
          if (3 <? length name)%nat then find_place (fun g => contains name g) groups else None
      end
  end.

(** idatagroup.cpp:105-119 CreateChannelGroup by name: the groups afterwards and the place of the returned
    one; a new group is the last one (dg4block.cpp:59-64). In MDF 4 a group keeps
    its name (cg4block.cpp:65-67). *)
Definition create_group (groups : list (list N)) (name : list N) : list (list N) * nat :=
  match find_place (fun g => beq g name && negb (beq name [])) groups with
  | Some i => (groups, i)
  | None => (groups ++ [name], length groups)
  end.

(** The same for MDF 3 (dg3block.cpp:170-175), where setting the name of a group does nothing and the name is
    always empty (cg3block.cpp:26-28). *)
Definition create_group3 (groups : list (list N)) (name : list N) : list (list N) * nat :=
  match find_place (fun g => beq g name && negb (beq name [])) groups with
  | Some i => (groups, i)
  | None => (groups ++ [[]], length groups)
  end.

(** ichannelgroup.cpp:42-57 CreateChannel by name; a new channel is the last one (cg4block.cpp:424-429,
    cg3block.cpp:317-322). *)
Definition create_channel (channels : list (list N)) (name : list N) : list (list N) * nat :=
  match find_place (fun c => beq c name) channels with
  | Some i => (channels, i)
  | None => (channels ++ [name], length channels)
  end.

(** ichannelgroup.cpp:59-71 GetChannel by name. *)
Definition find_channel (channels : list (list N)) (name : list N) : option nat :=
  find_place (fun c => contains name c) channels.

(** idatagroup.cpp:140-147 GetChannelGroup by record id, on the record ids of the groups. *)
Definition get_group_id (ids : list N) (id : N) : option nat := find_place (fun g => g =? id) ids.
