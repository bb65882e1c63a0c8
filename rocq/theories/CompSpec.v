(** Specification vocabulary for the file of a measurement with compression. *)
From Verif Require Import Base BlockModel MetaModel MetaSpec IdentModel IdentSpec DataModel QueueModel MeasModel MeasSpec CompModel.
Local Open Scope N_scope.

(** The same call without compression: a save of the same bytes and counters. *)
Definition plain_call (o : cop) : mop :=
  match o with
  | CStart t => MStart t
  | CStore k full rest e => MSave k (concat full ++ rest) e
  | CFinal => MFinal
  end.

(** The data blocks of a data group, save by save: the full buffers and the rest if there is one. *)
Definition blocks_of (full : list (list N)) (rest : list N) : list (list N) :=
  full ++ match rest with [] => [] | _ => [rest] end.
Definition stored (k : nat) (ops : list cop) : list (list (list N)) :=
  flat_map (fun o => match o with
                     | CStore j full rest _ => if (j =? k)%nat then [blocks_of full rest] else []
                     | _ => []
                     end) ops.

(** Sizes: the data of a data group are less than 2^63 bytes, a save has less than 2^32 blocks, and
    zlib's result fits the buffer of the library. *)
Definition sizes_fit (deflate : list N -> list N) (ops : list cop) : Prop :=
  forall k, N.of_nat (length (concat (concat (stored k ops)))) < 2 ^ 63 /\
    Forall (fun xs => N.of_nat (length xs) < 2 ^ 32) (stored k ops) /\
    Forall (Forall (fun x => (length (deflate x) <= length x + 100)%nat)) (stored k ops).
