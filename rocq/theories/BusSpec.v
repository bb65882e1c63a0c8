(** Specifications used in the statements about bus messages: what a reader gets from a channel of a
    stored bus record. *)
From Verif Require Import Base ChannelModel BusModel.
Local Open Scope N_scope.

(** What a channel yields: a number or a byte array. *)
Inductive content : Type := Num (v : value) | Bytes (l : list N).

Definition num (v : N) : content := Num (VU v).
Definition flag (b : bool) : content := Num (VU (if b then 1 else 0)).

(** IChannel::GetChannelValue on the record: the byte array of a byte array channel, the number of
    any other; a value that is not valid counts as a failure. [f2d] is the float to double
    conversion and [data] the signal data of the group. *)
Definition read_content (f2d : N -> N) (data : list N) (c : chan) (rec : list N) : res content :=
  match ch_dtype c with
  | ByteArray => bind (get_bytes c None data rec) (fun l => Ok (Bytes l))
  | _ => bind (get_channel (fun h => h) f2d c rec 0)
           (fun p => if snd p then Ok (Num (fst p)) else Fail)
  end.

(** The signal data holds the payload, with its length, at byte [idx]. *)
Definition sd_holds (data : list N) (idx : N) (payload : list N) : Prop :=
  exists before after,
    data = before ++ le_bytes 4 (N.of_nat (length payload)) ++ payload ++ after /\
    idx = N.of_nat (length before) /\
    N.of_nat (length data) < 2 ^ 63 /\ N.of_nat (length payload) < 2 ^ 32.

(** [n] bytes: the data cut or filled with [v]. *)
Definition padded (v : N) (n : nat) (l : list N) : list N := firstn n (l ++ repeat v n).
