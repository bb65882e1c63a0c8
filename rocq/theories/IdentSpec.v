(** Specification vocabulary for whole files. *)
From Verif Require Import Base BlockModel BlockSpec IdentModel.
Local Open Scope N_scope.

(** The texts fit their fields, and the numbers theirs, in a little-endian file. *)
Definition id_texts (d : idb) : Prop :=
  Forall (fun s => ~ In 0 s /\ (length s <= 8)%nat) [i_file d; i_format d; i_program d].
Definition id_numbers (d : idb) : Prop :=
  i_order d = 0 /\ Forall (fun n => n < 2 ^ 16) [i_float d; i_version d; i_code d; i_standard d; i_custom d].

(** What a reader has: texts without the white space around them. *)
Definition id_trimmed (d : idb) : idb :=
  mkId (trim (i_file d)) (trim (i_format d)) (trim (i_program d)) (i_order d) (i_float d) (i_version d)
    (i_code d) (i_standard d) (i_custom d).

(** The positions that say whether a file is finalized. *)
Definition mark_position (i : nat) : Prop := (i < 8 \/ 60 <= i < 64)%nat.

(** Same bytes but for those. *)
Definition same_but_mark (f g : file) : Prop :=
  length g = length f /\ forall i, ~ mark_position i -> nth_error g i = nth_error f i.
