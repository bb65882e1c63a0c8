(** What a record stream is and what reading it must deliver, written without reference to the
    reader's cursor, counters or code paths. *)
From Verif Require Import Base StreamModel.
Local Open Scope N_scope.

(** A record of a data group: the record id of its channel group and the data bytes. *)
Record srec : Type := Rec { r_id : N; r_data : list N }.

(** Is the channel group with this id a variable length (VLSD) group? *)
Definition vlsd_id (d : dgroup) (id : N) : bool :=
  existsb (fun g => (g_id g =? id) && g_vlsd g) (d_groups d).

(** The MDF4 encoding of a record: record id, for VLSD groups a 4-byte length, data. *)
Definition enc_rec (d : dgroup) (r : srec) : list N :=
  le_bytes (N.to_nat (d_idsize d)) (r_id r)
  ++ (if vlsd_id d (r_id r) then le_bytes 4 (N.of_nat (length (r_data r))) else [])
  ++ r_data r.

Definition stream (d : dgroup) (recs : list srec) : list N := concat (map (enc_rec d) recs).

(** A data group whose record ids can be told apart and whose records occupy at least one byte. *)
Record dg_ok (d : dgroup) : Prop := {
  dg_some : d_groups d <> [];
  dg_ids : NoDup (map g_id (d_groups d));
  dg_size : In (d_idsize d) [0; 1; 2; 4; 8];
  dg_fit : forall g, In g (d_groups d) -> d_idsize d <> 0 -> g_id g < 256 ^ d_idsize d;
  dg_single : d_idsize d = 0 -> length (d_groups d) = 1%nat;
  dg_bytes : forall g, In g (d_groups d) -> d_idsize d = 0 -> g_vlsd g = false ->
             (0 < rec_size g)%nat
}.

(** The record belongs to a group of the data group and has that group's size. *)
Definition rec_ok (d : dgroup) (r : srec) : Prop :=
  exists g, In g (d_groups d) /\ g_id g = r_id r /\
    if g_vlsd g then N.of_nat (length (r_data r)) < 2 ^ 32
    else length (r_data r) = rec_size g.

(** Number of records with the given id. *)
Definition occ (id : N) (l : list srec) : N :=
  N.of_nat (length (filter (fun r => r_id r =? id) l)).

(** NofSamples() of the group with the given id. *)
Definition nof_of (d : dgroup) (id : N) : N :=
  match find (fun g => g_id g =? id) (d_groups d) with Some g => g_nof g | None => 0 end.

(** The notifications for the records [recs] when [prev] came before them: every record of a
    subscribed group that is among the first NofSamples of its group, numbered within its group. *)
Fixpoint expected (d : dgroup) (sub : N -> bool) (prev recs : list srec) : list event :=
  match recs with
  | [] => []
  | r :: t =>
      (if sub (r_id r) && (occ (r_id r) prev <? nof_of d (r_id r))
       then [Ev (occ (r_id r) prev) (r_id r) (r_data r)] else [])
      ++ expected d sub (prev ++ [r]) t
  end.

(** The notifications made when an observer can end the reading: up to and including the first
    one that is answered with false. *)
Fixpoint upto (verdict : event -> bool) (l : list event) : list event :=
  match l with
  | [] => []
  | e :: t => e :: if verdict e then upto verdict t else []
  end.

(** The number of samples declared in each group is the number of records in the stream. *)
Definition counts_right (d : dgroup) (recs : list srec) : Prop :=
  forall g, In g (d_groups d) -> g_nof g = occ (g_id g) recs.

Definition ev_rec (e : event) : srec := Rec (e_id e) (e_rec e).

(** Position of an event within its group lies in the 1-based range [mn .. mx]. *)
Definition in_range (mn mx : N) (e : event) : bool :=
  (mn <=? e_sample e + 1) && (e_sample e + 1 <=? mx).

(** Variable length values: the length-prefixed payloads one after the other, and the offset of
    each of them in that concatenation. *)
Definition chunk (p : list N) : list N := le_bytes 4 (N.of_nat (length p)) ++ p.

Fixpoint offsets_from (off : N) (l : list (list N)) : list (N * list N) :=
  match l with
  | [] => []
  | p :: t => (off, p) :: offsets_from (off + 4 + N.of_nat (length p)) t
  end.

(** The payloads of one group in stream order. *)
Definition payloads (id : N) (recs : list srec) : list (list N) :=
  map r_data (filter (fun r => r_id r =? id) recs).

(** The entries whose offset is asked for; an empty request asks for all. *)
Definition requested (flt : list N) (l : list (N * list N)) : list (N * list N) :=
  match flt with
  | [] => l
  | _ => filter (fun p => existsb (N.eqb (fst p)) flt) l
  end.
