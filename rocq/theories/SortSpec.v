(** Specification of the samples that observers put together (C60) and of the sorting task (C61), in
    terms of the records in the file. *)
From Verif Require Import Base StreamModel StreamSpec QueueModel QueueSpec SortModel.
Local Open Scope N_scope.

(** The elements of a list with their numbers. *)
Fixpoint numbered_from {A} (n : N) (l : list A) : list (N * A) :=
  match l with
  | [] => []
  | x :: r => (n, x) :: numbered_from (n + 1) r
  end.

(** A sample of a group with a separate group for its variable length value: the record and the
    value, and whether the value comes first in the file. *)
Record vsample : Type := mkV { v_first : bool; v_rec : list N; v_val : list N }.

(** Its two records. *)
Definition pair_recs (main v : N) (p : vsample) : list srec :=
  if v_first p then [Rec v (v_val p); Rec main (v_rec p)] else [Rec main (v_rec p); Rec v (v_val p)].

(** Its two notifications, when it is sample [fst p] of its group. *)
Definition pair_events (main v : N) (p : N * vsample) : list event :=
  if v_first (snd p)
  then [Ev (fst p) v (v_val (snd p)); Ev (fst p) main (v_rec (snd p))]
  else [Ev (fst p) main (v_rec (snd p)); Ev (fst p) v (v_val (snd p))].

(** The time stamp of record number [i] of a group: the start time plus the time in the record. *)
Definition time_of (base : N) (x : sgroup) (i : N) (r : list N) : N :=
  to_u64 (Z.of_N base + sg_rel x i r).

(** What the file must hold after sorting for the records [rs] of a group without variable length
    values: the same records in the same order, with the time the writer puts in. *)
Definition sorted_fixed (base : N) (x : sgroup) (rs : list (list N)) : list event :=
  map (fun p => Ev (fst p) 0 (sg_stamp x (time_of base x (fst p) (snd p)) (snd p))) (numbered_from 0 rs).

(** With variable length values: the offset of the value in the last 8 bytes. *)
Definition put_last8 (r : list N) (off : N) : list N := firstn (length r - 8) r ++ le_bytes 8 off.
Fixpoint sorted_vlsd (base : N) (x : sgroup) (i off : N) (ps : list vsample) : list event :=
  match ps with
  | [] => []
  | p :: t =>
      Ev i 0 (put_last8 (sg_stamp x (time_of base x i (v_rec p)) (v_rec p)) off)
      :: sorted_vlsd base x (i + 1) (off + 4 + N.of_nat (length (v_val p))) t
  end.

(** The number in the last 8 bytes. *)
Definition last8 (r : list N) : N := le_num (skipn (length r - 8) r).

(** The new file for a group whose samples [ss] were queued, after the writer is finished: the data
    group found when it is opened, its data bytes and the signal data of its variable length channel.
    The samples are saved and written in any interleaving, uncompressed or compressed. *)
Inductive new_file (x : sgroup) (ss : list sample) : dgroup -> list N -> list N -> Prop :=
| new_plain : forall stale start sch n,
    saved sch = ss ->
    let c := mkC start 0 0 false in
    let h := fun _ : N => sg_var x in
    (S (length (q_list (u_q (run (dest_dg x) h stale c sch ust0)))) <= n)%nat ->
    let st := run (dest_dg x) h stale c (sch ++ repeat Work n) ust0 in
    new_file x ss (with_counts (dest_dg x) (u_enc st)) (u_out st) (e_sd (u_enc st) 0)
| new_compressed : forall stale start sch n,
    zsaved sch = ss ->
    let c := mkC start 0 0 false in
    let h := fun _ : N => sg_var x in
    (length (q_list (z_q (zrun (dest_dg x) h stale c sch zst0))) + 4 <= n)%nat ->
    let st := zrun (dest_dg x) h stale c (sch ++ repeat (ZWork true) n) zst0 in
    new_file x ss (with_counts (dest_dg x) (z_enc st)) (concat (map snd (z_blocks st))) (e_sd (z_enc st) 0).

(** Reading the new file gives the records [evs]. *)
Definition reads_as (d : dgroup) (out : list N) (evs : list event) : Prop :=
  forall blocks fuel, Forall (fun b => b <> []) blocks -> concat blocks = out -> (length out < fuel)%nat ->
  read_data d (fun _ => true) (fun _ => true) fuel blocks = Some (Ok evs).

(** Putting the time into a record leaves its size. *)
Definition stamps (x : sgroup) : Prop := forall t r, length r = rec_size (sg x) -> length (sg_stamp x t r) = rec_size (sg x).
