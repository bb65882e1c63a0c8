(** Specification vocabulary for finalization. *)
From Verif Require Import Base StreamModel StreamSpec FinalModel.
Local Open Scope N_scope.

(** The payload bytes of the records of a group. *)
Definition payload_bytes (id : N) (l : list srec) : N :=
  fold_right N.add 0 (map (fun r => N.of_nat (length (r_data r))) (filter (fun r => r_id r =? id) l)).

(** The size of a VLSD group, kept in two 32-bit fields. *)
Definition vlsd_total (g : group) : N := g_inval g * 2 ^ 32 + g_data g.

(** A group after counting [s] samples: nothing else changed, except the size of a VLSD group when
    it is asked for, which grows by [b]. *)
Record counted (upd_cg upd_vlsd : bool) (s b : N) (g g' : group) : Prop := {
  cd_id : g_id g' = g_id g;
  cd_vlsd : g_vlsd g' = g_vlsd g;
  cd_nof : g_nof g' = if upd_cg then g_nof g + s else g_nof g;
  cd_size : g_vlsd g = false -> g_data g' = g_data g /\ g_inval g' = g_inval g;
  cd_total : g_vlsd g = true -> vlsd_total g' = if upd_vlsd then vlsd_total g + b else vlsd_total g
}.

(** Bytes of the record header: record id and, for a VLSD group, length. *)
Definition header_bytes (d : dgroup) (id : N) : nat :=
  (N.to_nat (d_idsize d) + if vlsd_id d id then 4 else 0)%nat.

(** An unfinalized file whose last data group [d] ends with a DT block at [pos]. *)
Definition open_file (m : mfile) (before : list fdg) (d : dgroup) (bs : list fblk) (pos : nat) (len : N) : Prop :=
  m_final m = false /\ m_groups m = before ++ [mkF d (bs ++ [FDt pos len])].

(** The bounds of the 64-bit counters. *)
Definition fits (d : dgroup) (recs : list srec) : Prop :=
  forall g, In g (d_groups d) -> g_nof g + occ (g_id g) recs < 2 ^ 64 /\
    vlsd_total g + payload_bytes (g_id g) recs + 4 * occ (g_id g) recs < 2 ^ 64.
