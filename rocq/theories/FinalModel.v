(** Model of the finalization of an unfinalized MDF4 file when it is opened: mdflib/src/mdf4file.cpp
    FinalizeFile, hd4block.cpp, dg4block.cpp FinalizeDtBlocks and FinalizeCgAndVlsdBlocks,
    dt4block.cpp UpdateDataSize, cg4block.cpp UpdateCycleCounter and UpdateVlsdSize.

    Simplifications: no null pointers; seeking never fails, also not beyond the end of the file (a
    file buffer). *)
From Verif Require Import Base StreamModel BlockModel.
Local Open Scope N_scope.

(** The blocks of a data group's data list: a DT block (position of its data, block_length_) or any
    other block. *)
Inductive fblk : Type := FDt (pos : nat) (len : N) | FOther.

(** A data group with its data blocks. *)
Record fdg : Type := mkF { f_dg : dgroup; f_blocks : list fblk }.

(** A file as read by ReadEverythingButData: IdBlock::IsFinalized (idblock.cpp:197-202), the
    standard flags and the data groups. *)
Record mfile : Type := mkM { m_final : bool; m_flags : N; m_groups : list fdg }.

(** dt4block.cpp:34-36 DataSize. *)
Definition dt_size (len : N) : N := if 24 <? len then len - 24 else 0.

(** dt4block.cpp:38-45 UpdateDataSize. *)
Definition update_dt (f : file) (pos : nat) (len : N) : N :=
  if (pos <? length f)%nat then 24 + N.of_nat (length f - pos) else len.

(** The last element of a list and the ones before. *)
Definition split_last {A : Type} (l : list A) : option (list A * A) :=
  match rev l with [] => None | x :: r => Some (rev r, x) end.

(** dg4block.cpp:687-707 FinalizeDtBlocks. *)
Definition finalize_dt (f : file) (g : fdg) : fdg :=
  match split_last (f_blocks g) with
  | Some (r, FDt pos len) => mkF (f_dg g) (r ++ [FDt pos (update_dt f pos len)])
  | _ => g
  end.

(** dg4block.cpp:548-584 ReadRecordId from the file. *)
Definition read_record_id (d : dgroup) (f : file) (p : nat) : res (N * nat) :=
  let sz := d_idsize d in
  if (sz =? 1) || (sz =? 2) || (sz =? 4) || (sz =? 8) then read_num false (N.to_nat sz) f p
  else Ok (0, p).

(** The CgCounter of each record id: samples and bytes. *)
Definition counters : Type := N -> N * N.

(** The bytes of the record at a position, dg4block.cpp:765-778: the stream is moved on whether or
    not these bytes are there. *)
Definition count_bytes (g : group) (f : file) (p : nat) : res N :=
  if g_vlsd g then bind (read_num false 4 f p) (fun '(len, _) => Ok (4 + len))
  else Ok (N.of_nat (rec_size g)).

(** dg4block.cpp:747-782, the counting loop; [size] is DataSize(), [find_group] the lookup in
    counter_list. [None]: still running after [fuel] passes; [Fail]: an exception. *)
Fixpoint count_loop (d : dgroup) (f : file) (size : N) (fuel : nat) (p : nat) (count : N)
    (cnt : counters) : option (res counters) :=
  if count <? size then
    match fuel with
    | O => None
    | S k =>
        match read_record_id d f p with
        | Ok (id, p1) =>
            let count := count + N.of_nat (p1 - p) in
            match find_group d id with
            | None => Some (Ok cnt)
            | Some g =>
                match count_bytes g f p1 with
                | Ok n =>
                    let '(s, b) := cnt (g_id g) in
                    count_loop d f size k (p1 + N.to_nat n) (count + n)
                      (fun i => if i =? g_id g then (w64 (s + 1), w64 (b + n)) else cnt i)
                | Fail => Some Fail
                | UB => Some UB
                end
            end
        | Fail => Some Fail
        | UB => Some UB
        end
    end
  else Some (Ok cnt).

(** cg4block.cpp:403-417 UpdateCycleCounter and UpdateVlsdSize, dg4block.cpp:783-794. *)
Definition update_group (upd_cg upd_vlsd : bool) (cnt : counters) (g : group) : group :=
  let '(s, b) := cnt (g_id g) in
  let nof := if upd_cg then w64 (g_nof g + s) else g_nof g in
  if upd_vlsd && g_vlsd g then
    let total := w64 (N.shiftl (g_inval g) 32 + g_data g + b) in
    mkGroup (g_id g) (g_vlsd g) (N.land total 0xFFFFFFFF) (N.shiftr total 32) nof
  else mkGroup (g_id g) (g_vlsd g) (g_data g) (g_inval g) nof.

(** Only the first group of a record id is in the map. *)
Fixpoint update_groups (upd_cg upd_vlsd : bool) (cnt : counters) (seen : list N) (l : list group)
  : list group :=
  match l with
  | [] => []
  | g :: r =>
      (if existsb (N.eqb (g_id g)) seen then g else update_group upd_cg upd_vlsd cnt g)
      :: update_groups upd_cg upd_vlsd cnt (g_id g :: seen) r
  end.

(** dg4block.cpp:712-796 FinalizeCgAndVlsdBlocks. *)
Definition finalize_cg (upd_cg upd_vlsd : bool) (f : file) (fuel : nat) (g : fdg)
  : option (res fdg) :=
  match split_last (f_blocks g) with
  | Some (_, FDt pos len) =>
      match d_groups (f_dg g) with
      | [] => Some (Ok g)
      | gs =>
          match count_loop (f_dg g) f (dt_size len) fuel pos 0 (fun _ => (0, 0)) with
          | Some (Ok cnt) =>
              Some (Ok (mkF (mkDg (d_idsize (f_dg g)) (update_groups upd_cg upd_vlsd cnt [] gs))
                            (f_blocks g)))
          | Some Fail => Some Fail
          | Some UB => Some UB
          | None => None
          end
      end
  | _ => Some (Ok g)
  end.

(** mdf4file.cpp:203-257 FinalizeFile: the returned value and the file in memory. The last data
    group is the one finalized (hd4block.cpp:549-565). *)
Definition finalize_file (f : file) (fuel : nat) (m : mfile) : option (res (bool * mfile)) :=
  if m_final m || (m_flags m =? 0) then Some (Ok (false, m))
  else
    let bit := N.testbit (m_flags m) in
    let supported := negb (bit 4) && negb (bit 3) && negb (bit 1) in
    let upd_cg := bit 0 in
    let upd_vlsd := bit 5 || bit 6 in
    match split_last (m_groups m) with
    | None => Some (Ok (supported, m))
    | Some (before, g) =>
        let g := if bit 2 then finalize_dt f g else g in
        match (if upd_cg || upd_vlsd then finalize_cg upd_cg upd_vlsd f fuel g
               else Some (Ok g)) with
        | Some (Ok g) => Some (Ok (supported, mkM (m_final m) (m_flags m) (before ++ [g])))
        | Some Fail => Some Fail
        | Some UB => Some UB
        | None => None
        end
    end.

(** The data bytes of the last data group for the record reader, a single DT block. *)
Definition dt_bytes (f : file) (pos : nat) (len : N) : list N := slice pos (N.to_nat (dt_size len)) f.
