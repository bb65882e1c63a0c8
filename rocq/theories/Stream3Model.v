(** Model of the record stream of an MDF3 data group: mdflib/src/dg3block.cpp,
    mdflib/src/cg3block.cpp, mdflib/src/dt3block.cpp, the writing loop of
    mdflib/src/samplequeue.cpp and Sr3Block::ReadData (mdflib/src/sr3block.cpp).

    Simplifications: 64-bit byte counters do not wrap; null group pointers are not modelled. *)
From Verif Require Import Base StreamModel.
Local Open Scope N_scope.

(** Members of Cg3Block (cg3block.h:73-76): record_id_ (uint16_t), size_of_data_record_
    (uint16_t), nof_records_ (uint32_t); and for each sample reduction block of the group its data
    link and data size (sr3block.cpp:80-95). *)
Record group3 : Type := mkG3 {
  h_id : N;
  h_size : nat;
  h_nof : N;
  h_srs : list (nat * nat)
}.

(** A Dg3Block: nof_record_id_, the channel groups and the data link. *)
Record dg3 : Type := mkD3 { t_nrid : N; t_groups : list group3; t_link : nat }.

(** dg3block.cpp:151-153: renumbering with a uint8_t counter. *)
Fixpoint renumber3 (id : N) (l : list group3) : list group3 :=
  match l with
  | [] => []
  | g :: r => mkG3 id (h_size g) (h_nof g) (h_srs g) :: renumber3 (w8 (id + 1)) r
  end.

(** dg3block.cpp:145-154 Dg3Block::AddCg3. *)
Definition add_cg3 (d : dg3) (g : group3) : dg3 :=
  let l := t_groups d ++ [g] in
  let n := length l in
  mkD3 (if (1 <? n)%nat then 1 else 0) (renumber3 (if (n <? 2)%nat then 0 else 1) l) (t_link d).

(** samplequeue.cpp:130-139: the bytes SampleQueue::CleanQueue writes for one sample. *)
Definition put3 (nrid id : N) (rec : list N) : list N :=
  (if 0 <? nrid then [w8 id] else []) ++ rec ++ (if 1 <? nrid then [w8 id] else []).

(** dt3block.cpp:39-55 Dt3Block::DataSize; dg3block.cpp DataSize() sums its single data block. *)
Definition data_size3 (d : dg3) : N :=
  fold_right (fun g acc => (t_nrid d + N.of_nat (h_size g)) * h_nof g + acc) 0 (t_groups d).

(** dg3block.cpp:293-307 Dg3Block::FindCgRecordId. *)
Definition find_cg3 (d : dg3) (id : N) : option group3 :=
  match t_groups d with
  | [g] => Some g
  | l => find (fun g => h_id g =? id) l
  end.

(** Reading state: the file from the current position on, [count], sample counters,
    notifications. *)
Record st3 : Type := mkS3 {
  s3_rest : list N;
  s3_count : N;
  s3_cnt : N -> N;
  s3_log : list event
}.

(** [sgetn] into a zero-filled vector: the bytes and how many were read. *)
Definition sgetn (n : nat) (rest : list N) : list N * nat * list N :=
  let got := firstn n rest in
  (got ++ repeat 0 (n - length got), length got, skipn n rest).

(** cg3block.cpp:255-272 Cg3Block::ReadDataRecord; returns the value of the function. *)
Definition read_record3 (verdict : event -> bool) (g : group3) (s : st3) : nat * st3 :=
  let '(rec, n, rest) := sgetn (h_size g) (s3_rest s) in
  let k := s3_cnt s (h_id g) in
  if k <? h_nof g then
    let e := Ev k (h_id g) rec in
    (if verdict e then n else 0%nat,
     mkS3 rest (s3_count s) (upd (s3_cnt s) (h_id g) (k + 1)) (s3_log s ++ [e]))
  else (n, mkS3 rest (s3_count s) (s3_cnt s) (s3_log s)).

(** The leading or trailing record id byte (dg3block.cpp:235-237, 248-250); [None] is the
    exception ReadNumber throws at the end of the file. *)
Definition read_id3 (s : st3) : option (N * st3) :=
  match s3_rest s with
  | [] => None
  | b :: r => Some (b, mkS3 r (s3_count s + 1) (s3_cnt s) (s3_log s))
  end.

Definition add_count (s : st3) (n : nat) : st3 :=
  mkS3 (s3_rest s) (s3_count s + N.of_nat n) (s3_cnt s) (s3_log s).

(** One pass of the loop of Dg3Block::ParseDataRecords, dg3block.cpp:232-251: the state and
    whether the loop goes on. An exception ends the reading; the notifications made stay. *)
Definition step3 (d : dg3) (verdict : event -> bool) (s : st3) : bool * st3 :=
  let with_id := (t_nrid d =? 1) || (t_nrid d =? 2) in
  match (if with_id then read_id3 s else Some (0, s)) with
  | None => (false, s)
  | Some (id, s1) =>
      match find_cg3 d id with
      | None => (false, s1)
      | Some g =>
          let (n, s2) := read_record3 verdict g s1 in
          if (n =? 0)%nat then (false, s2)
          else
            let s3 := add_count s2 n in
            if t_nrid d =? 2 then
              match read_id3 s3 with
              | None => (false, s3)
              | Some (_, s4) => (true, s4)
              end
            else (true, s3)
      end
  end.

Fixpoint loop3 (d : dg3) (verdict : event -> bool) (size : N) (fuel : nat) (s : st3)
  : option (list event) :=
  match fuel with
  | O => None
  | S k =>
      if size <=? s3_count s then Some (s3_log s)
      else
        let (c, s') := step3 d verdict s in
        if c then loop3 d verdict size k s' else Some (s3_log s')
  end.

(** dg3block.cpp:177-191 Dg3Block::ReadData, up to the sample reduction data, which is read
    after the records. *)
Definition read_data3 (d : dg3) (verdict : event -> bool) (fuel : nat) (file : list N)
  : option (list event) :=
  loop3 d verdict (data_size3 d) fuel (mkS3 (skipn (t_link d) file) 0 (fun _ => 0) []).

(* ------------------------------------------------------------------ *)
(** ** Range reading *)

(** dgrange.cpp:17-45 for an MDF3 group (no VLSD groups). *)
Definition range_init3 (d : dg3) (sub : N -> bool) (mn : N) : used_map := fun id =>
  match find (fun g => h_id g =? id) (t_groups d) with
  | None => false
  | Some g => sub id && negb (h_nof g <? mn)
  end.

(** dgrange.cpp:57-62. *)
Definition range_ready3 (d : dg3) (u : used_map) : bool :=
  forallb (fun g => negb (u (h_id g))) (t_groups d).

(** dgrange.cpp:52-55. *)
Definition in_range_map3 (d : dg3) (id : N) : bool :=
  existsb (fun g => h_id g =? id) (t_groups d).

(** cg3block.cpp:274-316 Cg3Block::ReadRangeDataRecord. Stepping the file position beyond the end
    of the file succeeds (mdfblock.cpp:177-184). *)
Definition read_range_record3 (verdict : event -> bool) (mn mxs : N) (g : group3) (s : st3)
    (u : used_map) : nat * st3 * used_map :=
  let k := s3_cnt s (h_id g) in
  let next := k + 1 in
  if negb (u (h_id g)) || (next <? mn) || (mxs <? next) then
    (h_size g,
     mkS3 (skipn (h_size g) (s3_rest s)) (s3_count s)
       (if k <? h_nof g then upd (s3_cnt s) (h_id g) (k + 1) else s3_cnt s) (s3_log s),
     if mxs <? next then updb u (h_id g) false else u)
  else
    let (n, s') := read_record3 verdict g s in (n, s', u).

(** One pass of Dg3Block::ParseRangeDataRecords, dg3block.cpp:265-290. *)
Definition range_step3 (d : dg3) (verdict : event -> bool) (mn mxs : N) (s : st3) (u : used_map)
  : bool * st3 * used_map :=
  let with_id := (t_nrid d =? 1) || (t_nrid d =? 2) in
  match (if with_id then read_id3 s else Some (0, s)) with
  | None => (false, s, u)
  | Some (id, s1) =>
      match find_cg3 d id, in_range_map3 d id with
      | Some g, true =>
          if negb (in_range_map3 d (h_id g)) then (false, s1, u)
          else
          let '(n, s2, u2) := read_range_record3 verdict mn mxs g s1 u in
          if (n =? 0)%nat then (false, s2, u2)
          else
            let s3 := add_count s2 n in
            if t_nrid d =? 2 then
              match read_id3 s3 with
              | None => (false, s3, u2)
              | Some (_, s4) => (negb (range_ready3 d u2), s4, u2)
              end
            else (negb (range_ready3 d u2), s3, u2)
      | _, _ => (false, s1, u)
      end
  end.

Fixpoint range_loop3 (d : dg3) (verdict : event -> bool) (mn mxs size : N) (fuel : nat) (s : st3)
    (u : used_map) : option (list event) :=
  match fuel with
  | O => None
  | S k =>
      if size <=? s3_count s then Some (s3_log s)
      else
        let '(c, s', u') := range_step3 d verdict mn mxs s u in
        if c then range_loop3 d verdict mn mxs size k s' u' else Some (s3_log s')
  end.

(** The file position after reading the sample reduction data of the used groups
    (dg3block.cpp:198-209, cg3block.cpp:324-329, sr3block.cpp:80-95): each non-empty SR block moves
    it to the end of its data. *)
Definition sr_position (d : dg3) (u : used_map) : nat :=
  fold_left (fun pos g =>
    if u (h_id g)
    then fold_left (fun p (x : nat * nat) => if (snd x =? 0)%nat then p else (fst x + snd x)%nat)
           (h_srs g) pos
    else pos) (t_groups d) (t_link d).

(** dg3block.cpp:193-216 Dg3Block::ReadRangeData (with mdfreader.cpp:600-602). *)
Definition read_partial_data3 (d : dg3) (sub : N -> bool) (verdict : event -> bool)
    (min_sample max_sample : N) (fuel : nat) (file : list N) : option (list event) :=
  let mxs := if max_sample <? min_sample then min_sample else max_sample in
  let u := range_init3 d sub min_sample in
  range_loop3 d verdict min_sample mxs (data_size3 d) fuel
    (mkS3 (skipn (sr_position d u) file) 0 (fun _ => 0) []) u.
