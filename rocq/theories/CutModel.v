(** Model of a measurement file when the process stops in the middle of a call: the writes of each
    call of MeasModel.v in the order in which they reach the file.

    Simplifications: the writes reach the file in the order of the calls to the stream; a number that
    is rewritten in place (a link, a counter, a size, the fields of the header) is one write. *)
From Verif Require Import Base BlockModel MetaModel IdentModel DataModel QueueModel MeasModel.
Local Open Scope N_scope.

(** Bytes that are appended are written one by one. *)
Fixpoint appended (pos : nat) (bs : list N) : list (nat * list N) :=
  match bs with
  | [] => []
  | b :: r => (pos, [b]) :: appended (S pos) r
  end.

(** dg4block.cpp:171-199 CreateOrGetDt4: mdfblock.cpp:622-690 alignment and header of the new DT
    block, then 731-755 UpdateLink. *)
Definition dt_steps (k p : nat) (m : meas) : list (nat * list N) :=
  match find_dt k (m_dts m) with
  | Some _ => []
  | None =>
      let n := length (m_file m) in
      appended n (repeat 0 (pad8 n) ++ header_bytes ty_dt 24 [])
        ++ [(p + 24 + 8 * 2, le_bytes 8 (N.of_nat (n + pad8 n)))]%nat
  end.

(** The position and the stored size of the DT block after these. *)
Definition dt_place (k : nat) (m : meas) : nat * N :=
  match find_dt k (m_dts m) with
  | Some b => (b_pos b, b_len b)
  | None => ((length (m_file m) + pad8 (length (m_file m)))%nat, 24)
  end.

(** writer4samplequeue.cpp:36-137 SaveQueue: the DT block, the samples, the counters (129), and
    the size of the DT block (131-132; mdfblock.cpp:700-729 writes only a changed size). *)
Definition save_steps (k : nat) (bytes : list N) (e : enc) (m : meas) : list (nat * list N) :=
  match nth_error (m_places m) k, nth_error (h_dgs (m_hd m)) k with
  | Some (p, cgs), Some d =>
      let s1 := dt_steps k p m in
      let n := length (puts (m_file m) s1) in
      let '(pos, len) := dt_place k m in
      let size := N.of_nat (n + length bytes - pos) in
      s1 ++ appended n bytes ++ dg_writes cgs (count_dg e d)
        ++ (if len =? size then [] else [(pos + 8, le_bytes 8 size)]%nat)
  | _, _ => []
  end.

(** The writes of a call. *)
Definition op_steps (o : mop) (m : meas) : list (nat * list N) :=
  match o with
  | MStart _ => []
  | MSave k bytes e => save_steps k bytes e m
  | MFinal => hd_writes (m_head m) (m_places m) (m_hd m)
  end.

(** The file if the process stops after [j] of them. *)
Definition cut (j : nat) (o : mop) (m : meas) : file := puts (m_file m) (firstn j (op_steps o m)).
