(** Model of the file during a measurement with the uncompressed MDF4 writer: InitMeasurement
    (mdfwriter.cpp:243-277), StartMeasurement (279-319), the saves of the sample queues
    (writer4samplequeue.cpp:36-137) and FinalizeMeasurement (332-352). It joins the file of
    IdentModel.v, the data bytes and counters of QueueModel.v and the readers of MetaModel.v,
    DataModel.v and StreamModel.v.

    Simplifications: one measurement in a new file; no channel has signal data (SD blocks); the links
    to VLSD groups and default X channels are not written (see MetaModel.v). *)
From Verif Require Import Base BlockModel MetaModel IdentModel DataModel QueueModel.
From Verif Require StreamModel.
Local Open Scope N_scope.

(* ------------------------------------------------------------------ *)
(** ** Positions *)

(** Each block remembers its position when it is written (mdfblock.cpp:622-625). The positions are
    found by following the writer of MetaModel.v. *)
Section Places.
Context {T P : Type} (wr : T -> file -> res (file * nat)) (pl : T -> file -> P).

Fixpoint chain_places (prev : option nat) (xs : list T) (f : file) : list (nat * P) :=
  match xs with
  | [] => []
  | x :: r =>
      match wr x f with
      | Ok (f1, pos) =>
          let f2 := match prev with
                    | Some q => put f1 (q + 24) (le_bytes 8 (N.of_nat pos))
                    | None => f1
                    end in
          (pos, pl x f) :: chain_places (Some pos) r f2
      | _ => []
      end
  end.

End Places.

(** The channel groups of a data group; the data groups of a header, each with its channel groups. *)
Definition dg_places (d : dg) (f : file) : list (nat * unit) :=
  chain_places write_cg (fun _ _ => tt) None (d_cgs d) f.
Definition hd_places (h : hd) (f : file) : list (nat * list (nat * unit)) :=
  match write_hd_head h f with
  | Ok (f, _) => chain_places write_dg dg_places None (h_dgs h) f
  | _ => []
  end.

(* ------------------------------------------------------------------ *)
(** ** Rewriting blocks in place *)

(** Writes at given positions, in order. *)
Definition puts (f : file) (ws : list (nat * list N)) : file :=
  fold_left (fun f '(p, bs) => put f p bs) ws f.

(** CgFlag::VlsdChannel. *)
Definition fVlsd : N := 1.
Definition is_vlsd (g : cg) : bool := has (g_flags g) fVlsd.

(** Size of header and links of a CG block (cg4block.cpp:192-197). *)
Definition cg_head (g : cg) : nat := (24 + 8 * (if has (g_flags g) fRemote then 7 else 6))%nat.

(** cg4block.cpp:211-227 Write of a block that is in the file: nof_samples_position_ and, of a VLSD
    group, nof_data_position_ and nof_invalid_position_ (229-246). *)
Definition cg_writes (p : nat) (g : cg) : list (nat * list N) :=
  (p + cg_head g + 8, le_bytes 8 (g_samples g))%nat
  :: (if is_vlsd g then [(p + cg_head g + 24, le_bytes 4 (g_data g));
                         (p + cg_head g + 28, le_bytes 4 (g_inval g))]%nat else []).

(** dg4block.cpp:112-122 Write of a block that is in the file; nothing of the block itself is
    written (127-128), and the DT block is not changed (dt4block.cpp:46-67). *)
Definition dg_writes (pls : list (nat * unit)) (d : dg) : list (nat * list N) :=
  concat (map (fun '((p, _), g) => cg_writes p g) (combine pls (d_cgs d))).

(** hd4block.cpp:510-546 Write of a block that is in the file, at [pos]. *)
Definition hd_writes (pos : nat) (pls : list (nat * list (nat * unit))) (h : hd) : list (nat * list N) :=
  (pos + 72, fields_bytes (hd_fields h))%nat
  :: concat (map (fun '((_, cgs), d) => dg_writes cgs d) (combine pls (h_dgs h))).

(* ------------------------------------------------------------------ *)
(** ** The measurement *)

(** The objects and the file. [m_dts]: the DT blocks that were written, by index of the data group. *)
Record meas : Type := mkM {
  m_file : file;
  m_hd : hd;
  m_head : nat;                               (* position of the HD block *)
  m_places : list (nat * list (nat * unit));
  m_dts : list (nat * blk)
}.

Definition set_dgs (h : hd) (ds : list dg) : hd :=
  mkHd (h_time h) (h_class h) (h_flags h) (h_angle h) (h_distance h) (h_md h) (h_fhs h) (h_ats h) (h_chs h)
    (h_evs h) ds.
Definition set_time (t : stamp4) (h : hd) : hd :=
  mkHd t (h_class h) (h_flags h) (h_angle h) (h_distance h) (h_md h) (h_fhs h) (h_ats h) (h_chs h)
    (h_evs h) (h_dgs h).
Definition set_link (l : N) (d : dg) : dg := mkDg (d_idsize d) (d_md d) l (d_cgs d).

(** The counters of a channel group after a save: NofSamples (cg4block.cpp:529-533), and the number
    of bytes of a VLSD group (617-624). *)
Definition count_cg (e : enc) (g : cg) : cg :=
  let tot := e_tot e (g_record g) in
  mkCg (g_record g) (w64 (e_cnt e (g_record g))) (g_flags g) (g_separator g)
    (if is_vlsd g then w32 tot else g_data g)
    (if is_vlsd g then w32 (tot / 2 ^ 32) else g_inval g)
    (g_name g) (g_si g) (g_md g) (g_cns g).
Definition count_dg (e : enc) (d : dg) : dg :=
  mkDg (d_idsize d) (d_md d) (d_link d) (map (count_cg e) (d_cgs d)).

Definition upd_nth {A} (k : nat) (fn : A -> A) (l : list A) : list A :=
  firstn k l ++ match skipn k l with [] => [] | x :: r => fn x :: r end.

Fixpoint find_dt (k : nat) (l : list (nat * blk)) : option blk :=
  match l with
  | [] => None
  | (i, b) :: r => if (i =? k)%nat then Some b else find_dt k r
  end.

(** InitMeasurement of a new file. *)
Definition init_meas (i : idb) (h : hd) : res meas :=
  let* '(f, b) := write_file i h [] in
  Ok (mkM f h (b_pos b) (hd_places h (write_id false i [])) []).

(** dg4block.cpp:171-199 CreateOrGetDt4 for data group [k] with position [p]: a DT block without
    data at the end of the file, and its position in link 2. *)
Definition get_dt (k p : nat) (d : dg) (m : meas) : res (meas * blk) :=
  match find_dt k (m_dts m) with
  | Some b => Ok (m, b)
  | None =>
      if d_link d =? 0 then
        let* '(f, b) := write_block4 ty_dt 24 [] [] (m_file m) in
        let l := N.of_nat (b_pos b) in
        Ok (mkM (put f (p + 24 + 8 * 2) (le_bytes 8 l)) (set_dgs (m_hd m) (upd_nth k (set_link l) (h_dgs (m_hd m))))
              (m_head m) (m_places m) ((k, b) :: m_dts m), b)
      else Fail
  end.

(** writer4samplequeue.cpp:36-137 SaveQueue of data group [k]; the samples become [bytes] and leave
    the counters [e]. [Fail]: no such data group, or it has data from another measurement (60-62). *)
Definition save_group (k : nat) (bytes : list N) (e : enc) (m : meas) : res meas :=
  match nth_error (m_places m) k, nth_error (h_dgs (m_hd m)) k with
  | Some (p, cgs), Some d =>
      let* '(m, b) := get_dt k p d m in
      let f := m_file m ++ bytes in
      let size := N.of_nat (length f - b_pos b) in
      let d := count_dg e d in
      let* '(f, b) := update_size4 b size (puts f (dg_writes cgs d)) in
      Ok (mkM f (set_dgs (m_hd m) (upd_nth k (count_dg e) (h_dgs (m_hd m)))) (m_head m) (m_places m)
            ((k, b) :: m_dts m))
  | _, _ => Fail
  end.

(** FinalizeMeasurement: mdf4file.cpp:172-188 Write; the ID block is not changed. *)
Definition finalize (m : meas) : meas :=
  mkM (puts (m_file m) (hd_writes (m_head m) (m_places m) (m_hd m))) (m_hd m) (m_head m) (m_places m) (m_dts m).

(** The calls: StartMeasurement sets the start time of the header, a sample queue is saved, and
    FinalizeMeasurement. *)
Inductive mop : Type :=
| MStart (t : stamp4)
| MSave (k : nat) (bytes : list N) (e : enc)
| MFinal.

Definition mstep (o : mop) (m : meas) : res meas :=
  match o with
  | MStart t => Ok (mkM (m_file m) (set_time t (m_hd m)) (m_head m) (m_places m) (m_dts m))
  | MSave k bytes e => save_group k bytes e m
  | MFinal => Ok (finalize m)
  end.

Fixpoint mrun (ops : list mop) (m : meas) : res meas :=
  match ops with
  | [] => Ok m
  | o :: r => let* 'm := mstep o m in mrun r m
  end.

(* ------------------------------------------------------------------ *)
(** ** Reading it *)

(** The data group as the record reader sees it (StreamModel.v). *)
Definition group_of (g : cg) : StreamModel.group :=
  StreamModel.mkGroup (g_record g) (is_vlsd g) (g_data g) (g_inval g) (g_samples g).
Definition dgroup_of (d : dg) : StreamModel.dgroup :=
  StreamModel.mkDg (d_idsize d) (map group_of (d_cgs d)).

(** The data bytes of a data group, block by block: dg4block.cpp:310-330 ReadData, datalistblock.cpp
    28-106 and readcache.cpp:371-398. *)
Definition group_data (inflate : list N -> nat -> list N) (f : file) (d : dg) : option (res (list (list N))) :=
  match read_blocks 1 f (d_link d) with
  | Some r => Some (let* 'ds := r in all_bytes inflate f ds)
  | None => None
  end.
