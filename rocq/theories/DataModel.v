(** Model of the storage of data bytes: mdflib/src/zlibutil.cpp (transposition, buffer deflate and
    inflate), dz4block.cpp, dt4block.cpp, sd4block.cpp, datablock.cpp, dl4block.cpp, hl4block.cpp,
    datalistblock.cpp, cn4block.cpp (signal data), the storing half of writer4samplequeue.cpp
    CleanQueueCompressed.

    Simplifications: memory never runs out; LD and SR lists (other programs' files) are outside the
    model; sizes handed to zlib are not cut to 32 bits. *)
From Verif Require Import Base BlockModel.
Local Open Scope N_scope.

(* ------------------------------------------------------------------ *)
(** ** Transposition *)

(** zlibutil.cpp:357-365, the index pairs of the two nested loops: row * columns + column and
    column * rows + row. *)
Definition cells (rows columns : nat) : list (nat * nat) :=
  flat_map (fun row => map (fun column => (row * columns + column, column * rows + row)%nat)
                           (seq 0 columns)) (seq 0 rows).

(** One assignment data[to] = temp[from]. *)
Definition move (temp : list N) (data : list N) (m : nat * nat) : list N :=
  let '(from, to) := m in set_nth data to (nth from temp 0).

(** zlibutil.cpp:350-366 Transpose. *)
Definition transpose (record_size : nat) (data : list N) : list N :=
  match record_size with
  | O => data
  | _ => fold_left (move data) (cells (length data / record_size) record_size) data
  end.

(** zlibutil.cpp:368-383 InvTranspose: from and to change places. *)
Definition inv_transpose (record_size : nat) (data : list N) : list N :=
  match record_size with
  | O => data
  | _ => fold_left (move data)
           (map (fun m => (snd m, fst m)) (cells (length data / record_size) record_size)) data
  end.

(* ------------------------------------------------------------------ *)
(** ** DZ blocks *)

Definition ty_dz : list N := [35; 35; 68; 90].
Definition ty_dt : list N := [35; 35; 68; 84].
Definition ty_sd : list N := [35; 35; 83; 68].
Definition ty_dl : list N := [35; 35; 68; 76].
Definition ty_hl : list N := [35; 35; 72; 76].

(** The fields of Dz4Block (dz4block.h:41-49). *)
Record dz : Type := mkDz {
  dz_orig_type : list N;
  dz_type : N;
  dz_param : N;
  dz_orig_len : N;
  dz_len : N;
  dz_data : list N
}.

(** A block found when reading: DT, SD, DV, DI, RD, RV or RI (position and size of its data), or DZ
    (position, zip type, parameter, original and compressed size). *)
Inductive dinfo : Type :=
| Raw (pos : nat) (size : N)
| Zip (pos : nat) (ty param orig len : N).

(** DataSize() of a data block: dt4block.cpp:34-36, sd4block.cpp:15-17, dz4block.h:27. *)
Definition data_size (d : dinfo) : N :=
  match d with Raw _ s => s | Zip _ _ _ o _ => o end.

Section Zlib.

(** zlib: [deflate x] is the complete compressed stream; [inflate s n] the content of the output
    buffer of Inflate (zlibutil.cpp:294-330) of size [n] afterwards: it can be shorter than [n]. *)
Variable deflate : list N -> list N.
Variable inflate : list N -> nat -> list N.

(** zlibutil.cpp:107-140 Deflate to an empty output buffer: the buffer has 100 bytes more than the
    input, what does not fit is lost (and false returned, which no caller looks at). *)
Definition deflate_buf (x : list N) : list N :=
  match x with
  | [] => []
  | _ => firstn (length x + 100) (deflate x)
  end.

(** dz4block.cpp:158-201 Data, with the zip type and parameter set before. *)
Definition dz_pack (orig : list N) (type param : N) (x : list N) : dz :=
  let '(type, param) :=
    if type =? 1 then (if param =? 0 then 0 else 1, param) else (0, 0) in
  match x with
  | [] => mkDz orig type param 0 0 []
  | _ =>
      let out := deflate_buf (if type =? 1 then transpose (N.to_nat param) x else x) in
      mkDz orig type param (N.of_nat (length x)) (N.of_nat (length out)) out
  end.

(** dz4block.cpp:65-77, the fields written. *)
Definition dz_body (z : dz) : list N :=
  str_bytes 2 (dz_orig_type z) ++ le_bytes 1 (dz_type z) ++ [0] ++ le_bytes 4 (dz_param z)
  ++ le_bytes 8 (dz_orig_len z) ++ le_bytes 8 (dz_len z) ++ dz_data z.

(** dz4block.cpp:56-77 Dz4Block::Write of a block not yet written. *)
Definition write_dz (z : dz) (f : file) : res (file * blk) :=
  write_block4 ty_dz (48 + dz_len z) [] (dz_body z) f.

(** dz4block.cpp:43-54 Dz4Block::Read. *)
Definition read_dz (f : file) (pos : nat) : res dinfo :=
  bind (read_header4 f pos) (fun '(_, p) =>
  let '(_, p) := read_str 2 f p in
  bind (read_num false 1 f p) (fun '(ty, p) =>
  bind (read_num false 1 f p) (fun '(_, p) =>
  bind (read_num false 4 f p) (fun '(param, p) =>
  bind (read_num false 8 f p) (fun '(orig, p) =>
  bind (read_num false 8 f p) (fun '(len, p) =>
  Ok (Zip p ty param orig len))))))).

(** dt4block.cpp:28-36, sd4block.cpp:9-17 and the like: Read and DataSize. *)
Definition read_raw (f : file) (pos : nat) : res dinfo :=
  bind (read_header4 f pos) (fun '(b, p) =>
  Ok (Raw p (if 24 <? b_len b then b_len b - 24 else 0))).

(** The bytes copied out of a DZ block (dz4block.cpp:115-156): [None] when nothing is copied. *)
Definition unzip (f : file) (pos : nat) (ty param orig len : N) : option (list N) :=
  if (pos =? 0)%nat || (orig =? 0) || (len =? 0) then None
  else
    let got := slice pos (N.to_nat len) f in
    let temp := got ++ repeat 0 (N.to_nat len - length got) in
    let out := inflate temp (N.to_nat orig) in
    match ty with
    | 0 => Some out
    | 1 => Some (inv_transpose (N.to_nat param) out)
    | _ => None
    end.

(** CopyDataToBuffer of a data block, datablock.cpp:40-59 and dz4block.cpp:115-156: destination
    buffer and index in it. *)
Definition copy_block (f : file) (d : dinfo) (st : list N * N) : res (list N * N) :=
  let '(dest, idx) := st in
  match d with
  | Raw pos size =>
      if size =? 0 then Ok st
      else if N.of_nat (length dest) <? w64 (idx + size) then Fail
      else
        let got := slice pos (N.to_nat size) f in
        if N.of_nat (length dest) <? idx + N.of_nat (length got) then UB
        else Ok (put dest (N.to_nat idx) got, idx + N.of_nat (length got))
  | Zip pos ty param orig len =>
      match unzip f pos ty param orig len with
      | None => Ok st
      | Some out =>
          (* memcpy of [orig] bytes *)
          if N.of_nat (length out) <? orig then UB
          else if N.of_nat (length dest) <? idx + orig then UB
          else Ok (put dest (N.to_nat idx) (firstn (N.to_nat orig) out), idx + orig)
      end
  end.

(** The bytes the record reader gets from one data block (readcache.cpp:371-398): a DZ block is
    unpacked to a buffer of its data size, others are read in place. *)
Definition block_bytes (f : file) (d : dinfo) : res (list N) :=
  match d with
  | Raw pos size => Ok (slice pos (N.to_nat size) f)
  | Zip _ _ _ orig _ =>
      bind (copy_block f d (repeat 0 (N.to_nat orig), 0)) (fun '(dest, _) => Ok dest)
  end.

Fixpoint all_bytes (f : file) (ds : list dinfo) : res (list (list N)) :=
  match ds with
  | [] => Ok []
  | d :: r => bind (block_bytes f d) (fun x => bind (all_bytes f r) (fun xs => Ok (x :: xs)))
  end.

(** datalistblock.cpp:233-246 and cn4block.cpp:597-614: all blocks copied to one buffer. *)
Fixpoint copy_blocks (f : file) (ds : list dinfo) (st : list N * N) : res (list N * N) :=
  match ds with
  | [] => Ok st
  | d :: r => bind (copy_block f d st) (copy_blocks f r)
  end.

(* ------------------------------------------------------------------ *)
(** ** A data block to be written *)

(** A data block in memory: DT or SD with its bytes, or a packed DZ block. *)
Inductive dblk : Type :=
| BRaw (ty : list N) (x : list N)
| BZip (z : dz).

(** dt4block.cpp:47-66, sd4block.cpp:19-31, dz4block.cpp:56-77: identifier, length and fields. *)
Definition dblk_parts (k : dblk) : list N * N * list N :=
  match k with
  | BRaw ty x => (ty, 24 + N.of_nat (length x), x)
  | BZip z => (ty_dz, 48 + dz_len z, dz_body z)
  end.

Definition write_dblk (k : dblk) (f : file) : res (file * blk) :=
  let '(ty, len, body) := dblk_parts k in write_block4 ty len [] body f.

(* ------------------------------------------------------------------ *)
(** ** DL blocks *)

(** The fields of Dl4Block (dl4block.h) set by the user. *)
Record dl : Type := mkDl {
  dl_flags : N;
  dl_equal : N;
  dl_offs : list N;
  dl_time : list N;
  dl_angle : list N;
  dl_dist : list N
}.

Definition dl0 : dl := mkDl 0 0 [] [] [] [].

(** The growing loops of the setters: [while (index >= list.size()) list.emplace_back(0)], then
    [list[index] = value]. *)
Definition set_grow (l : list N) (i : nat) (v : N) : list N :=
  set_nth (l ++ repeat 0 (S i - length l)) i v.

(** dl4block.cpp:132-137 EqualLength. *)
Definition dl_set_equal (length : N) (d : dl) : dl :=
  mkDl (if 0 <? length then N.lor (dl_flags d) 1 else dl_flags d) length
       (dl_offs d) (dl_time d) (dl_angle d) (dl_dist d).

(** dl4block.cpp:141-147 Offset (flags_ is a byte). *)
Definition dl_set_offset (i : nat) (v : N) (d : dl) : dl :=
  mkDl (N.land (dl_flags d) 254) (dl_equal d) (set_grow (dl_offs d) i v)
       (dl_time d) (dl_angle d) (dl_dist d).

(** dl4block.cpp:153-159 TimeValue, 165-171 AngleValue, 177-183 DistanceValue. *)
Definition dl_set_time (i : nat) (v : N) (d : dl) : dl :=
  mkDl (N.lor (dl_flags d) 2) (dl_equal d) (dl_offs d) (set_grow (dl_time d) i v)
       (dl_angle d) (dl_dist d).
Definition dl_set_angle (i : nat) (v : N) (d : dl) : dl :=
  mkDl (N.lor (dl_flags d) 4) (dl_equal d) (dl_offs d) (dl_time d) (set_grow (dl_angle d) i v)
       (dl_dist d).
Definition dl_set_dist (i : nat) (v : N) (d : dl) : dl :=
  mkDl (N.lor (dl_flags d) 8) (dl_equal d) (dl_offs d) (dl_time d) (dl_angle d)
       (set_grow (dl_dist d) i v).

Definition numbers (n : nat) (l : list N) : list N :=
  concat (map (fun i => le_bytes 8 (nth i l 0)) (seq 0 n)).

(** dl4block.cpp:98-126, the fields written for [n] blocks. *)
Definition dl_body (d : dl) (n : nat) : list N :=
  le_bytes 1 (dl_flags d) ++ repeat 0 3 ++ le_bytes 4 (N.of_nat n)
  ++ (if N.testbit (dl_flags d) 0 then le_bytes 8 (dl_equal d) else numbers n (dl_offs d))
  ++ (if N.testbit (dl_flags d) 1 then numbers n (dl_time d) else [])
  ++ (if N.testbit (dl_flags d) 2 then numbers n (dl_angle d) else [])
  ++ (if N.testbit (dl_flags d) 3 then numbers n (dl_dist d) else []).

(** dl4block.cpp:74-97, block_length_ set before writing. *)
Definition dl_length (d : dl) (n : nat) : N :=
  24 + 8 + N.of_nat n * 8 + 8
  + (if N.testbit (dl_flags d) 0 then 8 else 8 * N.of_nat n)
  + (if N.testbit (dl_flags d) 1 then 8 * N.of_nat n else 0)
  + (if N.testbit (dl_flags d) 2 then 8 * N.of_nat n else 0)
  + (if N.testbit (dl_flags d) 3 then 8 * N.of_nat n else 0).

(** datalistblock.cpp:170-184 WriteBlockList, of new blocks, links from index [i] on. *)
Fixpoint write_dblks (b : blk) (i : nat) (ks : list dblk) (f : file) : res (file * blk) :=
  match ks with
  | [] => Ok (f, b)
  | k :: r =>
      bind (write_dblk k f) (fun '(f, kb) =>
      bind (update_link4 b i (N.of_nat (b_pos kb)) f) (fun '(f, b) =>
      write_dblks b (S i) r f))
  end.

(** dl4block.cpp:63-131 Dl4Block::Write of a block not yet written. *)
Definition write_dl (d : dl) (ks : list dblk) (f : file) : res (file * blk) :=
  let n := length ks in
  bind (write_block4 ty_dl (dl_length d n) (repeat 0 (1 + n)) (dl_body d n) f) (fun '(f, b) =>
  write_dblks b 1 ks f).

(** Comparison with a type of two characters. *)
Definition eqb_type (a : list N) (x y : N) : bool :=
  match a with [c; d] => (c =? x) && (d =? y) | _ => false end.

(** mdfblock.cpp:186-195 ReadBlockType. *)
Definition read_type (f : file) (pos : nat) : list N :=
  let '(a, p) := read_str 2 f pos in
  if eqb_type a 35 35 then fst (read_str 2 f p) else a.

(** The types that hold data bytes in place: DT, DV, DI, RD, RV, RI, SD. *)
Definition raw_type (t : list N) : bool :=
  eqb_type t 68 84 || eqb_type t 68 86 || eqb_type t 68 73 || eqb_type t 82 68
  || eqb_type t 82 86 || eqb_type t 82 73 || eqb_type t 83 68.

(** datalistblock.cpp:108-168 ReadLinkList: the blocks of the links above zero whose type is one
    of the data block types. *)
Fixpoint read_link_list (f : file) (ls : list N) : res (list dinfo) :=
  match ls with
  | [] => Ok []
  | l :: r =>
      if pos64 l then
        let t := read_type f (N.to_nat l) in
        if eqb_type t 68 90 then
          bind (read_dz f (N.to_nat l)) (fun d => bind (read_link_list f r) (fun ds => Ok (d :: ds)))
        else if raw_type t then
          bind (read_raw f (N.to_nat l)) (fun d => bind (read_link_list f r) (fun ds => Ok (d :: ds)))
        else read_link_list f r
      else read_link_list f r
  end.

(** A DL block as read. *)
Record dlinfo : Type := mkDi {
  di_flags : N;
  di_nof : N;
  di_equal : N;
  di_offs : list N;
  di_next : N;
  di_blocks : list dinfo
}.

(** dl4block.cpp:44-62 Dl4Block::Read. The links used are [Link(1 + ii)] for [ii] below the
    number of blocks; Link of an index beyond the list is 0. *)
Definition read_dl (f : file) (pos : nat) : res dlinfo :=
  bind (read_header4 f pos) (fun '(b, p) =>
  bind (read_num false 1 f p) (fun '(flags, p) =>
  let p := (p + 3)%nat in
  bind (read_num false 4 f p) (fun '(nof, p) =>
  let n := N.to_nat nof in
  bind (if N.testbit flags 0
        then bind (read_num false 8 f p) (fun '(e, _) => Ok (e, []))
        else bind (read_links false 8 n f p) (fun '(os, _) => Ok (0, os))) (fun '(equal, offs) =>
  bind (read_link_list f (map (fun i => link b (1 + i)) (seq 0 n))) (fun ds =>
  Ok (mkDi flags nof equal offs (link b 0) ds)))))).

(** datalistblock.cpp:52-60, the chain of DL blocks. [None]: not ended within [fuel] blocks. *)
Fixpoint read_dls (fuel : nat) (f : file) (l : N) : option (res (list dlinfo)) :=
  match fuel with
  | O => None
  | S k =>
      if pos64 l then
        match read_dl f (N.to_nat l) with
        | Ok d =>
            match read_dls k f (di_next d) with
            | Some (Ok ds) => Some (Ok (d :: ds))
            | x => x
            end
        | Fail => Some Fail
        | UB => Some UB
        end
      else Some (Ok [])
  end.

(** hl4block.cpp:46-54 Hl4Block::Read, without the list: link to the first DL block. *)
Definition read_hl (f : file) (pos : nat) : res N :=
  bind (read_header4 f pos) (fun '(b, p) =>
  bind (read_num false 2 f p) (fun '(_, p) =>
  bind (read_num false 1 f p) (fun '(_, p) =>
  if (length (slice p 5 f) <? 5)%nat then Fail else Ok (link b 0)))).

(** datalistblock.cpp:28-106 ReadBlockList and 281-298 GetDataBlockList: the data blocks reached
    from a data link, in reading order. *)
Fixpoint read_blocks (fuel : nat) (f : file) (l : N) : option (res (list dinfo)) :=
  match fuel with
  | O => None
  | S k =>
      if pos64 l then
        let pos := N.to_nat l in
        let t := read_type f pos in
        if eqb_type t 68 90 then Some (bind (read_dz f pos) (fun d => Ok [d]))
        else if raw_type t then Some (bind (read_raw f pos) (fun d => Ok [d]))
        else if eqb_type t 68 76 then
          match read_dls k f l with
          | Some r => Some (bind r (fun ds => Ok (concat (map di_blocks ds))))
          | None => None
          end
        else if eqb_type t 72 76 then
          match read_hl f pos with
          | Ok l' => read_blocks k f l'
          | Fail => Some Fail
          | UB => Some UB
          end
        else Some (Ok [])
      else Some (Ok [])
  end.

(* ------------------------------------------------------------------ *)
(** ** The compressed writer's blocks *)

(** hl4block.cpp:67-76, the block written by Hl4Block::Write. *)
Definition write_hl (flags type : N) (f : file) : res (file * blk) :=
  write_block4 ty_hl 40 [0] (le_bytes 2 flags ++ le_bytes 1 type ++ repeat 0 5) f.

(** The stored part of a data group while it is written: the file, the DG block, its HL block and
    the last DL block in the HL block's list. *)
Record store : Type := mkSt {
  st_file : file;
  st_dg : blk;
  st_hl : option blk;
  st_last : option blk
}.

(** writer4samplequeue.cpp:158-331 CleanQueueCompressed, its file part: SetLastPosition (333-346),
    then the new DL block [d] with the data blocks [ks], pushed on the HL block's list, written by
    Dg4Block::Write (dg4block.cpp:147-151), Hl4Block::Write and WriteLink4List. *)
Definition store_dl (d : dl) (ks : list dblk) (s : store) : res store :=
  (* SetLastPosition *)
  bind (if link (st_dg s) 2 =? 0
        then let f := align (st_file s) in update_link4 (st_dg s) 2 (N.of_nat (length f)) f
        else Ok (st_file s, st_dg s)) (fun '(f, dg) =>
  bind (match st_hl s with
        | Some hl => Ok (f, hl)
        | None => write_hl 0 0 f
        end) (fun '(f, hl) =>
  bind (write_dl d ks f) (fun '(f, db) =>
  bind (match st_last s with
        | None => bind (update_link4 hl 0 (N.of_nat (b_pos db)) f) (fun '(f, hl) => Ok (f, hl))
        | Some last => bind (update_link4 last 0 (N.of_nat (b_pos db)) f) (fun '(f, _) => Ok (f, hl))
        end) (fun '(f, hl) =>
  bind (update_link4 dg 2 (N.of_nat (b_pos hl)) f) (fun '(f, dg) =>
  Ok (mkSt f dg (Some hl) (Some db))))))).

(** writer4samplequeue.cpp:214-222 and 288-310: the blocks of one call, made of the buffers that
    got full, and of the rest: DZ when longer than 100 bytes, DT when shorter, none when empty. *)
Definition step_chunks (full : list (list N)) (rest : list N) : list (list N) :=
  full ++ match rest with [] => [] | _ => [rest] end.

Definition step_blocks (full : list (list N)) (rest : list N) : list dblk :=
  map (fun x => BZip (dz_pack [68; 84] 0 0 x)) full
  ++ match rest with
     | [] => []
     | _ => [if 100 <? N.of_nat (length rest) then BZip (dz_pack [68; 84] 0 0 rest)
             else BRaw ty_dt rest]
     end.

(** writer4samplequeue.cpp:190-195, 218-221 and 307-309: the DL block of one call, with an offset
    for every chunk. The entry 0 is also set before the first chunk. *)
Definition chunks_dl (offset : N) (chunks : list (list N)) : dl :=
  fst (fold_left (fun '(d, (i, off)) x =>
         (dl_set_offset i off d, (S i, w64 (off + N.of_nat (length x)))))
       chunks (dl_set_offset 0 offset dl0, (O, offset))).

(* ------------------------------------------------------------------ *)
(** ** Signal data *)

(** cn4block.h kMaxDataSize. *)
Definition max_data : N := 4000000.

(** cn4block.cpp:1232-1258, the loop cutting the bytes: a chunk ends when one more byte would make
    it longer than [m]. *)
Fixpoint cut_chunks (m : N) (x : list N) (chunk : list N) : list (list N) :=
  match x with
  | [] => match chunk with [] => [] | _ => [chunk] end
  | c :: r =>
      let chunk := chunk ++ [c] in
      if m <? N.of_nat (length chunk) + 1 then chunk :: cut_chunks m r []
      else cut_chunks m r chunk
  end.

(** cn4block.cpp:1193-1262 WriteSignalData of a channel whose data link is not set and whose signal
    data are stored by the channel. [li] is the index of the data link. *)
Definition write_signal (m : N) (compress : bool) (li : nat) (x : list N) (cn : blk) (f : file)
  : res (file * blk) :=
  match x with
  | [] => update_link4 cn li 0 f
  | _ =>
      if negb compress || (N.of_nat (length x) <=? 100) then
        bind (write_dblk (BRaw ty_sd x) f) (fun '(f, b) =>
        update_link4 cn li (N.of_nat (b_pos b)) f)
      else if N.of_nat (length x) <=? m then
        bind (write_dblk (BZip (dz_pack [83; 68] 0 0 x)) f) (fun '(f, b) =>
        update_link4 cn li (N.of_nat (b_pos b)) f)
      else
        let ks := map (fun c => BZip (dz_pack [83; 68] 0 0 c)) (cut_chunks m x []) in
        bind (write_hl 1 0 f) (fun '(f, hl) =>
        bind (write_dl (dl_set_equal m (mkDl 1 0 [] [] [] [])) ks f) (fun '(f, db) =>
        bind (update_link4 hl 0 (N.of_nat (b_pos db)) f) (fun '(f, hl) =>
        update_link4 cn li (N.of_nat (b_pos hl)) f)))
  end.

(** cn4block.cpp:597-614 ReadSignalData, after ReadBlockList of the data link. *)
Definition read_signal (fuel : nat) (f : file) (l : N) : option (res (list N)) :=
  match read_blocks fuel f l with
  | None => None
  | Some r =>
      Some (bind r (fun ds =>
            let size := w64 (fold_right (fun d a => w64 (data_size d + a)) 0 ds) in
            bind (copy_blocks f ds (repeat 0 (N.to_nat size), 0)) (fun '(dest, _) => Ok dest)))
  end.

End Zlib.
