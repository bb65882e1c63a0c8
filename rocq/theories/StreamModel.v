(** Model of the record stream of an MDF4 data group: how records are encoded
    (mdflib/src/cg4block.cpp), how record ids are assigned (mdflib/src/dg4block.cpp) and how the
    stream is parsed again from a list of data blocks (mdflib/src/readcache.cpp,
    mdflib/src/dg4block.cpp, mdflib/src/dgrange.cpp).

    Simplifications: a data block is the list of its (uncompressed) data bytes, so the file
    position arithmetic inside a DT/SD block and the temporary buffer of a DZ block are both "the
    block's bytes"; null block pointers, allocation failures and blocks that are cut off by the end
    of the file are not modelled; 64-bit byte counters do not wrap. *)
From Verif Require Import Base.
Local Open Scope N_scope.

(* ------------------------------------------------------------------ *)
(** ** Channel groups and record ids *)

(** The members of Cg4Block the reader uses (cg4block.h:94-99, ichannelgroup.h): RecordId(),
    the CgFlag::VlsdChannel bit of Flags(), NofDataBytes(), NofInvalidBytes(), NofSamples(). *)
Record group : Type := mkGroup {
  g_id : N;
  g_vlsd : bool;
  g_data : N;   (* uint32_t *)
  g_inval : N;  (* uint32_t *)
  g_nof : N
}.

(** A data group: RecordIdSize() and the list of channel groups (dg4block.h). *)
Record dgroup : Type := mkDg { d_idsize : N; d_groups : list group }.

(** [channel_group->NofDataBytes() + channel_group->NofInvalidBytes()], a uint32_t sum
    (readcache.cpp:91-92). *)
Definition rec_size (g : group) : nat := N.to_nat (w32 (g_data g + g_inval g)).

(** dg4block.cpp:643-653, the record id size chosen by Dg4Block::AddCg4. *)
Definition id_size_for (n : N) : N :=
  if n <? 2 then 0
  else if n <? 0x100 then 1
  else if n <? 0x10000 then 2
  else if n <? 0x100000000 then 4
  else 8.

(** dg4block.cpp:655-660: the groups are renumbered from 0 (single group) or 1. *)
Fixpoint renumber (id : N) (l : list group) : list group :=
  match l with
  | [] => []
  | g :: r => mkGroup id (g_vlsd g) (g_data g) (g_inval g) (g_nof g) :: renumber (id + 1) r
  end.

(** dg4block.cpp:638-661 Dg4Block::AddCg4. *)
Definition add_cg4 (d : dgroup) (g : group) : dgroup :=
  let l := d_groups d ++ [g] in
  let n := N.of_nat (length l) in
  mkDg (id_size_for n) (renumber (if n <? 2 then 0 else 1) l).

(* ------------------------------------------------------------------ *)
(** ** Record encoding *)

(** The record id field: cg4block.cpp:494-521 (WriteSample), 538-569, 585-612, 642-671; all four
    functions contain the same switch. Any size other than 0, 1, 2, 4 is written as 8 bytes. *)
Definition put_id (idsize id : N) : list N :=
  if idsize =? 0 then []
  else if idsize =? 1 then le_bytes 1 (w8 id)
  else if idsize =? 2 then le_bytes 2 (w16 id)
  else if idsize =? 4 then le_bytes 4 (w32 id)
  else le_bytes 8 (w64 id).

(** The bytes Cg4Block::WriteSample / WriteCompressedSample append, cg4block.cpp:492-533, 535-576. *)
Definition fixed_record (idsize id : N) (rec : list N) : list N := put_id idsize id ++ rec.

(** The bytes Cg4Block::WriteVlsdSample / WriteCompressedVlsdSample append,
    cg4block.cpp:578-633, 635-691. *)
Definition vlsd_record (idsize id : N) (data : list N) : list N :=
  put_id idsize id ++ le_bytes 4 (w32 (N.of_nat (length data))) ++ data.

(* ------------------------------------------------------------------ *)
(** ** ReadCache: a cursor over the list of data blocks *)

(** readcache.h:66-79: current block ([cur], its DataSize() is the length), file_index_, the
    remaining blocks, data_count_. [stale] is set when data_size_ belongs to a block whose bytes
    were never loaded (SkipBytes stepped over it): then neither the file position nor the
    temporary buffer correspond to the index. *)
Record rc : Type := mkRc {
  cur : list N;
  fi : nat;
  stale : bool;
  todo : list (list N);
  dc : N
}.

(** The initial cursor, readcache.h:66-75: file_index_ = data_size_ = data_count_ = 0. *)
Definition rc_init (blocks : list (list N)) : rc := mkRc [] 0 false blocks 0.

(** readcache.cpp:354-406 ReadCache::GetNextByte. [Fail]: returned false. Reading from a stale
    buffer is [UB]: the byte does not come from the data blocks. *)
Definition get_byte (s : rc) : res (N * rc) :=
  if (fi s <? length (cur s))%nat then
    if stale s then UB
    else Ok (nth (fi s) (cur s) 0, mkRc (cur s) (S (fi s)) false (todo s) (dc s + 1))
  else
    match todo s with
    | [] => Fail
    | b :: r =>
        match b with
        | [] => Fail
        | x :: _ => Ok (x, mkRc b 1 false r (dc s + 1))
        end
    end.

(** The loop of GetArray, readcache.cpp:473-477. *)
Fixpoint get_loop (n : nat) (s : rc) : res (list N * rc) :=
  match n with
  | O => Ok ([], s)
  | S k =>
      bind (get_byte s) (fun p =>
      bind (get_loop k (snd p)) (fun q => Ok (fst p :: fst q, snd q)))
  end.

(** readcache.cpp:455-478 ReadCache::GetArray; [Fail] is the thrown runtime_error. *)
Definition get_array (n : nat) (s : rc) : res (list N * rc) :=
  if (fi s + n <=? length (cur s))%nat then
    if stale s && (0 <? n)%nat then UB
    else Ok (slice (fi s) n (cur s),
             mkRc (cur s) (fi s + n) (stale s) (todo s) (dc s + N.of_nat n))
  else get_loop n s.

(** The block stepping loop of SkipBytes, readcache.cpp:497-524. *)
Fixpoint skip_blocks (n : nat) (blocks : list (list N)) (s : rc) : nat * rc :=
  match blocks with
  | [] => (n, s)
  | b :: r =>
      if (length b <? n)%nat
      then skip_blocks (n - length b) r (mkRc b 0 true r (dc s))
      else (n, mkRc b 0 false r (dc s))
  end.

(** readcache.cpp:480-536 ReadCache::SkipBytes. [n + fi - length cur] is the unsigned
    [nof_skip - (data_size_ - file_index_)]. *)
Definition skip_bytes (n : nat) (s : rc) : rc :=
  if (fi s + n <=? length (cur s))%nat
  then mkRc (cur s) (fi s + n) (stale s) (todo s) (dc s + N.of_nat n)
  else
    let (m, t) := skip_blocks (n + fi s - length (cur s)) (todo s) s in
    if (0 <? m)%nat
    then mkRc (cur t) (fi t + m) (stale t) (todo t) (dc t + N.of_nat m)
    else t.

(* ------------------------------------------------------------------ *)
(** ** Parsing of records *)

(** readcache.cpp:408-452 ReadCache::ParseRecordId. *)
Definition parse_id (d : dgroup) (s : rc) : res (N * rc) :=
  let sz := d_idsize d in
  if sz =? 0 then
    Ok (match d_groups d with [] => 0 | g :: _ => g_id g end, s)
  else if (sz =? 1) || (sz =? 2) || (sz =? 4) || (sz =? 8) then
    bind (get_array (N.to_nat sz) s) (fun p => Ok (le_num (fst p), snd p))
  else Fail.

(** readcache.cpp:26, available_cg_list_: std::map::emplace keeps the first group of an id. *)
Fixpoint cg_map (l : list group) : list group :=
  match l with
  | [] => []
  | g :: r => g :: filter (fun h => negb (g_id h =? g_id g)) (cg_map r)
  end.

(** readcache.cpp:58-61: the single available group, otherwise the group with the id. *)
Definition find_group (d : dgroup) (id : N) : option group :=
  match cg_map (d_groups d) with
  | [g] => Some g
  | m => find (fun g => g_id g =? id) m
  end.

(** dg4block.cpp:613-626 Dg4Block::FindCgRecordId. *)
Definition find_cg_record_id (d : dgroup) (id : N) : option group :=
  match d_groups d with
  | [g] => Some g
  | l => find (fun g => g_id g =? id) l
  end.

(** readcache.cpp:26-29, record_id_list_: the ids of the groups some observer subscribes on;
    [sub] is IDataGroup::IsSubscribingOnRecord (idatagroup.cpp:149-155). *)
Definition in_id_list (d : dgroup) (sub : N -> bool) (id : N) : bool :=
  existsb (fun g => (g_id g =? id) && sub (g_id g)) (d_groups d).

(** One NotifySampleObservers call: sample number, record id, record bytes. *)
Record event : Type := Ev { e_sample : N; e_id : N; e_rec : list N }.

(** Reader state: the cursor, the groups' sample counters (IChannelGroup::Sample()) by record id
    and the notifications so far. *)
Record pst : Type := mkP { p_rc : rc; p_cnt : N -> N; p_log : list event }.

Definition upd (f : N -> N) (k v : N) : N -> N := fun i => if i =? k then v else f i.

(** readcache.cpp:75-78 / 96-99: count a skipped record. *)
Definition count_skip (st : pst) (g : group) (s : rc) : pst :=
  let k := p_cnt st (g_id g) in
  if k <? g_nof g then mkP s (upd (p_cnt st) (g_id g) (k + 1)) (p_log st)
  else mkP s (p_cnt st) (p_log st).

(** readcache.cpp:82-87 / 103-108: notify the observers and count; [verdict] is the value
    NotifySampleObservers returns (idatagroup.cpp:42-76), [id] the record id it is given. *)
Definition notify (verdict : event -> bool) (st : pst) (g : group) (id : N) (rec : list N) (s : rc)
  : bool * pst :=
  let k := p_cnt st (g_id g) in
  if k <? g_nof g then
    let e := Ev k id rec in
    (verdict e, mkP s (upd (p_cnt st) (g_id g) (k + 1)) (p_log st ++ [e]))
  else (true, mkP s (p_cnt st) (p_log st)).

(** The number of data bytes of the record at the cursor: readcache.cpp:66-71 and 91-92. *)
Definition payload_size (g : group) (s : rc) : res (nat * rc) :=
  if g_vlsd g then
    bind (get_array 4 s) (fun p => Ok (N.to_nat (le_num (fst p)), snd p))
  else Ok (rec_size g, s).

(** readcache.cpp:47-120 ReadCache::ParseRecord. The boolean is the returned value; an exception
    gives [(false, st)] with the counters and notifications made so far. *)
Definition parse_record (d : dgroup) (sub : N -> bool) (verdict : event -> bool) (mx : N) (st : pst)
  : res (bool * pst) :=
  match d_groups d with
  | [] => Ok (false, st)
  | _ =>
    if mx <=? dc (p_rc st) then Ok (false, st)
    else
      let r :=
        bind (parse_id d (p_rc st)) (fun p =>
        match find_group d (fst p) with
        | None => Fail
        | Some g =>
            bind (payload_size g (snd p)) (fun q =>
            if in_id_list d sub (fst p) then
              bind (get_array (fst q) (snd q)) (fun a =>
              Ok (notify verdict st g (g_id g) (fst a) (snd a)))
            else
              Ok (true, count_skip st g (skip_bytes (fst q) (snd q))))
        end) in
      match r with
      | Ok x => Ok x
      | Fail => Ok (false, st)
      | UB => UB
      end
  end.

(** The loop [while (read_cache.ParseRecord())], dg4block.cpp:329. [None]: still running after
    [fuel] iterations. *)
Fixpoint read_loop (d : dgroup) (sub : N -> bool) (verdict : event -> bool) (mx : N)
    (fuel : nat) (st : pst) : option (res (list event)) :=
  match fuel with
  | O => None
  | S k =>
      match parse_record d sub verdict mx st with
      | Ok (true, st') => read_loop d sub verdict mx k st'
      | Ok (false, st') => Some (Ok (p_log st'))
      | Fail => Some Fail
      | UB => Some UB
      end
  end.

(** The part of Dg4Block::ReadData that reads the records, dg4block.cpp:204-209 and 323-330;
    DataSize() of the list is the sum of the block sizes (datalistblock.cpp:199-214). *)
Definition read_data (d : dgroup) (sub : N -> bool) (verdict : event -> bool) (fuel : nat)
    (blocks : list (list N)) : option (res (list event)) :=
  match blocks with
  | [] => Some (Ok [])
  | _ => read_loop d sub verdict (N.of_nat (length (concat blocks))) fuel
           (mkP (rc_init blocks) (fun _ => 0) [])
  end.

(* ------------------------------------------------------------------ *)
(** ** Range reading *)

(** DgRange::cg_list_ as a function of the record id: does the group still have samples to read? *)
Definition used_map := N -> bool.

(** dgrange.cpp:17-45 DgRange::DgRange; the first group of an id decides (map::emplace). *)
Definition range_init (d : dgroup) (sub : N -> bool) (mn : N) : used_map := fun id =>
  match find (fun g => g_id g =? id) (d_groups d) with
  | None => false
  | Some g => sub id && negb (negb (g_vlsd g) && (g_nof g <? mn))
  end.

(** dgrange.cpp:57-62 DgRange::IsReady. *)
Definition range_ready (d : dgroup) (u : used_map) : bool :=
  forallb (fun g => negb (u (g_id g))) (d_groups d).

(** dgrange.cpp:52-55 DgRange::GetCgRange: is there an entry for the id? *)
Definition in_range_map (d : dgroup) (id : N) : bool :=
  existsb (fun g => g_id g =? id) (d_groups d).

Definition updb (f : N -> bool) (k : N) (v : bool) : N -> bool := fun i => if i =? k then v else f i.

(** readcache.cpp:122-215 ReadCache::ParseRangeRecord. *)
Definition parse_range_record (d : dgroup) (sub : N -> bool) (verdict : event -> bool)
    (mn mx_s : N) (mx : N) (st : pst) (u : used_map) : res (bool * pst * used_map) :=
  match d_groups d with
  | [] => Ok (false, st, u)
  | _ =>
    if mx <=? dc (p_rc st) then Ok (false, st, u)
    else
      let r :=
        bind (parse_id d (p_rc st)) (fun p =>
        let id := fst p in
        match in_range_map d id, find_cg_record_id d id with
        | true, Some g =>
            let sample := p_cnt st (g_id g) in
            let next := sample + 1 in
            bind (payload_size g (snd p)) (fun q =>
            if negb (u id) || (next <? mn) || (mx_s <? next) then
              Ok (true, count_skip st g (skip_bytes (fst q) (snd q)),
                  if mx_s <? next then updb u id false else u)
            else if negb (in_id_list d sub id) then
              Ok (true, count_skip st g (skip_bytes (fst q) (snd q)), u)
            else
              bind (get_array (fst q) (snd q)) (fun a =>
              let (c, st') :=
                notify verdict st g (if g_vlsd g then id else g_id g) (fst a) (snd a) in
              Ok (c, st', u)))
        | _, _ => Fail
        end) in
      match r with
      | Ok (c, st', u') => Ok (c && negb (range_ready d u'), st', u')
      | Fail => Ok (false, st, u)
      | UB => UB
      end
  end.

(** The loop [while (read_cache.ParseRangeRecord(range))], dg4block.cpp:433. *)
Fixpoint range_loop (d : dgroup) (sub : N -> bool) (verdict : event -> bool) (mn mx_s mx : N)
    (fuel : nat) (st : pst) (u : used_map) : option (res (list event)) :=
  match fuel with
  | O => None
  | S k =>
      match parse_range_record d sub verdict mn mx_s mx st u with
      | Ok (true, st', u') => range_loop d sub verdict mn mx_s mx k st' u'
      | Ok (false, st', _) => Some (Ok (p_log st'))
      | Fail => Some Fail
      | UB => Some UB
      end
  end.

(** mdfreader.cpp:594-631 MdfReader::ReadPartialData and dg4block.cpp:345-434
    Dg4Block::ReadRangeData, the record reading part. *)
Definition read_partial_data (d : dgroup) (sub : N -> bool) (verdict : event -> bool)
    (min_sample max_sample : N) (fuel : nat) (blocks : list (list N))
  : option (res (list event)) :=
  let mx_s := if max_sample <? min_sample then min_sample else max_sample in
  match blocks with
  | [] => Some (Ok [])
  | _ => range_loop d sub verdict min_sample mx_s (N.of_nat (length (concat blocks))) fuel
           (mkP (rc_init blocks) (fun _ => 0) []) (range_init d sub min_sample)
  end.

(* ------------------------------------------------------------------ *)
(** ** Reading variable length data *)

(** State of the VLSD readers: cursor, offset_, and the callback calls so far. *)
Record vst : Type := mkV { v_rc : rc; v_off : N; v_log : list (N * list N) }.

(** [4 + length.value()] is a uint32_t sum (readcache.cpp:234, 241, 288, 327, 335). *)
Definition step_off (off : N) (len : nat) : N := off + w32 (4 + N.of_nat len).

(** [!offset_filter_.empty() && find(offset_) == end], readcache.cpp:230-231, 324-325. *)
Definition filtered (flt : list N) (off : N) : bool :=
  negb (match flt with [] => true | _ => false end) && negb (existsb (N.eqb off) flt).

(** The 4-byte length field at the cursor (readcache.cpp:226-228, 274-277, 317-319). *)
Definition get_len (s : rc) : res (nat * rc) :=
  bind (get_array 4 s) (fun p => Ok (N.to_nat (le_num (fst p)), snd p)).

(** One pass of the loop body of ReadCache::ParseVlsdCgData, readcache.cpp:306-349; the boolean
    is [skip]. *)
Definition vlsd_cg_step (d : dgroup) (rid : N) (flt : list N) (st : vst) : res (bool * vst) :=
  bind (parse_id d (v_rc st)) (fun p =>
  match find_cg_record_id d (fst p) with
  | None => Fail
  | Some g =>
      if g_vlsd g then
        bind (get_len (snd p)) (fun q =>
        let n := fst q in
        if negb (fst p =? rid) then
          Ok (true, mkV (skip_bytes n (snd q)) (v_off st) (v_log st))
        else if filtered flt (v_off st) then
          Ok (true, mkV (skip_bytes n (snd q)) (step_off (v_off st) n) (v_log st))
        else
          bind (get_array n (snd q)) (fun a =>
          Ok (false, mkV (snd a) (step_off (v_off st) n) (v_log st ++ [(v_off st, fst a)]))))
      else Ok (true, mkV (skip_bytes (rec_size g) (snd p)) (v_off st) (v_log st))
  end).

(** The loop [while (read_cache.ParseVlsdCgData())], dg4block.cpp:509-515 (with SetRecordId,
    SetOffsetFilter and SetCallback). ParseVlsdCgData is entered only while
    data_count_ < max_data_count_; it repeats on a skipped record under the same condition and
    otherwise returns [data_count_ <= max_data_count_] (readcache.cpp:302-304, 306, 351), hence a
    single loop with the test at its head and the weaker test after a delivered record. *)
Fixpoint vlsd_cg_loop (d : dgroup) (rid : N) (flt : list N) (mx : N) (fuel : nat) (st : vst)
  : option (res (list (N * list N))) :=
  match fuel with
  | O => None
  | S k =>
      if mx <=? dc (v_rc st) then Some (Ok (v_log st))
      else
        match vlsd_cg_step d rid flt st with
        | Ok (_, st') => vlsd_cg_loop d rid flt mx k st'
        | Fail => Some (Ok (v_log st))
        | UB => Some UB
        end
  end.

(** dg4block.cpp:508-516, the CG-VLSD branch of Dg4Block::ReadVlsdData. *)
Definition read_vlsd_cg (d : dgroup) (rid : N) (flt : list N) (fuel : nat)
    (blocks : list (list N)) : option (res (list (N * list N))) :=
  vlsd_cg_loop d rid flt (N.of_nat (length (concat blocks))) fuel (mkV (rc_init blocks) 0 []).

(** One pass of the loop body of ReadCache::ParseSignalData, readcache.cpp:222-249. It is only
    called with an empty offset filter (dg4block.cpp:498-507). *)
Definition signal_step (st : vst) : res vst :=
  bind (get_len (v_rc st)) (fun q =>
  let n := fst q in
  bind (get_array n (snd q)) (fun a =>
  Ok (mkV (snd a) (step_off (v_off st) n) (v_log st ++ [(v_off st, fst a)])))).

(** The loop [while (read_cache.ParseSignalData())], dg4block.cpp:506. *)
Fixpoint signal_loop (mx : N) (fuel : nat) (st : vst) : option (res (list (N * list N))) :=
  match fuel with
  | O => None
  | S k =>
      if mx <=? dc (v_rc st) then Some (Ok (v_log st))
      else
        match signal_step st with
        | Ok st' => signal_loop mx k st'
        | Fail => Some (Ok (v_log st))
        | UB => Some UB
        end
  end.

(** readcache.cpp:254-295 ReadCache::ParseSignalDataOffset. *)
Definition signal_offset_step (mx : N) (st : vst) (offset : N) : res (bool * vst) :=
  if mx <=? dc (v_rc st) then Ok (false, st)
  else if offset <? v_off st then Ok (false, st)
  else
    let s := if v_off st <? offset
             then skip_bytes (N.to_nat (offset - v_off st)) (v_rc st) else v_rc st in
    if mx <? dc s + 4 then Ok (false, st)
    else
      match get_len s with
      | Fail => Ok (false, st)
      | UB => UB
      | Ok (n, s1) =>
          if mx <? dc s1 + N.of_nat n then Ok (false, st)
          else
            match get_array n s1 with
            | Fail => Ok (false, st)
            | UB => UB
            | Ok (a, s2) =>
                Ok (dc s2 <? mx, mkV s2 (step_off offset n) (v_log st ++ [(offset, a)]))
            end
      end.

(** dg4block.cpp:499-504: the loop over the sorted offset list. *)
Fixpoint signal_offsets (mx : N) (offs : list N) (st : vst) : res (list (N * list N)) :=
  match offs with
  | [] => Ok (v_log st)
  | o :: r =>
      bind (signal_offset_step mx st o) (fun p =>
      if fst p then signal_offsets mx r (snd p) else Ok (v_log (snd p)))
  end.

(** dg4block.cpp:493-507, the SD branch of Dg4Block::ReadVlsdData; [offs] is the content of the
    std::set<uint64_t> (sorted, without duplicates). *)
Definition read_signal_data (offs : list N) (fuel : nat) (blocks : list (list N))
  : option (res (list (N * list N))) :=
  let mx := N.of_nat (length (concat blocks)) in
  match blocks, offs with
  | [], _ => Some (Ok [])
  | _, [] => signal_loop mx fuel (mkV (rc_init blocks) 0 [])
  | _, _ => Some (signal_offsets mx offs (mkV (rc_init blocks) 0 []))
  end.
