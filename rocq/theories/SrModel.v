(** Model of sample reductions (SR blocks): mdflib/src/sr4block.cpp, sr4block.h, sr3block.cpp, sr3block.h,
    ld4block.cpp, the parts of datalistblock.cpp and datablock.cpp that they use, and
    MdfReader::ReadSrData (mdfreader.cpp:633-662).

    Simplifications: the conversion of GetEngValue is not modelled; a data link to another SR block
    gives no data; memory is never short. *)
From Verif Require Import Base BlockModel DataModel ChannelModel.
Local Open Scope N_scope.

(* ------------------------------------------------------------------ *)
(** ** LD blocks *)

(** ld4block.cpp:67-104 Ld4Block::Read: link to the next LD block and the links that are followed.
    Only the first [nof_blocks_] links after the first are: the links to invalidation blocks behind
    them are not. *)
Definition read_ld (f : file) (pos : nat) : res (N * list N) :=
  bind (read_header4 f pos) (fun '(b, p) =>
  bind (read_num false 4 f p) (fun '(flags, p) =>
  bind (read_num false 4 f p) (fun '(nof, p) =>
  let n := N.to_nat nof in
  bind (if N.testbit flags 0
        then bind (read_num false 8 f p) (fun '(_, p) => Ok p)
        else bind (read_links false 8 n f p) (fun '(_, p) => Ok p)) (fun p =>
  bind (if N.testbit flags 1 then bind (read_links false 8 n f p) (fun '(_, p) => Ok p) else Ok p) (fun p =>
  bind (if N.testbit flags 2 then bind (read_links false 8 n f p) (fun '(_, p) => Ok p) else Ok p) (fun p =>
  bind (if N.testbit flags 3 then bind (read_links false 8 n f p) (fun '(_, p) => Ok p) else Ok p) (fun _ =>
  Ok (link b 0, map (fun i => link b (1 + i)) (seq 0 n))))))))).

(** datalistblock.cpp:61-69, the chain of LD blocks. [None]: not ended within [fuel] blocks. *)
Fixpoint read_lds (fuel : nat) (f : file) (l : N) : option (res (list N * list dinfo)) :=
  match fuel with
  | O => None
  | S k =>
      if pos64 l then
        match read_ld f (N.to_nat l) with
        | Ok (next, ls) =>
            match read_link_list f ls, read_lds k f next with
            | Ok ds, Some (Ok (ls', ds')) => Some (Ok (ls ++ ls', ds ++ ds'))
            | Ok _, x => x
            | Fail, _ => Some Fail
            | UB, _ => Some UB
            end
        | Fail => Some Fail
        | UB => Some UB
        end
      else Some (Ok ([], []))
  end.

(* ------------------------------------------------------------------ *)
(** ** The data of a sample reduction *)

(** datalistblock.cpp:28-106 ReadBlockList with LD blocks. *)
Fixpoint sr_blocks (fuel : nat) (f : file) (l : N) : option (res (list dinfo)) :=
  match fuel with
  | O => None
  | S k =>
      if pos64 l then
        let pos := N.to_nat l in
        let t := read_type f pos in
        if eqb_type t 76 68 then
          match read_lds k f l with
          | Some r => Some (bind r (fun '(_, ds) => Ok ds))
          | None => None
          end
        else if eqb_type t 72 76 then
          match read_hl f pos with
          | Ok l' => sr_blocks k f l'
          | Fail => Some Fail
          | UB => Some UB
          end
        else read_blocks (S k) f l
      else Some (Ok [])
  end.

(** datalistblock.cpp:264-272, one data block: an RD block, or a DZ block of one. *)
Definition rd_kind (f : file) (pos : nat) : bool :=
  let t := read_type f pos in
  if eqb_type t 68 90 then
    match read_header4 f pos with
    | Ok (_, p) => eqb_type (fst (read_str 2 f p)) 82 68
    | _ => false
    end
  else eqb_type t 82 68.

Definition rd_links (f : file) (ls : list N) : bool :=
  existsb (fun l => pos64 l && rd_kind f (N.to_nat l)) ls.

(** The links of a DL block to its data blocks, as in [read_dl]. *)
Definition dl_links (f : file) (pos : nat) (n : nat) : list N :=
  match read_header4 f pos with
  | Ok (b, _) => map (fun i => link b (1 + i)) (seq 0 n)
  | _ => []
  end.

Fixpoint rd_dls (fuel : nat) (f : file) (l : N) : bool :=
  match fuel with
  | O => false
  | S k =>
      if pos64 l then
        match read_dl f (N.to_nat l) with
        | Ok d => rd_links f (dl_links f (N.to_nat l) (N.to_nat (di_nof d))) || rd_dls k f (di_next d)
        | _ => false
        end
      else false
  end.

(** datalistblock.cpp:248-274 IsRdBlock, of the blocks reached from a data link. *)
Fixpoint is_rd (fuel : nat) (f : file) (l : N) : bool :=
  match fuel with
  | O => false
  | S k =>
      if pos64 l then
        let pos := N.to_nat l in
        let t := read_type f pos in
        if eqb_type t 76 68 then
          match read_lds k f l with
          | Some (Ok (ls, _)) => rd_links f ls
          | _ => false
          end
        else if eqb_type t 72 76 then
          match read_hl f pos with Ok l' => is_rd k f l' | _ => false end
        else if eqb_type t 68 76 then rd_dls k f l
        else rd_kind f pos
      else false
  end.

(** sr4block.cpp:107-117 Sr4Block::Read, without the data blocks. *)
Record sr : Type := mkSr { sr_nof : N; sr_interval : N; sr_type : N; sr_flags : N; sr_next : N; sr_link : N }.
Definition read_sr (f : file) (pos : nat) : res sr :=
  bind (read_header4 f pos) (fun '(b, p) =>
  bind (read_num false 8 f p) (fun '(nof, p) =>
  bind (read_num false 8 f p) (fun '(interval, p) =>
  bind (read_num false 1 f p) (fun '(type, p) =>
  bind (read_num false 1 f p) (fun '(flags, p) =>
  if (length (slice p 6 f) <? 6)%nat then Fail
  else Ok (mkSr nof interval type flags (link b 0) (link b 1))))))).

Section Values.
Context (inflate : list N -> nat -> list N) (half_to_double float_to_double : N -> N).

(** sr4block.cpp:119-147 ReadData: the data bytes, of all blocks one after the other. *)
Definition sr_data (fuel : nat) (f : file) (l : N) : option (res (list N)) :=
  match sr_blocks fuel f l with
  | None => None
  | Some r =>
      Some (bind r (fun ds =>
        let size := w64 (fold_right (fun d a => w64 (data_size d + a)) 0 ds) in
        if size =? 0 then Ok []
        else bind (copy_blocks inflate f ds (repeat 0 (N.to_nat size), 0)) (fun '(dest, _) => Ok dest)))
  end.

(** One copy to the record buffer (sr4block.h:97-100 and the like): [i] is the index after
    static_cast<int>; the bound is computed in uint64_t. *)
Definition copy_at (data : list N) (i : Z) (n : N) (to : nat) (buf : list N) : res (list N) :=
  if to_u64 (i + Z.of_N n) <=? N.of_nat (length data)
  then if (i <? 0)%Z then UB else Ok (splice to (slice (Z.to_nat i) (N.to_nat n) data) buf)
  else Ok buf.

(** sr4block.h:96-115, record [k] (mean, min, max) of an RD block. *)
Definition copy_rd (data : list N) (size sample k : N) (buf : list N) : res (list N) :=
  copy_at data (to_int32 (w64 (sample * 3 * size + k * size))) size 0 buf.

(** sr4block.h:116-166, the same of RV and RI blocks. *)
Definition copy_rv (data : list N) (nof dsize isize sample k : N) (buf : list N) : res (list N) :=
  bind (copy_at data (to_int32 (w64 (sample * 3 * dsize + k * dsize))) dsize 0 buf) (fun buf =>
  copy_at data (to_int32 (w64 (nof * 3 * dsize + sample * 3 * isize + k * isize))) isize (N.to_nat dsize) buf).

(** What GetChannelValue of the channel gives: value and validity; [Fail]: not valid. *)
Definition reading : Type := res (value * bool).

(** sr4block.h:79-167 GetChannelValueT: mean, minimum and maximum. [dsize] and [isize] are the sizes
    of the data and the invalidation bytes of the channel group's records. [Fail]: no value is set. *)
Definition sr_value (c : chan) (rd : bool) (nof dsize isize : N) (data : list N) (sample idx : N)
  : res (reading * reading * reading) :=
  let size := dsize + isize in
  if match data with [] => true | _ => size =? 0 end then Fail
  else
    let copy k buf := if rd then copy_rd data size sample k buf else copy_rv data nof dsize isize sample k buf in
    let get buf := get_channel half_to_double float_to_double c buf idx in
    bind (copy 0 (repeat 0 (N.to_nat size))) (fun b0 =>
    bind (copy 1 b0) (fun b1 =>
    bind (copy 2 b1) (fun b2 => Ok (get b0, get b1, get b2)))).

(** Reading an SR block and its data, then one value. *)
Definition sr_get (fuel : nat) (f : file) (pos : nat) (c : chan) (dsize isize sample idx : N)
  : option (res (reading * reading * reading)) :=
  match read_sr f pos with
  | Ok s =>
      match sr_data fuel f (sr_link s) with
      | None => None
      | Some r => Some (bind r (fun data => sr_value c (is_rd fuel f (sr_link s)) (sr_nof s) dsize isize data sample idx))
      end
  | Fail => Some Fail
  | UB => Some UB
  end.

(* ------------------------------------------------------------------ *)
(** ** MDF 3 *)

(** sr3block.cpp:41-47 Sr3Block::Read: fields and the link to the data. The block list, which only
    ReadBlockList fills, stays as it is. *)
Record sr3 : Type := mkSr3 { s3_nof : N; s3_interval : N; s3_link : N; s3_blocks : list dinfo; s3_data : list N }.
Definition sr3_new : sr3 := mkSr3 0 0 0 [] [].
Definition read_sr3 (big : bool) (f : file) (pos : nat) (s : sr3) : res sr3 :=
  bind (read_header3 big 2 f pos) (fun '(b, p) =>
  bind (read_num big 4 f p) (fun '(nof, p) =>
  bind (read_num big 8 f p) (fun '(interval, _) =>
  Ok (mkSr3 nof interval (link b 1) (s3_blocks s) (s3_data s))))).

(** sr3block.cpp:80-96 ReadData, with DataSize of the block list (datalistblock.cpp:199-214). *)
Definition sr3_read_data (f : file) (s : sr3) : res sr3 :=
  let size := fold_right (fun d a => w64 (data_size d + a)) 0 (s3_blocks s) in
  if size =? 0 then Ok (mkSr3 (s3_nof s) (s3_interval s) (s3_link s) (s3_blocks s) [])
  else
    let got := slice (N.to_nat (s3_link s)) (N.to_nat size) f in
    if (length got <? N.to_nat size)%nat then Fail
    else Ok (mkSr3 (s3_nof s) (s3_interval s) (s3_link s) (s3_blocks s) got).

(** sr3block.h:64-95 GetChannelValueT; the index arithmetic is that of [copy_rd]. *)
Definition sr3_value (c : chan) (size : N) (s : sr3) (sample idx : N) : res (reading * reading * reading) :=
  if match s3_data s with [] => true | _ => size =? 0 end then Fail
  else
    let get buf := get_channel half_to_double float_to_double c buf idx in
    bind (copy_rd (s3_data s) size sample 0 (repeat 0 (N.to_nat size))) (fun b0 =>
    bind (copy_rd (s3_data s) size sample 1 b0) (fun b1 =>
    bind (copy_rd (s3_data s) size sample 2 b1) (fun b2 => Ok (get b0, get b1, get b2)))).

(** Reading an SR block of an MDF 3 file and its data, then one value. *)
Definition sr3_get (big : bool) (f : file) (pos : nat) (c : chan) (size sample idx : N)
  : res (reading * reading * reading) :=
  bind (read_sr3 big f pos sr3_new) (fun s =>
  bind (sr3_read_data f s) (fun s => sr3_value c size s sample idx)).

End Values.
