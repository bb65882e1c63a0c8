(** Model of the MDF3 blocks that describe a measurement: conversions (cc3block.cpp), channels
    (cn3block.cpp), channel groups (cg3block.cpp), data groups (dg3block.cpp) and the header
    (hd3block.cpp): their Write functions for new blocks and their Read functions, and a whole file
    (mdf3file.cpp).

    Simplifications: little-endian files (the writer makes no others); no CE, CD, TR, PR and SR
    blocks (nothing in the API creates them), their links are written as 0 and not followed;
    doubles are their 64-bit patterns, the signed time offset its two's complement pattern.
    UpdateLink of a link that is 0 is a write of the four bytes of the link. *)
From Verif Require Import Base BlockModel ConvModel CcModel MetaModel IdentModel.
Local Open Scope N_scope.

(* ------------------------------------------------------------------ *)
(** ** Texts and links *)

(** mdfblock.cpp:731-755 UpdateLink of a written MDF3 block at [pos]. *)
Definition set3 (f : file) (pos i : nat) (l : N) : file := put f (pos + 4 + 4 * i) (le_bytes 4 (w32 l)).

(** The same, when there is something to link: the code calls UpdateLink only for blocks that were
    written, whose position is not 0. *)
Definition link3 (f : file) (pos i : nat) (l : N) : file := if l =? 0 then f else set3 f pos i l.

(** cn3block.cpp:268-280, 315-320, cg3block.cpp:177-182, hd3block.cpp:183-188: a text block if the
    text is not empty. *)
Definition write_text3 (t : list N) (f : file) : file * N :=
  match t with
  | [] => (f, 0)
  | _ => let '(f, p) := write_tx3 false t f in (f, N.of_nat p)
  end.

(** mdfblock.cpp:549-558 ReadTx3. *)
Definition read_text3 (f : file) (l : N) : res (list N) :=
  if 0 <? l then tx3_text false f (N.to_nat l) else Ok [].

(** dg3block.cpp:112-126, cg3block.cpp:162-175, hd3block.cpp:196-218: the blocks of a list are
    written one after the other, each position is stored in link 0 of the block before. The
    position of the first one, which the parent links, is returned. *)
Section Chain.
Context {T : Type} (wr : T -> file -> res (file * nat)).
Fixpoint write_chain3 (prev : option nat) (xs : list T) (f : file) {struct xs} : res (file * N) :=
  match xs with
  | [] => Ok (f, 0)
  | x :: r =>
      let* '(f, pos) := wr x f in
      let f := match prev with Some q => set3 f q 0 (N.of_nat pos) | None => f end in
      let* '(f, _) := write_chain3 (Some pos) r f in
      Ok (f, N.of_nat pos)
  end.
End Chain.

(** dg3block.cpp:78-85, cg3block.cpp:186-197, hd3block.cpp:222-232: [rd] returns the block and its
    link 0. At most [fuel] blocks ([UB]: the loop has not ended). *)
Fixpoint read_chain3 {T} (rd : file -> nat -> res (T * N)) (fuel : nat) (f : file) (l : N) : res (list T) :=
  if 0 <? l then
    match fuel with
    | O => UB
    | S k => let* '(x, n) := rd f (N.to_nat l) in
             let* 'xs := read_chain3 rd k f n in Ok (x :: xs)
    end
  else Ok [].

(* ------------------------------------------------------------------ *)
(** ** CC *)

(** A conversion with its range and unit; [x_pads] are the padding bytes of the objects that are
    written for the numeric parameters (CcModel.v). *)
Record ccx : Type := mkCcx {
  x_valid : bool; x_min : N; x_max : N; x_unit : list N;
  x_conv : cc3; x_pads : list (list N)
}.

(** cc3block.cpp:295. *)
Definition ty_cc3 : list N := [67; 67].

(** WriteBool: mdfblock.cpp, a 16-bit number. *)
Definition bool_num (b : bool) : N := if b then 1 else 0.

(** cc3block.cpp:277-365 Write, as [write_cc3] in CcModel.v but with the range and the unit. *)
Definition write_ccx (c : ccx) (f : file) : res (file * nat) :=
  let k := x_conv c in
  let '(f, links) := write_range_texts false (k_ranges k) f in
  let '(f, b, p) := write_header3 false (mkB 0 ty_cc3 46 []) f in
  let fixed := le_bytes 2 (bool_num (x_valid c)) ++ le_bytes 8 (x_min c) ++ le_bytes 8 (x_max c)
               ++ str_bytes 20 (x_unit c) ++ le_bytes 2 (k_type k) in
  let tail := cc3_tail k (x_pads c) links in
  let f := put f p (fixed ++ tail) in
  let bytes := N.of_nat (4 + length fixed + length tail)
               - (if k_type k =? 10 then N.of_nat (length (k_formula k)) else 0) in
  let* '(f, b) := update_size3 false b bytes f in Ok (f, b_pos b).

(** cc3block.cpp:199-273: what follows the number of values. *)
Definition read_values3 (t nof : N) (f : file) (p : nat) : res cc3 :=
  let n := N.to_nat nof in
  if (t =? 0) || (t =? 6) || (t =? 7) || (t =? 8) || (t =? 9) then
    let* '(vs, _) := read_dbls n f p in Ok (mkCc3 t vs [] [] [])
  else if (t =? 1) || (t =? 2) then
    let* '(vs, _) := read_dbls (2 * n) f p in Ok (mkCc3 t vs [] [] [])
  else if t =? 10 then Ok (mkCc3 t [] (if (n =? 0)%nat then [] else fst (read_str n f p)) [] [])
  else if t =? 11 then let* 'l := read_texts n f p in Ok (mkCc3 t [] [] l [])
  else if t =? 12 then let* 'l := read_ranges n f p in Ok (mkCc3 t [] [] [] l)
  else Ok (mkCc3 t [] [] [] []).

(** cc3block.cpp:188-275 Read. *)
Definition read_ccx (f : file) (pos : nat) : res ccx :=
  let* '(b, p) := read_header3 false 0 f pos in
  let* '(vs, p) := read_seq [2; 8; 8]%nat f p in
  let '(unit, p) := read_str 20 f p in
  let* '(t, p) := read_num false 2 f p in
  let* '(nof, p) := (if 44 <? b_len b then read_num false 2 f p else Ok (0, p)) in
  let* 'k := read_values3 t nof f p in
  Ok (mkCcx (negb (nth 0 vs 0 =? 0)) (nth 1 vs 0) (nth 2 vs 0) unit k []).

(** cn3block.cpp:300-303 and 228-233. *)
Definition write_ccx_opt (c : option ccx) (f : file) : res (file * N) :=
  match c with
  | None => Ok (f, 0)
  | Some c => let* '(f, p) := write_ccx c f in Ok (f, N.of_nat p)
  end.
(** cn3block.cpp:228-233. *)
Definition read_ccx_opt (f : file) (l : N) : res (option ccx) :=
  if 0 <? l then let* 'c := read_ccx f (N.to_nat l) in Ok (Some c) else Ok None.

(* ------------------------------------------------------------------ *)
(** ** CN *)

(** cn3block.h: the fields of a channel block that are stored. *)
Record cn3 : Type := mkCn3 {
  n3_type : N; n3_short : list N; n3_desc : list N; n3_start : N; n3_bits : N; n3_signal : N;
  n3_valid : bool; n3_min : N; n3_max : N; n3_rate : N; n3_offset : N;
  n3_comment : list N; n3_long : list N; n3_display : list N; n3_cc : option ccx
}.

(** cn3block.cpp:263. *)
Definition ty_cn3 : list N := [67; 78].

(** cn3block.cpp:284-298. *)
Definition cn3_body (c : cn3) (llong ldisplay : N) : list N :=
  le_bytes 2 (n3_type c) ++ str_bytes 32 (n3_short c) ++ str_bytes 128 (n3_desc c)
  ++ fields_bytes [(2%nat, n3_start c); (2%nat, n3_bits c); (2%nat, n3_signal c); (2%nat, bool_num (n3_valid c));
                   (8%nat, n3_min c); (8%nat, n3_max c); (8%nat, n3_rate c);
                   (4%nat, w32 llong); (4%nat, w32 ldisplay); (2%nat, n3_offset c)].

(** cn3block.cpp:256-323 Write of a new block; the size of 228 is set in 264-265. *)
Definition write_cn3 (c : cn3) (f : file) : res (file * nat) :=
  let '(f, llong) := write_text3 (n3_long c) f in
  let '(f, ldisp) := write_text3 (n3_display c) f in
  let pos := length f in
  let f := f ++ header3_bytes false ty_cn3 228 [0; 0; 0; 0; 0] ++ cn3_body c llong ldisp in
  let* '(f, lcc) := write_ccx_opt (n3_cc c) f in
  let f := link3 f pos 1 lcc in
  let '(f, ltx) := write_text3 (n3_comment c) f in
  Ok (link3 f pos 4 ltx, pos).

(** One more number, if the block is longer than what was read (cn3block.cpp:206-226). *)
Definition read_more (k : nat) (read size : N) (f : file) (p : nat) : res (N * nat) :=
  if read <? size then read_num false k f p else Ok (0, p).

(** cn3block.cpp:192-254 Read; a longer block than 228 bytes is skipped byte by byte, which throws
    at the end of the file. *)
Definition read_cn3 (f : file) (pos : nat) : res (cn3 * N) :=
  let* '(b, p) := read_header3 false 5 f pos in
  let* '(ty, p) := read_num false 2 f p in
  let '(short, p) := read_str 32 f p in
  let '(desc, p) := read_str 128 f p in
  let* '(vs, p) := read_seq [2; 2; 2; 2; 8; 8; 8]%nat f p in
  let* '(llong, p) := read_more 4 218 (b_len b) f p in
  let* '(ldisp, p) := read_more 4 222 (b_len b) f p in
  let* '(offset, p) := read_more 2 226 (b_len b) f p in
  let* '_ := (if (p + N.to_nat (b_len b - 228) <=? length f)%nat then Ok tt else Fail) in
  let* 'cc := read_ccx_opt f (link b 1) in
  let* 'comment := read_text3 f (link b 4) in
  let* 'long := read_text3 f llong in
  let* 'display := read_text3 f ldisp in
  Ok (mkCn3 ty short desc (nth 0 vs 0) (nth 1 vs 0) (nth 2 vs 0) (negb (nth 3 vs 0 =? 0))
        (nth 4 vs 0) (nth 5 vs 0) (nth 6 vs 0) offset comment long display cc, link b 0).

(** cn3block.cpp:48-61 Name. *)
Definition set_name3 (name : list N) (c : cn3) : cn3 :=
  let cut := (31 <? length name)%nat in
  mkCn3 (n3_type c) (if cut then firstn 31 name else name) (n3_desc c) (n3_start c) (n3_bits c) (n3_signal c)
    (n3_valid c) (n3_min c) (n3_max c) (n3_rate c) (n3_offset c) (n3_comment c)
    (if cut then name else []) (n3_display c) (n3_cc c).
(** cn3block.cpp:59-61. *)
Definition get_name3 (c : cn3) : list N := match n3_long c with [] => n3_short c | l => l end.

(* ------------------------------------------------------------------ *)
(** ** CG *)

(** [g3_sr] is the link to the first sample reduction. *)
Record cg3 : Type := mkCg3 {
  g3_id : N; g3_size : N; g3_nof : N; g3_sr : N; g3_cns : list cn3; g3_comment : list N
}.

(** cg3block.cpp:118. *)
Definition ty_cg3 : list N := [67; 71].

(** cg3block.cpp:115, 142-147. *)
Definition cg3_body (g : cg3) : list N :=
  fields_bytes [(2%nat, g3_id g); (2%nat, w16 (N.of_nat (length (g3_cns g)))); (2%nat, g3_size g);
                (4%nat, g3_nof g); (4%nat, w32 (g3_sr g))].

(** cg3block.cpp:112-184 Write of a new block; the size of 30 is set in 119. *)
Definition write_cg3 (g : cg3) (f : file) : res (file * nat) :=
  let pos := length f in
  let f := f ++ header3_bytes false ty_cg3 30 [0; 0; 0] ++ cg3_body g in
  let* '(f, lcn) := write_chain3 write_cn3 None (g3_cns g) f in
  let f := link3 f pos 1 lcn in
  let '(f, ltx) := write_text3 (g3_comment g) f in
  Ok (link3 f pos 2 ltx, pos).

(** cg3block.cpp:95-110 Read and 186-197 ReadCnList. *)
Definition read_cg3 (fuel : nat) (f : file) (pos : nat) : res (cg3 * N) :=
  let* '(b, p) := read_header3 false 3 f pos in
  let* '(vs, p) := read_seq [2; 2; 2; 4]%nat f p in
  let* '(sr, p) := read_more 4 30 (b_len b) f p in
  let* 'comment := read_text3 f (link b 2) in
  let* 'cns := read_chain3 read_cn3 fuel f (link b 1) in
  Ok (mkCg3 (nth 0 vs 0) (nth 2 vs 0) (nth 3 vs 0) sr cns comment, link b 0).

(* ------------------------------------------------------------------ *)
(** ** DG *)

(** [d3_ids]: record ids before (1) or before and after (2) each record; [d3_link]: the position of
    the data. *)
Record dgb3 : Type := mkDgb3 { d3_ids : N; d3_link : N; d3_cgs : list cg3 }.

(** dg3block.cpp:96. *)
Definition ty_dg3 : list N := [68; 71].

(** dg3block.cpp:93-94: set in every Write. *)
Definition ids_for (d : dgb3) : N := if 1 <? w16 (N.of_nat (length (d3_cgs d))) then 1 else 0.

(** dg3block.cpp:102-105. *)
Definition dg3_body (d : dgb3) : list N :=
  fields_bytes [(2%nat, w16 (N.of_nat (length (d3_cgs d)))); (2%nat, ids_for d); (4%nat, 0)].

(** dg3block.cpp:90-143 Write of a new block; the size of 28 is set in 97. *)
Definition write_dgb3 (d : dgb3) (f : file) : res (file * nat) :=
  let pos := length f in
  let f := f ++ header3_bytes false ty_dg3 28 [0; 0; 0; d3_link d] ++ dg3_body d in
  let* '(f, lcg) := write_chain3 write_cg3 None (d3_cgs d) f in
  Ok (link3 f pos 1 lcg, pos).

(** dg3block.cpp:56-88 Read; the data block it makes does not read anything (dt3block.cpp). *)
Definition read_dgb3 (fuel : nat) (f : file) (pos : nat) : res (dgb3 * N) :=
  let* '(b, p) := read_header3 false 4 f pos in
  let* '(vs, p) := read_seq [2; 2]%nat f p in
  let* 'cgs := read_chain3 (read_cg3 fuel) fuel f (link b 1) in
  Ok (mkDgb3 (nth 1 vs 0) (link b 3) cgs, link b 0).

(* ------------------------------------------------------------------ *)
(** ** HD *)

(** mdf3timestamp.h, hd3block.h. *)
Record time3 : Type := mkT3 {
  t3_date : list N; t3_time : list N; t3_ns : N; t3_offset : N; t3_quality : N; t3_timer : list N
}.
(** hd3block.h: the stored fields. *)
Record hd3 : Type := mkHd3 {
  h3_time : time3; h3_author : list N; h3_org : list N; h3_project : list N; h3_subject : list N;
  h3_comment : list N; h3_dgs : list dgb3
}.

(** hd3block.cpp:159. *)
Definition ty_hd3 : list N := [72; 68].

(** hd3block.cpp:166-177. *)
Definition hd3_body (h : hd3) : list N :=
  let t := h3_time h in
  le_bytes 2 (w16 (N.of_nat (length (h3_dgs h)))) ++ str_bytes 10 (t3_date t) ++ str_bytes 8 (t3_time t)
  ++ str_bytes 32 (h3_author h) ++ str_bytes 32 (h3_org h) ++ str_bytes 32 (h3_project h)
  ++ str_bytes 32 (h3_subject h)
  ++ fields_bytes [(8%nat, t3_ns t); (2%nat, t3_offset t); (2%nat, t3_quality t)] ++ str_bytes 32 (t3_timer t).

(** hd3block.cpp:155-220 Write of a new block: the size is 202 (160) until it is updated (179-181). *)
Definition write_hd3 (h : hd3) (f : file) : res (file * nat) :=
  let pos := length f in
  let f := f ++ header3_bytes false ty_hd3 202 [0; 0; 0] ++ hd3_body h in
  let* '(f, _) := update_size3 false (mkB pos ty_hd3 202 [0; 0; 0])
      (N.of_nat (length (header3_bytes false ty_hd3 202 [0; 0; 0] ++ hd3_body h))) f in
  let '(f, ltx) := write_text3 (h3_comment h) f in
  let f := link3 f pos 1 ltx in
  let* '(f, ldg) := write_chain3 write_dgb3 None (h3_dgs h) f in
  Ok (link3 f pos 0 ldg, pos).

(** hd3block.cpp:103-143: the fields as long as the block has bytes left; fields of a newer version
    keep their initial value (here the empty text or 0). [done] bytes are read. *)
Fixpoint read_nums (ks : list nat) (done size : N) (f : file) (p : nat) : res (list N * N * nat) :=
  match ks with
  | [] => Ok ([], done, p)
  | k :: r => let* '(v, p) := read_more k done size f p in
              let done := if done <? size then done + N.of_nat k else done in
              let* '(vs, done, p) := read_nums r done size f p in Ok (v :: vs, done, p)
  end.
(** hd3block.cpp:103-143. *)
Fixpoint read_strs (ks : list nat) (done size : N) (f : file) (p : nat) : list (list N) * N * nat :=
  match ks with
  | [] => ([], done, p)
  | k :: r => let '(s, p') := if done <? size then read_str k f p else ([], p) in
              let done := if done <? size then done + N.of_nat k else done in
              let '(ss, done, p) := read_strs r done size f p' in (s :: ss, done, p)
  end.

(** hd3block.cpp:99-153 Read and 222-232 ReadMeasurementInfo. *)
Definition read_hd3 (fuel : nat) (f : file) (pos : nat) : res hd3 :=
  let* '(b, p) := read_header3 false 3 f pos in
  let size := b_len b in
  let* '(_, done, p) := read_nums [2]%nat 16 size f p in
  let '(ss, done, p) := read_strs [10; 8; 32; 32; 32; 32]%nat done size f p in
  let* '(vs, done, p) := read_nums [8; 2; 2]%nat done size f p in
  let '(ts, _, _) := read_strs [32]%nat done size f p in
  let* 'comment := read_text3 f (link b 1) in
  let* 'dgs := read_chain3 (read_dgb3 fuel) fuel f (link b 0) in
  Ok (mkHd3 (mkT3 (nth 0 ss []) (nth 1 ss []) (nth 0 vs 0) (nth 1 vs 0) (nth 2 vs 0) (nth 0 ts []))
        (nth 2 ss []) (nth 3 ss []) (nth 4 ss []) (nth 5 ss []) comment dgs).

(* ------------------------------------------------------------------ *)
(** ** A whole file *)

(** mdf3file.cpp:109-122 Write of a new file. *)
Definition write_file3 (d : idb) (h : hd3) : res (file * nat) := write_hd3 h (write_id false d []).

(** mdf3file.cpp:41-72 ReadHeader, ReadEverythingButData. *)
Definition read_file3 (fuel : nat) (f : file) : res (idb * hd3) :=
  let* 'd := read_id f in
  let* 'h := read_hd3 fuel f 64 in
  Ok (d, h).
