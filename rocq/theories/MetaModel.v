(** Model of the MDF4 blocks that describe a measurement: channel arrays (ca4block.cpp), sources
    (si4block.cpp), channels (cn4block.cpp), channel groups (cg4block.cpp), data groups
    (dg4block.cpp), file history (fh4block.cpp), attachments (at4block.cpp), channel hierarchies
    (ch4block.cpp), events (ev4block.cpp) and the header (hd4block.cpp): their Write functions for
    new blocks and their Read functions.

    Simplifications: channels have no signal data (link
    0; written after the measurement, DataModel.v); channel groups have no sample reductions; the
    links that DG and CG write into their channels afterwards (VLSD, MLSD, default X of later
    blocks) are not written; a reference to another block is the position it is stored as, not a
    pointer. Doubles are their 64-bit patterns, signed numbers their two's complement patterns.
    An MD comment is its text; the XML in it is not modelled. *)
From Verif Require Import Base BlockModel ConvModel CcModel.
Local Open Scope N_scope.

Notation "'let*' ' p ':=' e 'in' r" := (bind e (fun p => r))
  (at level 200, p pattern, e at level 200, r at level 200, only parsing).

(* ------------------------------------------------------------------ *)
(** ** Numbers, texts and comments *)

(** A run of WriteNumber / WriteBytes calls: widths and values. *)
Definition fields_bytes (fs : list (nat * N)) : list N :=
  concat (map (fun '(k, v) => le_bytes k v) fs).

(** A run of ReadNumber / ReadByte calls (mdfblock.h:377-401, mdfblock.cpp:196-212; both throw at
    the end of the file). *)
Fixpoint read_seq (ks : list nat) (f : file) (p : nat) : res (list N * nat) :=
  match ks with
  | [] => Ok ([], p)
  | k :: r => let* '(v, p) := read_num false k f p in
              let* '(vs, p) := read_seq r f p in Ok (v :: vs, p)
  end.

(** mdfblock.cpp:539-547 WriteTx4 with a link that is still 0. *)
Definition write_tx (t : list N) (f : file) : res (file * N) :=
  match t with
  | [] => Ok (f, 0)
  | _ => let* '(f, b) := write_tx4 t f in Ok (f, N.of_nat (b_pos b))
  end.

(** mdfblock.cpp:516-521 WriteMdComment, mdfblock.h:438-446 WriteBlock4 of an Md4Block. *)
Definition write_md (m : option (list N)) (f : file) : res (file * N) :=
  match m with
  | None => Ok (f, 0)
  | Some t => let* '(f, b) := write_tx4 t f in Ok (f, N.of_nat (b_pos b))
  end.

(** mdfblock.cpp:560-569 ReadTx4. *)
Definition read_tx (f : file) (l : N) : res (list N) :=
  if pos64 l then tx4_text f (N.to_nat l) else Ok [].

(** mdfblock.cpp:507-514 ReadMdComment. *)
Definition read_md (f : file) (l : N) : res (option (list N)) :=
  if pos64 l then let* 't := read_tx4 f (N.to_nat l) in Ok (Some t) else Ok None.

(* ------------------------------------------------------------------ *)
(** ** Lists of new blocks *)

Section Chain.
Context {T : Type} (wr : T -> file -> res (file * nat)).

(** mdfblock.h:448-478 WriteLink4List of blocks that are not yet written, and 438-446 WriteBlock4:
    each block is written by [wr], then its position is stored in link 0 of the block before
    ([prev], at its position + 24). The link of the parent is returned. *)
Fixpoint write_chain (prev : option nat) (xs : list T)
  (f : file) {struct xs} : res (file * N) :=
  match xs with
  | [] => Ok (f, 0)
  | x :: r =>
      let* '(f, pos) := wr x f in
      let f := match prev with
               | Some q => put f (q + 24) (le_bytes 8 (N.of_nat pos))
               | None => f
               end in
      let* '(f, _) := write_chain (Some pos) r f in
      Ok (f, N.of_nat pos)
  end.

End Chain.

(** mdfblock.h:423-436 ReadLink4List; [rd] returns the block and its link 0. At most [fuel] blocks
    ([UB]: the loop has not ended). *)
Fixpoint read_chain {T} (rd : file -> nat -> res (T * N)) (fuel : nat) (f : file) (l : N)
  : res (list T) :=
  if pos64 l then
    match fuel with
    | O => UB
    | S k => let* '(x, n) := rd f (N.to_nat l) in
             let* 'xs := read_chain rd k f n in Ok (x :: xs)
    end
  else Ok [].

(* ------------------------------------------------------------------ *)
(** ** SI *)

Record si : Type := mkSi {
  si_name : list N; si_path : list N; si_md : option (list N);
  si_type : N; si_bus : N; si_flags : N
}.

Definition ty_si : list N := [35; 35; 83; 73].

(** si4block.cpp:109-129 Write. *)
Definition write_si (s : si) (f : file) : res (file * nat) :=
  let* '(f, l0) := write_tx (si_name s) f in
  let* '(f, l1) := write_tx (si_path s) f in
  let* '(f, l2) := write_md (si_md s) f in
  let* '(f, b) := write_block4 ty_si (24 + 24 + 8) [l0; l1; l2]
      (fields_bytes [(1%nat, si_type s); (1%nat, si_bus s); (1%nat, si_flags s); (5%nat, 0)]) f in
  Ok (f, b_pos b).

(** si4block.cpp:96-107 Read. *)
Definition read_si (f : file) (pos : nat) : res si :=
  let* '(b, p) := read_header4 f pos in
  let* '(vs, p) := read_seq [1; 1; 1; 5]%nat f p in
  let* 'name := read_tx f (link b 0) in
  let* 'path := read_tx f (link b 1) in
  let* 'md := read_md f (link b 2) in
  Ok (mkSi name path md (nth 0 vs 0) (nth 1 vs 0) (nth 2 vs 0)).

(** mdfblock.h:438-446 WriteBlock4 and cn4block.cpp:443-448, cg4block.cpp:177-182. *)
Definition write_si_opt (s : option si) (f : file) : res (file * N) :=
  match s with
  | None => Ok (f, 0)
  | Some s => let* '(f, p) := write_si s f in Ok (f, N.of_nat p)
  end.
Definition read_si_opt (f : file) (l : N) : res (option si) :=
  if pos64 l then let* 's := read_si f (N.to_nat l) in Ok (Some s) else Ok None.

(* ------------------------------------------------------------------ *)
(** ** CA *)

Definition triple := (N * N * N)%type.

(** The stored part of Ca4Block; dimensions_ is the size of the list as Shape sets it. *)
Record ca : Type := mkCa {
  a_type : N; a_storage : N; a_flags : N;
  a_offset : N; a_invalid : N;              (* byte_offset_base_, invalid_bit_pos_base_ *)
  a_dims : list N;                          (* dim_size_list_ *)
  a_data : list N;                          (* data_links_ *)
  a_dynamic : list triple;                  (* dynamic_size_list_ *)
  a_input : list triple;                    (* input_quantity_list_ *)
  a_output : triple; a_compare : triple;    (* output_quantity_, comparison_quantity_ *)
  a_convs : list N;                         (* axis_conversion_list_ *)
  a_axis : list triple;                     (* axis_list_ *)
  a_values : list N;                        (* axis_value_list_ *)
  a_cycles : list N                         (* cycle_count_list_ *)
}.

(** ca4block.cpp:557-564 SumOfArray, 566-573 ProductOfArray, both uint64_t. *)
Definition sum_of_array (dims : list N) : N := fold_left (fun s d => w64 (s + d)) dims 0.
Definition product_of_array (dims : list N) : N :=
  fold_left (fun p d => w64 (p * (if 0 <? d then d else 1))) dims 1.

(** ichannelarray.cpp:10-12 NofArrayValues; ichannel.cpp:1105-1118 ArraySize of a channel with
    these arrays. *)
Definition nof_array_values (a : ca) : N := product_of_array (a_dims a).
Definition array_size (arrays : list ca) : N :=
  fold_left (fun c a => w64 (c * nof_array_values a)) arrays 1.

(** ca4block.cpp:579-582 Shape: dimensions_ is a uint16_t. *)
Definition nof_dims (dims : list N) : nat := N.to_nat (w16 (N.of_nat (length dims))).

(** CaFlag (ichannelarray.h:47-58). *)
Definition fDynamic : N := 1.
Definition fInput : N := 2.
Definition fOutput : N := 4.
Definition fCompare : N := 8.
Definition fAxis : N := 16.
Definition fFixed : N := 32.
Definition has (flags f : N) : bool := negb (N.land flags f =? 0).
Definition is_dg (a : ca) : bool := a_storage a =? 2.
Definition is_template (a : ca) : bool := (a_storage a =? 1) || (a_storage a =? 2).

(** "index < list.size() ? list[index] : 0" for the first [n] indices. *)
Definition take_or {A} (n : nat) (d : A) (l : list A) : list A := map (fun i => nth i l d) (seq 0 n).

Definition flat3 (l : list triple) : list N := concat (map (fun '(a, b, c) => [a; b; c]) l).

(** ca4block.cpp:392-428: the number of links. *)
Definition ca_nof_links (a : ca) : nat :=
  let n := nof_dims (a_dims a) in
  let fl := a_flags a in
  (1 + (if is_dg a then length (a_data a) else 0)
   + (if has fl fDynamic then n * 3 else 0)
   + (if has fl fInput then n * 3 else 0)
   + (if has fl fOutput then 3 else 0)
   + (if has fl fCompare then 3 else 0)
   + (if has fl fAxis then n else 0)
   + (if has fl fAxis && negb (has fl fFixed) then n * 3 else 0))%nat.

(** ca4block.cpp:447-492, 666-696: the links in the order UpdateLink is called for them, from
    index 1 (kIndexArray). *)
Definition ca_link_values (a : ca) : list N :=
  let n := nof_dims (a_dims a) in
  let fl := a_flags a in
  (if is_dg a then take_or (N.to_nat (product_of_array (a_dims a))) 0 (a_data a) else [])
  ++ (if has fl fDynamic then flat3 (take_or n (0, 0, 0) (a_dynamic a)) else [])
  ++ (if has fl fInput then flat3 (take_or n (0, 0, 0) (a_input a)) else [])
  ++ (if has fl fOutput then flat3 [a_output a] else [])
  ++ (if has fl fCompare then flat3 [a_compare a] else [])
  ++ (if has fl fAxis then take_or n 0 (a_convs a) else [])
  ++ (if has fl fAxis && negb (has fl fFixed) then flat3 (take_or n (0, 0, 0) (a_axis a)) else []).

(** UpdateLink (mdfblock.cpp:731-755) on a block not yet written, for one index after the other. *)
Fixpoint fill_links (links : list N) (i : nat) (vs : list N) : res (list N) :=
  match vs with
  | [] => Ok links
  | v :: r => if (length links <=? i)%nat then Fail else fill_links (set_nth links i v) (S i) r
  end.

Definition ty_ca : list N := [35; 35; 67; 65].

(** ca4block.cpp:497-530: the fields. *)
Definition ca_fields (a : ca) : list (nat * N) :=
  let n := nof_dims (a_dims a) in
  [(1%nat, a_type a); (1%nat, a_storage a); (2%nat, N.of_nat n); (4%nat, a_flags a);
   (4%nat, a_offset a); (4%nat, a_invalid a)]
  ++ map (pair 8%nat) (take_or n 0 (a_dims a))
  ++ (if has (a_flags a) fFixed
      then map (pair 8%nat) (take_or (N.to_nat (sum_of_array (a_dims a))) 0 (a_values a)) else [])
  ++ (if is_template a
      then map (pair 8%nat) (take_or (N.to_nat (product_of_array (a_dims a))) 0 (a_cycles a)) else []).

(** ca4block.cpp:384-534 Write of a new block. *)
Definition write_ca (a : ca) (f : file) : res (file * nat) :=
  let nl := ca_nof_links a in
  let len := N.of_nat (24 + 8 * nl + 16 + 8 * nof_dims (a_dims a))
             + (if has (a_flags a) fFixed then 8 * sum_of_array (a_dims a) else 0)
             + (if is_template a then 8 * product_of_array (a_dims a) else 0) in
  let* 'links := fill_links (repeat 0 nl) 1 (ca_link_values a) in
  let* '(f, b) := write_block4 ty_ca (w64 len) links (fields_bytes (ca_fields a)) f in
  Ok (f, b_pos b).

(** ca4block.cpp:301-304, the loop over the cycle counts. *)
Fixpoint read_cycles (n : nat) (bytes max : N) (f : file) (p : nat) : res (list N) :=
  match n with
  | O => Ok []
  | S k =>
      if bytes + 8 <=? max then
        let* '(v, p) := read_num false 8 f p in
        let* 'vs := read_cycles k (bytes + 8) max f p in Ok (v :: vs)
      else let* 'vs := read_cycles k bytes max f p in Ok (0 :: vs)
  end.

(** ca4block.cpp:627-664 ReadReference, and its loops. *)
Definition triple_at (b : blk) (i : nat) : triple := (link b i, link b (i + 1), link b (i + 2)).
Definition triples_at (b : blk) (i n : nat) : list triple :=
  map (fun k => triple_at b (i + 3 * k)) (seq 0 n).
Definition links_at (b : blk) (i n : nat) : list N := map (fun k => link b (i + k)) (seq 0 n).

(** ca4block.cpp:275-317 Read, 319-382 FindAllReferences; also link 0. *)
Definition read_ca (f : file) (pos : nat) : res (ca * N) :=
  let* '(b, p) := read_header4 f pos in
  let* '(vs, p) := read_seq [1; 1; 2; 4; 4; 4]%nat f p in
  let type := nth 0 vs 0 in
  let storage := nth 1 vs 0 in
  let n := N.to_nat (nth 2 vs 0) in
  let fl := nth 3 vs 0 in
  let* '(dims, p) := read_seq (repeat 8%nat n) f p in
  let prod := N.to_nat (product_of_array dims) in
  let* '(values, p) := (if has fl fFixed
                        then read_seq (repeat 8%nat (N.to_nat (sum_of_array dims))) f p
                        else Ok ([], p)) in
  let* 'cycles := (if (storage =? 1) || (storage =? 2)
                   then read_cycles prod (N.of_nat (p - pos)) (b_len b) f p
                   else Ok []) in
  let i0 := 1%nat in
  let i1 := (i0 + if (storage =? 2)%N then prod else 0)%nat in
  let i2 := (i1 + if has fl fDynamic then 3 * n else 0)%nat in
  let i3 := (i2 + if has fl fInput then 3 * n else 0)%nat in
  let i4 := (i3 + if has fl fOutput then 3 else 0)%nat in
  let i5 := (i4 + if has fl fCompare then 3 else 0)%nat in
  let i6 := (i5 + if has fl fAxis then n else 0)%nat in
  Ok (mkCa type storage fl (nth 4 vs 0) (nth 5 vs 0) dims
        (if storage =? 2 then links_at b i0 prod else [])
        (if has fl fDynamic then triples_at b i1 n else [])
        (if has fl fInput then triples_at b i2 n else [])
        (if has fl fOutput then triple_at b i3 else (0, 0, 0))
        (if has fl fCompare then triple_at b i4 else (0, 0, 0))
        (if has fl fAxis then links_at b i5 n else [])
        (if has fl fAxis && negb (has fl fFixed) then triples_at b i6 n else [])
        values cycles,
      link b 0).

(* ------------------------------------------------------------------ *)
(** ** CN *)

Record cnh : Type := mkCnh {
  n_type : N; n_sync : N; n_dtype : N; n_bitoff : N; n_byteoff : N; n_bits : N;
  n_flags : N; n_invalid : N; n_precision : N;
  n_rmin : N; n_rmax : N; n_lmin : N; n_lmax : N; n_emin : N; n_emax : N;
  n_name : list N; n_unit : option (list N); n_md : option (list N); n_si : option si;
  n_attach : list N;                (* positions of the attachments *)
  n_defx : triple;                  (* positions of the default X blocks *)
  n_conv : option conv              (* cc_block_ *)
}.

(** mdfblock.h:438-446 WriteBlock4 and cn4block.cpp:450-456, the conversion of a channel of data
    type [dt]. *)
Definition write_cc_opt (c : option conv) (f : file) : res (file * N) :=
  match c with
  | None => Ok (f, 0)
  | Some c => let* '(f, p) := write_conv c f in Ok (f, N.of_nat p)
  end.
Definition read_cc_opt (fuel : nat) (dt : N) (f : file) (l : N) : res (option conv) :=
  if pos64 l then let* 'c := read_conv fuel dt f (N.to_nat l) in Ok (Some c) else Ok None.

(** cn4block.h cx_list_: the array blocks and member channels. *)
Inductive cn : Type := mkCn (h : cnh) (cx : list comp)
with comp : Type := CArr (a : ca) | CSub (c : cn).

(** cn4block.cpp:32-33 kDefaultXFlag, CnFlag::DefaultX. *)
Definition fDefaultX : N := 4096.

Definition ty_cn : list N := [35; 35; 67; 78].

(** cn4block.cpp:541-563: the fields. *)
Definition cn_fields (h : cnh) : list (nat * N) :=
  [(1%nat, n_type h); (1%nat, n_sync h); (1%nat, n_dtype h); (1%nat, n_bitoff h);
   (4%nat, n_byteoff h); (4%nat, n_bits h); (4%nat, n_flags h); (4%nat, n_invalid h);
   (1%nat, n_precision h); (1%nat, 0); (2%nat, w16 (N.of_nat (length (n_attach h))));
   (8%nat, n_rmin h); (8%nat, n_rmax h); (8%nat, n_lmin h); (8%nat, n_lmax h);
   (8%nat, n_emin h); (8%nat, n_emax h)].
Definition cn_widths : list nat := [1; 1; 1; 1; 4; 4; 4; 4; 1; 1; 2; 8; 8; 8; 8; 8; 8]%nat.

(** cn4block.cpp:496-566 Write of a new block. More than 65535 attachments index outside the link
    list (525-529). *)
Fixpoint write_cn (c : cn) (f : file) {struct c} : res (file * nat) :=
  match c with
  | mkCn h cx =>
      let na := N.to_nat (w16 (N.of_nat (length (n_attach h)))) in
      let dx := has (n_flags h) fDefaultX in
      let len := N.of_nat (24 + 64 + na * 8 + (if dx then 24 else 0) + 76) in
      let* '(f, l1) := write_chain (fun x => match x with
                                             | CArr a => write_ca a
                                             | CSub c => write_cn c
                                             end) None cx f in
      let* '(f, l2) := write_tx (n_name h) f in
      let* '(f, l3) := write_si_opt (n_si h) f in
      let* '(f, l4) := write_cc_opt (n_conv h) f in
      let* '(f, l6) := write_md (n_unit h) f in
      let* '(f, l7) := write_md (n_md h) f in
      if (na <? length (n_attach h))%nat then UB
      else
        let '(x, y, z) := n_defx h in
        let* '(f, b) := write_block4 ty_cn len
            ([0; l1; l2; l3; l4; 0; l6; l7] ++ n_attach h ++ (if dx then [x; y; z] else []))
            (fields_bytes (cn_fields h)) f in
        Ok (f, b_pos b)
  end.

(** cn4block.cpp:392-494 Read, 197-204 AtLinkList, 206-212 XAxisLinkList; also link 0. The blocks
    of the composition are all read as the type of the first one; with any other type the loop
    414-434 does not end ([UB]). [fuel] bounds the nesting and the lists. *)
Fixpoint read_cn (fuel : nat) (f : file) (pos : nat) {struct fuel} : res (cn * N) :=
  match fuel with
  | O => UB
  | S k =>
      let* '(b, p) := read_header4 f pos in
      let* '(vs, p) := read_seq cn_widths f p in
      let v := fun i => nth i vs 0 in
      let* 'name := read_tx f (link b 2) in
      let* 'cx :=
        (if pos64 (link b 1) then
           let bt := block_type f (N.to_nat (link b 1)) in
           if list_eq_dec N.eq_dec bt [67; 65] then
             let* 'l := read_chain read_ca k f (link b 1) in Ok (map CArr l)
           else if list_eq_dec N.eq_dec bt [67; 78] then
             let* 'l := read_chain (read_cn k) k f (link b 1) in Ok (map CSub l)
           else UB
         else Ok []) in
      let* 's := read_si_opt f (link b 3) in
      let* 'cc := read_cc_opt k (v 2%nat) f (link b 4) in
      let* 'unit := read_md f (link b 6) in
      let* 'md := read_md f (link b 7) in
      let na := N.to_nat (v 10%nat) in
      let dx := if has (v 6%nat) fDefaultX then triple_at b (8 + na) else (0, 0, 0) in
      Ok (mkCn (mkCnh (v 0%nat) (v 1%nat) (v 2%nat) (v 3%nat) (v 4%nat) (v 5%nat) (v 6%nat) (v 7%nat)
                 (v 8%nat) (v 11%nat) (v 12%nat) (v 13%nat) (v 14%nat) (v 15%nat) (v 16%nat)
                 name unit md s (links_at b 8 na) dx cc) cx,
          link b 0)
  end.

(* ------------------------------------------------------------------ *)
(** ** CG and DG *)

Record cg : Type := mkCg {
  g_record : N; g_samples : N; g_flags : N; g_separator : N; g_data : N; g_inval : N;
  g_name : list N; g_si : option si; g_md : option (list N);
  g_cns : list cn
}.

(** CgFlag::RemoteMaster. *)
Definition fRemote : N := 8.

Definition ty_cg : list N := [35; 35; 67; 71].

(** cg4block.cpp:187-250 Write of a new block (252-262, the links of MLSD channels, are not
    modelled). *)
Definition write_cg (g : cg) (f : file) : res (file * nat) :=
  let* '(f, l1) := write_chain write_cn None (g_cns g) f in
  let* '(f, l2) := write_tx (g_name g) f in
  let* '(f, l3) := write_si_opt (g_si g) f in
  let* '(f, l5) := write_md (g_md g) f in
  let rm := has (g_flags g) fRemote in
  let* '(f, b) := write_block4 ty_cg (if rm then 112 else 104)
      ([0; l1; l2; l3; 0; l5] ++ (if rm then [0] else []))
      (fields_bytes [(8%nat, g_record g); (8%nat, g_samples g); (2%nat, g_flags g);
                     (2%nat, g_separator g); (4%nat, 0); (4%nat, g_data g); (4%nat, g_inval g)]) f in
  Ok (f, b_pos b).

(** cg4block.cpp:165-185 Read, 266-268 ReadCnList; also link 0. *)
Definition read_cg (fuel : nat) (f : file) (pos : nat) : res (cg * N) :=
  let* '(b, p) := read_header4 f pos in
  let* '(vs, p) := read_seq [8; 8; 2; 2; 4; 4; 4]%nat f p in
  let v := fun i => nth i vs 0 in
  let* 'name := read_tx f (link b 2) in
  let* 's := read_si_opt f (link b 3) in
  let* 'md := read_md f (link b 5) in
  let* 'cns := read_chain (read_cn fuel) fuel f (link b 1) in
  Ok (mkCg (v 0%nat) (v 1%nat) (v 2%nat) (v 3%nat) (v 5%nat) (v 6%nat) name s md cns, link b 0).

(** [d_link]: link 2, to the data; 0 in a new block. *)
Record dg : Type := mkDg { d_idsize : N; d_md : option (list N); d_link : N; d_cgs : list cg }.

Definition ty_dg : list N := [35; 35; 68; 71].

(** dg4block.cpp:112-131 Write of a new block without data blocks (132-149, the links of VLSD and
    default X channels, are not modelled). *)
Definition write_dg (d : dg) (f : file) : res (file * nat) :=
  let* '(f, l1) := write_chain write_cg None (d_cgs d) f in
  let* '(f, l3) := write_md (d_md d) f in
  let* '(f, b) := write_block4 ty_dg 64 [0; l1; d_link d; l3]
      (fields_bytes [(1%nat, d_idsize d); (7%nat, 0)]) f in
  Ok (f, b_pos b).

(** dg4block.cpp:100-110 Read, 200-202 ReadCgList; also link 0. *)
Definition read_dg (fuel : nat) (f : file) (pos : nat) : res (dg * N) :=
  let* '(b, p) := read_header4 f pos in
  let* '(vs, p) := read_seq [1; 7]%nat f p in
  let* 'md := read_md f (link b 3) in
  let* 'cgs := read_chain (read_cg fuel) fuel f (link b 1) in
  Ok (mkDg (nth 0 vs 0) md (link b 2) cgs, link b 0).

(* ------------------------------------------------------------------ *)
(** ** FH, AT, CH, EV *)

(** Mdf4Timestamp as stored: time, zone and DST offsets, flags (mdf4timestamp.cpp:24-45). *)
Record stamp4 : Type := mkStamp4 { t_ns : N; t_tz : N; t_dst : N; t_flags : N }.
Definition stamp_fields (t : stamp4) : list (nat * N) :=
  [(8%nat, t_ns t); (2%nat, t_tz t); (2%nat, t_dst t); (1%nat, t_flags t)].

Record fh : Type := mkFh { f_time : stamp4; f_md : option (list N) }.

Definition ty_fh : list N := [35; 35; 70; 72].

(** fh4block.cpp:43-59 Write: the comment is written after the block and its link updated. *)
Definition write_fh (h : fh) (f : file) : res (file * nat) :=
  let* '(f, b) := write_block4 ty_fh 56 [0; 0]
      (fields_bytes (stamp_fields (f_time h) ++ [(3%nat, 0)])) f in
  let* '(f, l1) := write_md (f_md h) f in
  let* '(f, b) := update_link4 b 1 l1 f in
  Ok (f, b_pos b).

(** fh4block.cpp:35-41 Read; also link 0. *)
Definition read_fh (f : file) (pos : nat) : res (fh * N) :=
  let* '(b, p) := read_header4 f pos in
  let* '(vs, p) := read_seq [8; 2; 2; 1]%nat f p in
  let* 'md := read_md f (link b 1) in
  Ok (mkFh (mkStamp4 (nth 0 vs 0) (nth 1 vs 0) (nth 2 vs 0) (nth 3 vs 0)) md, link b 0).

(** An attachment whose file has been read in (at4block.cpp:172-203): [x_data] is data_buffer_. *)
Record at4 : Type := mkAt {
  x_flags : N; x_creator : N; x_md5 : list N; x_size : N; x_data : list N;
  x_name : list N; x_type : list N; x_md : option (list N)
}.

Definition ty_at : list N := [35; 35; 65; 84].

(** at4block.cpp:204-230 Write. *)
Definition write_at (a : at4) (f : file) : res (file * nat) :=
  let n := N.of_nat (length (x_data a)) in
  let* '(f, l1) := write_tx (x_name a) f in
  let* '(f, l2) := write_tx (x_type a) f in
  let* '(f, l3) := write_md (x_md a) f in
  let* '(f, b) := write_block4 ty_at (96 + n) [0; l1; l2; l3]
      (fields_bytes [(2%nat, x_flags a); (2%nat, x_creator a); (4%nat, 0)]
       ++ (if (length (x_md5 a) =? 16)%nat then x_md5 a else repeat 0 16)
       ++ fields_bytes [(8%nat, x_size a); (8%nat, n)] ++ x_data a) f in
  Ok (f, b_pos b).

(** at4block.cpp:146-164 Read, then 272-282 ReadData of embedded, uncompressed data; also link 0. *)
Definition read_at (f : file) (pos : nat) : res (at4 * N) :=
  let* '(b, p) := read_header4 f pos in
  let* '(vs, p) := read_seq [2; 2; 4]%nat f p in
  let md5 := slice p 16 f in
  if (length md5 <? 16)%nat then Fail
  else
    let* '(ws, q) := read_seq [8; 8]%nat f (p + 16) in
    let* 'name := read_tx f (link b 1) in
    let* 'type := read_tx f (link b 2) in
    let* 'md := read_md f (link b 3) in
    let n := N.to_nat (nth 1 ws 0) in
    let data := slice q n f in
    if (length data <? n)%nat then Fail
    else Ok (mkAt (nth 0 vs 0) (nth 1 vs 0) md5 (nth 0 ws 0) data name type md, link b 0).

(** ch4block.h: name, type, elements (positions of DG, CG, CN) and children. *)
Inductive ch : Type :=
  mkCh (name : list N) (type : N) (md : option (list N)) (elements : list triple) (subs : list ch).

Definition ty_ch : list N := [35; 35; 67; 72].

(** ch4block.cpp:67-101 Write of a new block: element [k] is stored in the links 4 + 3 k. *)
Fixpoint write_ch (c : ch) (f : file) {struct c} : res (file * nat) :=
  match c with
  | mkCh name type md elements subs =>
      let n := N.of_nat (length elements) in
      let* '(f, l2) := write_tx name f in
      let* '(f, l3) := write_md md f in
      let* '(f, l1) := write_chain write_ch None subs f in
      let* '(f, b) := write_block4 ty_ch (w64 (24 + (4 + n * 3) * 8 + 12))
          ([0; l1; l2; l3] ++ flat3 elements)
          (fields_bytes [(4%nat, n); (1%nat, type); (3%nat, 0)]) f in
      Ok (f, b_pos b)
  end.

(** ch4block.cpp:53-65 Read and 148-174 FindReferencedBlocks: element [k] is taken from the links
    5 + 3 k, as long as the first one exists; also link 0. *)
Fixpoint read_ch (fuel : nat) (f : file) (pos : nat) {struct fuel} : res (ch * N) :=
  match fuel with
  | O => UB
  | S k =>
      let* '(b, p) := read_header4 f pos in
      let* '(vs, p) := read_seq [4; 1; 3]%nat f p in
      let* 'name := read_tx f (link b 2) in
      let* 'md := read_md f (link b 3) in
      let* 'subs := read_chain (read_ch k) k f (link b 1) in
      let idx := filter (fun i => (5 + 3 * i <? length (b_links b))%nat)
                        (seq 0 (N.to_nat (nth 0 vs 0))) in
      Ok (mkCh name (nth 1 vs 0) md (map (fun i => triple_at b (5 + 3 * i)) idx) subs, link b 0)
  end.

Record ev : Type := mkEv {
  e_type : N; e_sync : N; e_range : N; e_cause : N; e_flags : N;
  e_creator : N; e_base : N; e_factor : N;
  e_parent : N; e_begin : N;                (* positions of parent_event_ and range_event_ *)
  e_scope : list N; e_attach : list N;      (* positions *)
  e_name : list N; e_group : list N; e_md : option (list N)
}.

Definition ty_ev : list N := [35; 35; 69; 86].

(** ev4block.cpp:170-224 Write. *)
Definition write_ev (e : ev) (f : file) : res (file * nat) :=
  let m := w32 (N.of_nat (length (e_scope e))) in
  let n := w16 (N.of_nat (length (e_attach e))) in
  let group := match e_group e with [] => false | _ => true end in
  let flags := if group then N.lor (e_flags e) 2 else e_flags e in
  if (N.to_nat m <? length (e_scope e))%nat || (N.to_nat n <? length (e_attach e))%nat then UB
  else
    let* '(f, l3) := write_tx (e_name e) f in
    let* '(f, lg) := write_tx (e_group e) f in
    let* '(f, l4) := write_md (e_md e) f in
    let* '(f, b) := write_block4 ty_ev (24 + (5 + m + n) * 8 + 32)
        ([0; e_parent e; e_begin e; l3; l4] ++ e_scope e ++ e_attach e ++ (if group then [lg] else []))
        (fields_bytes [(1%nat, e_type e); (1%nat, e_sync e); (1%nat, e_range e); (1%nat, e_cause e);
                       (1%nat, flags); (3%nat, 0); (4%nat, m); (2%nat, n);
                       (2%nat, e_creator e); (8%nat, e_base e); (8%nat, e_factor e)]) f in
    Ok (f, b_pos b).

(** ev4block.cpp:145-168 Read, 312-332 FindReferencedBlocks; also link 0. *)
Definition read_ev (f : file) (pos : nat) : res (ev * N) :=
  let* '(b, p) := read_header4 f pos in
  let* '(vs, p) := read_seq [1; 1; 1; 1; 1; 3; 4; 2; 2; 8; 8]%nat f p in
  let v := fun i => nth i vs 0 in
  let m := N.to_nat (v 6%nat) in
  let n := N.to_nat (v 7%nat) in
  let* 'name := read_tx f (link b 3) in
  let* 'group := (if (5 + m + n <? length (b_links b))%nat then read_tx f (link b (5 + m + n)) else Ok []) in
  let* 'md := read_md f (link b 4) in
  let among := fun i k => map (link b) (filter (fun j => (j <? length (b_links b))%nat) (seq i k)) in
  Ok (mkEv (v 0%nat) (v 1%nat) (v 2%nat) (v 3%nat) (v 4%nat) (v 8%nat) (v 9%nat) (v 10%nat)
        (link b 1) (link b 2) (among 5 m)%nat (among (5 + m) n)%nat name group md,
      link b 0).

(* ------------------------------------------------------------------ *)
(** ** HD *)

Record hd : Type := mkHd {
  h_time : stamp4; h_class : N; h_flags : N; h_angle : N; h_distance : N;
  h_md : option (list N);
  h_fhs : list fh; h_ats : list at4; h_chs : list ch; h_evs : list ev; h_dgs : list dg
}.

Definition ty_hd : list N := [35; 35; 72; 68].

Definition hd_fields (h : hd) : list (nat * N) :=
  stamp_fields (h_time h)
  ++ [(1%nat, h_class h); (1%nat, h_flags h); (1%nat, 0); (8%nat, h_angle h); (8%nat, h_distance h)].

(** hd4block.cpp:510-540 Write of a new block, up to the list of data groups. *)
Definition write_hd_head (h : hd) (f : file) : res (file * blk) :=
  let* '(f, b) := write_block4 ty_hd 104 [0; 0; 0; 0; 0; 0] (fields_bytes (hd_fields h)) f in
  let* '(f, l) := write_chain write_fh None (h_fhs h) f in
  let* '(f, b) := update_link4 b 1 l f in
  let* '(f, l) := write_md (h_md h) f in
  let* '(f, b) := update_link4 b 5 l f in
  let* '(f, l) := write_chain write_at None (h_ats h) f in
  let* '(f, b) := update_link4 b 3 l f in
  let* '(f, l) := write_chain write_ch None (h_chs h) f in
  let* '(f, b) := update_link4 b 2 l f in
  let* '(f, l) := write_chain write_ev None (h_evs h) f in
  update_link4 b 4 l f.

(** hd4block.cpp:541-546, the rest. *)
Definition write_hd (h : hd) (f : file) : res (file * blk) :=
  let* '(f, b) := write_hd_head h f in
  let* '(f, l) := write_chain write_dg None (h_dgs h) f in
  update_link4 b 0 l f.

(** hd4block.cpp:177-194 Read, 196-208 ReadMeasurementInfo, 210-300 ReadEverythingButData. *)
Definition read_hd (fuel : nat) (f : file) (pos : nat) : res hd :=
  let* '(b, p) := read_header4 f pos in
  let* '(vs, p) := read_seq [8; 2; 2; 1; 1; 1; 1; 8; 8]%nat f p in
  let v := fun i => nth i vs 0 in
  let* 'fhs := read_chain read_fh fuel f (link b 1) in
  let* 'md := read_md f (link b 5) in
  let* 'dgs := read_chain (read_dg fuel) fuel f (link b 0) in
  let* 'ats := read_chain read_at fuel f (link b 3) in
  let* 'chs := read_chain (read_ch fuel) fuel f (link b 2) in
  let* 'evs := read_chain read_ev fuel f (link b 4) in
  Ok (mkHd (mkStamp4 (v 0%nat) (v 1%nat) (v 2%nat) (v 3%nat)) (v 4%nat) (v 5%nat) (v 7%nat) (v 8%nat)
        md fhs ats chs evs dgs).
