(** Model of the block layer: mdflib/src/mdfblock.cpp and mdfblock.h (numbers, strings, block
    headers, links, lists), mdflib/src/tx4block.cpp, mdflib/src/tx3block.cpp.

    A file is the list of its bytes; every read and write function takes the stream position and
    returns the new one. Exceptions (ios_base::failure, runtime_error) are [Fail].

    Simplifications: writing and seeking never fail; a write beyond the end fills the gap with
    zero bytes; positions are natural numbers, links are 64-bit patterns (a link counts as
    positive when its sign bit is clear and it is not zero). *)
From Verif Require Import Base.
Local Open Scope N_scope.

Definition file := list N.

(** sputn at a stream position. *)
Definition put (f : file) (pos : nat) (bs : list N) : file :=
  firstn pos f ++ repeat 0 (pos - length f) ++ bs ++ skipn (pos + length bs) f.

(** mdfblock.h:377-401 ReadNumber of an unsigned type of [k] bytes; [big] is IsBigEndian(). *)
Definition read_num (big : bool) (k : nat) (f : file) (pos : nat) : res (N * nat) :=
  let bs := slice pos k f in
  if (length bs <? k)%nat then Fail
  else Ok (if big then be_num bs else le_num bs, (pos + k)%nat).

(** mdfblock.h:403-421 WriteNumber. *)
Definition num_bytes (big : bool) (k : nat) (v : N) : list N :=
  if big then be_bytes k v else le_bytes k v.

(** std::isspace in the C locale. *)
Definition is_space (c : N) : bool := ((9 <=? c) && (c <=? 13)) || (c =? 32).

(** mdfhelper.cpp:24-28 LTrim. *)
Fixpoint ltrim (s : list N) : list N :=
  match s with
  | c :: r => if is_space c then ltrim r else s
  | [] => []
  end.

(** mdfhelper.cpp:30-35 RTrim and 223-226 MdfHelper::Trim. *)
Definition rtrim (s : list N) : list N := rev (ltrim (rev s)).
Definition trim (s : list N) : list N := rtrim (ltrim s).

(** mdfblock.cpp:230-241, the loop of ReadStr: the characters and the number of positions used up.
    At the end of the file sbumpc returns EOF (-1), which is stored as character 255 and does not
    move the position. *)
Fixpoint read_chars (n : nat) (f : file) (pos : nat) : list N * nat :=
  match n with
  | O => ([], O)
  | S k =>
      match nth_error f pos with
      | Some 0 => ([], 1%nat)
      | Some c => let '(s, used) := read_chars k f (S pos) in (c :: s, S used)
      | None => let '(s, used) := read_chars k f pos in (255 :: s, S used)
      end
  end.

(** mdfblock.cpp:230-248 ReadStr. The position after it is exact only inside the file; behind the
    end of the file nothing is read from it any more. *)
Definition read_str (n : nat) (f : file) (pos : nat) : list N * nat :=
  (trim (fst (read_chars n f pos)), (pos + n)%nat).

(** mdfblock.cpp:250-256 WriteStr. *)
Definition str_bytes (n : nat) (s : list N) : list N := firstn n (s ++ repeat 0 n).

(* ------------------------------------------------------------------ *)
(** ** Block headers *)

(** The part of MdfBlock that is stored. [b_pos] = file_position_ (0: not written). *)
Record blk : Type := mkB {
  b_pos : nat;
  b_type : list N;
  b_len : N;
  b_links : list N
}.

(** Link(ii), mdfblock.h:139-141. *)
Definition link (b : blk) (i : nat) : N := nth i (b_links b) 0.

(** The test [link > 0] on an int64_t. *)
Definition pos64 (l : N) : bool := (0 <? l) && (l <? 2 ^ 63).

(** mdfblock.cpp:436-454 ReadHeader4, the link loop. *)
Fixpoint read_links (big : bool) (k : nat) (n : nat) (f : file) (pos : nat) : res (list N * nat) :=
  match n with
  | O => Ok ([], pos)
  | S m => bind (read_num big k f pos) (fun '(l, p) =>
           bind (read_links big k m f p) (fun '(ls, p') => Ok (l :: ls, p')))
  end.

(** mdfblock.cpp:436-454 ReadHeader4. *)
Definition read_header4 (f : file) (pos : nat) : res (blk * nat) :=
  let '(ty, p) := read_str 4 f pos in
  bind (read_num false 4 f p) (fun '(_, p) =>
  bind (read_num false 8 f p) (fun '(len, p) =>
  bind (read_num false 8 f p) (fun '(cnt, p) =>
  bind (read_links false 8 (N.to_nat cnt) f p) (fun '(ls, p) =>
  Ok (mkB pos ty len ls, p))))).

(** mdfblock.cpp:699-713 SetLastFilePosition: the end of the file, for MDF4 after filling to a
    multiple of eight. *)
Definition pad8 (n : nat) : nat := ((8 - n mod 8) mod 8)%nat.
Definition align (f : file) : file := f ++ repeat 0 (pad8 (length f)).

(** mdfblock.cpp:626-636 Write, the bytes of an MDF4 header. *)
Definition header_bytes (ty : list N) (len : N) (links : list N) : list N :=
  str_bytes 4 ty ++ repeat 0 4 ++ le_bytes 8 len ++ le_bytes 8 (N.of_nat (length links))
  ++ concat (map (le_bytes 8) links).

(** mdfblock.cpp:622-636 MdfBlock::Write of an MDF4 block: file, block and position after it. *)
Definition write_header4 (b : blk) (f : file) : file * blk * nat :=
  let f := align f in
  let pos := length f in
  let h := header_bytes (b_type b) (b_len b) (b_links b) in
  (put f pos h, mkB pos (b_type b) (b_len b) (b_links b), (pos + length h)%nat).

(** mdfblock.cpp:757-768 UpdateBlockSize, MDF4. *)
Definition update_size4 (b : blk) (bytes : N) (f : file) : res (file * blk) :=
  if (b_pos b =? 0)%nat then Fail
  else if b_len b =? bytes then Ok (f, b)
  else Ok (put f (b_pos b + 8) (le_bytes 8 bytes), mkB (b_pos b) (b_type b) bytes (b_links b)).

Fixpoint set_nth (l : list N) (i : nat) (v : N) : list N :=
  match l, i with
  | [], _ => []
  | _ :: r, O => v :: r
  | x :: r, S k => x :: set_nth r k v
  end.

(** mdfblock.cpp:731-755 UpdateLink, MDF4. *)
Definition update_link4 (b : blk) (i : nat) (l : N) (f : file) : res (file * blk) :=
  if (length (b_links b) <=? i)%nat then Fail
  else if l =? link b i then Ok (f, b)
  else
    Ok (if (0 <? b_pos b)%nat then put f (b_pos b + 24 + 8 * i) (le_bytes 8 l) else f,
        mkB (b_pos b) (b_type b) (b_len b) (set_nth (b_links b) i l)).

(** The Write functions of the blocks: header, the block's own fields [body], then the size
    (e.g. tx4block.cpp:77-91, hl4block.cpp:70-76, dz4block.cpp:65-77). [len] is the length set
    before the header is written. *)
Definition write_block4 (ty : list N) (len : N) (links body : list N) (f : file)
  : res (file * blk) :=
  let '(f, b, p) := write_header4 (mkB 0 ty len links) f in
  let f := put f p body in
  update_size4 b (N.of_nat (24 + 8 * length links + length body)) f.

(* ------------------------------------------------------------------ *)
(** ** MDF3 headers *)

(** mdfblock.cpp:413-434 ReadHeader3 and ReadLinks3. *)
Definition read_header3 (big : bool) (nlinks : nat) (f : file) (pos : nat) : res (blk * nat) :=
  let '(ty, p) := read_str 2 f pos in
  if match ty with [a; b] => (a =? 35) && (b =? 35) | _ => false end
  then Fail                               (* "##": an MDF4 header *)
  else
    bind (read_num big 2 f p) (fun '(len, p) =>
    bind (read_links big 4 nlinks f p) (fun '(ls, p) => Ok (mkB pos ty len ls, p))).

(** mdfblock.cpp:637-645 Write, the bytes of an MDF3 header. *)
Definition header3_bytes (big : bool) (ty : list N) (size : N) (links : list N) : list N :=
  str_bytes 2 ty ++ num_bytes big 2 size ++ concat (map (fun l => num_bytes big 4 (w32 l)) links).

(** mdfblock.cpp:622-646 MdfBlock::Write of an MDF3 block. *)
Definition write_header3 (big : bool) (b : blk) (f : file) : file * blk * nat :=
  let pos := length f in
  let h := header3_bytes big (b_type b) (b_len b) (b_links b) in
  (put f pos h, mkB pos (b_type b) (b_len b) (b_links b), (pos + length h)%nat).

(** mdfblock.cpp:769-777 UpdateBlockSize, MDF3: a 16-bit size compared with the 32-bit length. *)
Definition update_size3 (big : bool) (b : blk) (bytes : N) (f : file) : res (file * blk) :=
  if (b_pos b =? 0)%nat then Fail
  else if b_len b =? w32 bytes then Ok (f, b)
  else Ok (put f (b_pos b + 2) (num_bytes big 2 (w16 bytes)),
           mkB (b_pos b) (b_type b) (w16 bytes) (b_links b)).

(** mdfblock.cpp:731-755 UpdateLink, MDF3. *)
Definition update_link3 (big : bool) (b : blk) (i : nat) (l : N) (f : file) : res (file * blk) :=
  if (length (b_links b) <=? i)%nat then Fail
  else if l =? link b i then Ok (f, b)
  else
    Ok (if (0 <? b_pos b)%nat then put f (b_pos b + 4 + 4 * i) (num_bytes big 4 (w32 l)) else f,
        mkB (b_pos b) (b_type b) (b_len b) (set_nth (b_links b) i l)).

(* ------------------------------------------------------------------ *)
(** ** Text blocks *)

Definition ty_tx : list N := [35; 35; 84; 88].
Definition ty_md : list N := [35; 35; 77; 68].

(** tx4block.cpp:77-91 Tx4Block::Write of a block not yet written. *)
Definition write_tx4 (text : list N) (f : file) : res (file * blk) :=
  let is_xml := match text with 60 :: _ => true | _ => false end in
  write_block4 (if is_xml then ty_md else ty_tx) 0 [] (text ++ [0]) f.

(** tx4block.cpp:71-75 Tx4Block::Read. *)
Definition read_tx4 (f : file) (pos : nat) : res (list N) :=
  bind (read_header4 f pos) (fun '(b, p) =>
  let n := w64 (b_len b + (2 ^ 64 - N.of_nat (24 + 8 * length (b_links b)))) in
  Ok (fst (read_str (N.to_nat n) f p))).

(** tx4block.cpp:93-97 Tx4Block::Text; ReadTx4 (mdfblock.cpp:551-560) returns it. *)
Definition tx4_text (f : file) (pos : nat) : res (list N) :=
  bind (read_tx4 f pos) (fun t => Ok (trim t)).

(** tx3block.cpp:30-43 Tx3Block::Write: the 16-bit size is not updated afterwards. *)
Definition write_tx3 (big : bool) (text : list N) (f : file) : file * nat :=
  let '(f, b, p) := write_header3 big (mkB 0 [84; 88] (w16 (N.of_nat (4 + length text + 1))) []) f in
  (put f p (text ++ [0]), b_pos b).

(** tx3block.cpp:18-28 Tx3Block::Read and Text. *)
Definition tx3_text (big : bool) (f : file) (pos : nat) : res (list N) :=
  bind (read_header3 big 0 f pos) (fun '(b, p) =>
  let n := w64 (b_len b + (2 ^ 64 - 4)) in
  Ok (trim (fst (read_str (N.to_nat n) f p)))).

(* ------------------------------------------------------------------ *)
(** ** Lists of blocks *)

(** A child block in memory: its stored part, its own fields, and what its Write appends to the
    file after them (its own children, texts, ...). *)
Record child : Type := mkChild { c_blk : blk; c_body : list N; c_tail : list N }.

(** Write of a child: appended if new, otherwise its fields are rewritten in place. *)
Definition write_child (c : child) (f : file) : res (file * child) :=
  let b := c_blk c in
  if (0 <? b_pos b)%nat
  then Ok (put f (b_pos b + 24 + 8 * length (b_links b)) (c_body c), c)
  else bind (write_block4 (b_type b) (b_len b) (b_links b) (c_body c) f) (fun '(f, b) =>
       Ok (f ++ c_tail c, mkChild b (c_body c) (c_tail c))).

Inductive upd_option : Type := NotWritten | OnlyLast | AllBlocks.

(** mdfblock.h:448-478 WriteLink4List: [prev] is the block before the current one (or [None] for
    the first, whose link is kept in the parent). *)
Fixpoint write_list (opt : upd_option) (li : nat) (parent : blk) (done rest : list child) (f : file)
  : res (file * blk * list child) :=
  match rest with
  | [] => Ok (f, parent, done)
  | c :: r =>
      let written := (0 <? b_pos (c_blk c))%nat in
      let last := match r with [] => true | _ => false end in
      let need := negb written
                  || match opt with AllBlocks => true | _ => false end
                  || (written && last && match opt with OnlyLast => true | _ => false end) in
      if need then
        bind (write_child c f) (fun '(f, c) =>
        match rev done with
        | [] =>
            bind (update_link4 parent li (N.of_nat (b_pos (c_blk c))) f) (fun '(f, parent) =>
            write_list opt li parent (done ++ [c]) r f)
        | p :: dp =>
            bind (update_link4 (c_blk p) 0 (N.of_nat (b_pos (c_blk c))) f) (fun '(f, pb) =>
            write_list opt li parent (rev dp ++ [mkChild pb (c_body p) (c_tail p); c]) r f)
        end)
      else write_list opt li parent (done ++ [c]) r f
  end.

(** mdfblock.h:423-436 ReadLink4List, of the headers. [None]: the loop has not ended within
    [fuel] blocks. *)
Fixpoint read_list (fuel : nat) (f : file) (l : N) : option (res (list (blk * nat))) :=
  match fuel with
  | O => None
  | S k =>
      if pos64 l then
        match read_header4 f (N.to_nat l) with
        | Ok (b, p) =>
            match read_list k f (link b 0) with
            | Some (Ok bs) => Some (Ok ((b, p) :: bs))
            | x => x
            end
        | Fail => Some Fail
        | UB => Some UB
        end
      else Some (Ok [])
  end.
