(** Model of attachments with the files around them: At4Block::Write with the file it attaches
    (at4block.cpp:166-229, zlibutil.cpp:79-139, cryptoutil.cpp:244-284), the list of attachments in
    InitMeasurement (mdfblock.h:448-478), Read (at4block.cpp:146-164), ExportAttachmentData to a file
    and to a stream (mdfreader.cpp:476-532, at4block.cpp:235-295) and CopyFrom (329-350). The block in
    the file is [write_at] of MetaModel.v, the checksum [md5_checksum] of Md5Model.v.

    Simplifications: a path is its text, and a file is there and can be read and written, or it is
    not there; the file with the measurement is not among them. zlib is a parameter: what it
    compresses to, and what it makes of the bytes of a stream, with whether it has met the end of the
    stream. *)
From Verif Require Import Base BlockModel MetaModel IdentModel QueueModel MeasModel Md5Model.
Local Open Scope N_scope.

Definition path := list N.
Definition fsys := path -> option (list N).

Definition bytes_eqb (x y : list N) : bool := if list_eq_dec N.eq_dec x y then true else false.

(** The files after [p] has been written. *)
Definition store (fs : fsys) (p : path) (bytes : list N) : fsys :=
  fun q => if bytes_eqb q p then Some bytes else fs q.

(** cryptoutil.cpp:257-264: the pieces that fread returns, of at most 10000 bytes. *)
Fixpoint pieces (fuel : nat) (l : list N) : list (list N) :=
  match fuel, l with
  | S k, _ :: _ => firstn 10000 l :: pieces k (skipn 10000 l)
  | _, _ => []
  end.

(** cryptoutil.cpp:244-284 CreateMd5FileChecksum of a file that is there. *)
Definition file_md5 (content : list N) : res (list N) := md5_checksum (pieces (length content) content).

(** at4block.h At4Flags. *)
Definition embedded (flags : N) : bool := N.testbit flags 0.
Definition compressed (flags : N) : bool := N.testbit flags 1.
Definition with_md5 (flags : N) : bool := N.testbit flags 2.

(** at4block.cpp:215-219: a checksum that is not 16 bytes is stored as zeros. *)
Definition stored_md5 (sum : list N) : list N := if (length sum =? 16)%nat then sum else repeat 0 16.

Section Zlib.
Context (deflate : list N -> list N) (inflate : list N -> list N * bool).

(** zlibutil.cpp:79-106, 108-139 Deflate of a file into an empty buffer: room for as many bytes as
    the file has, and for 100 at least. [None]: it returns false. *)
Definition deflate_file (content : list N) : option (list N) :=
  match content with
  | [] => None
  | _ => if (length (deflate content) <=? Nat.max (length content) 100)%nat then Some (deflate content) else None
  end.

(** at4block.cpp:171-201. [None]: Write returns 0. *)
Definition load (fs : fsys) (a : at4) : res (option at4) :=
  if x_size a =? 0 then
    match fs (x_name a) with
    | None => Ok (Some (mkAt (x_flags a) (x_creator a) (stored_md5 (x_md5 a)) 0 (x_data a) (x_name a) (x_type a) (x_md a)))
    | Some content =>
        let* 'sum := file_md5 content in
        let flags := N.lor (x_flags a) 4 in
        let data :=
          if embedded flags && compressed flags then deflate_file content
          else if embedded flags then Some content
          else Some (x_data a) in
        match data with
        | None => Ok None
        | Some data => Ok (Some (mkAt flags (x_creator a) sum (N.of_nat (length content)) data (x_name a) (x_type a) (x_md a)))
        end
    end
  else Ok (Some (mkAt (x_flags a) (x_creator a) (stored_md5 (x_md5 a)) (x_size a) (x_data a) (x_name a) (x_type a) (x_md a))).

(** mdfblock.h:448-478 WriteLink4List of new attachments: [prev] is the block before, with its
    position or, when it has not been written, without; link 0 of such a block does not exist
    (mdfblock.cpp:731-734). Also the attachments that have been written. *)
Fixpoint write_atts (fs : fsys) (prev : option (option nat)) (xs : list at4) (f : file) {struct xs}
  : res (file * N * list at4) :=
  match xs with
  | [] => Ok (f, 0, [])
  | x :: r =>
      let* 'y := load fs x in
      match y with
      | Some a =>
          let* '(f, pos) := write_at a f in
          let* 'f := match prev with
                     | None => Ok f
                     | Some None => Fail
                     | Some (Some q) => Ok (put f (q + 24) (le_bytes 8 (N.of_nat pos)))
                     end in
          let* '(f, _, done) := write_atts fs (Some (Some pos)) r f in
          Ok (f, N.of_nat pos, a :: done)
      | None =>
          match prev with
          | Some None => Fail
          | _ =>
              let* '(f, _, done) := write_atts fs (Some None) r f in
              Ok (f, 0, done)
          end
      end
  end.

Definition set_ats (ats : list at4) (h : hd) : hd :=
  mkHd (h_time h) (h_class h) (h_flags h) (h_angle h) (h_distance h) (h_md h) (h_fhs h) ats (h_chs h)
    (h_evs h) (h_dgs h).

(** hd4block.cpp:510-546 Write of a new block (as [write_hd] of MetaModel.v), with the files that are
    attached; also the header as it is in the file. *)
Definition write_hd_fs (fs : fsys) (h : hd) (f : file) : res (file * blk * hd) :=
  let* '(f, b) := write_block4 ty_hd 104 [0; 0; 0; 0; 0; 0] (fields_bytes (hd_fields h)) f in
  let* '(f, l) := write_chain write_fh None (h_fhs h) f in
  let* '(f, b) := update_link4 b 1 l f in
  let* '(f, l) := write_md (h_md h) f in
  let* '(f, b) := update_link4 b 5 l f in
  let* '(f, l, done) := write_atts fs None (h_ats h) f in
  let* '(f, b) := update_link4 b 3 l f in
  let* '(f, l) := write_chain write_ch None (h_chs h) f in
  let* '(f, b) := update_link4 b 2 l f in
  let* '(f, l) := write_chain write_ev None (h_evs h) f in
  let* '(f, b) := update_link4 b 4 l f in
  let* '(f, l) := write_chain write_dg None (h_dgs h) f in
  let* '(f, b) := update_link4 b 0 l f in
  Ok (f, b, set_ats done h).

(** mdfwriter.cpp:243-277 InitMeasurement of a new file. *)
Definition init_meas_fs (fs : fsys) (i : idb) (h : hd) : res meas :=
  let* '(f, b, h') := write_hd_fs fs h (write_id false i []) in
  Ok (mkM f h' (b_pos b) (hd_places h' (write_id false i [])) []).

(* ------------------------------------------------------------------ *)
(** ** The reader *)

(** An attachment as it is read: the data stays in the file. *)
Record ath : Type := mkAh {
  k_flags : N; k_creator : N; k_md5 : list N; k_size : N; k_bytes : N; k_pos : nat;
  k_name : list N; k_type : list N; k_md : option (list N)
}.

(** at4block.cpp:146-164 Read; also link 0. *)
Definition read_head (f : file) (pos : nat) : res (ath * N) :=
  let* '(b, p) := read_header4 f pos in
  let* '(vs, p) := read_seq [2; 2; 4]%nat f p in
  let md5 := slice p 16 f in
  if (length md5 <? 16)%nat then Fail
  else
    let* '(ws, q) := read_seq [8; 8]%nat f (p + 16) in
    let* 'name := read_tx f (link b 1) in
    let* 'type := read_tx f (link b 2) in
    let* 'md := read_md f (link b 3) in
    Ok (mkAh (nth 0 vs 0) (nth 1 vs 0) md5 (nth 0 ws 0) (nth 1 ws 0) q name type md, link b 0).

(** hd4block.cpp:177-208: the HD block and its list of attachments. *)
Definition attachments (fuel : nat) (f : file) : res (list ath) :=
  let* '(b, _) := read_header4 f 64 in
  read_chain read_head fuel f (link b 3).

(** at4block.cpp:322-327 Md5, 59-66. *)
Definition md5_text (k : ath) : option (list N) :=
  if with_md5 (k_flags k)
  then Some (flat_map (fun b => [hex_digit (b / 16); hex_digit (b mod 16)]) (k_md5 k))
  else None.

(** at4block.cpp:50-57 CopyBytes: sbumpc returns -1 after the end of the file, and (uint8_t)-1 is
    255. *)
Definition copy_bytes (f : file) (p n : nat) : list N := map (fun i => nth (p + i) f 255) (seq 0 n).

(** zlibutil.cpp:196-260 Inflate of [n] bytes from [p]: what it has written and what it returns. *)
Definition inflate_bytes (f : file) (p n : nat) : list N * bool :=
  match slice p n f with
  | [] => ([], false)
  | bytes => inflate bytes
  end.

(** The bytes of an embedded attachment (at4block.cpp:248-249, 279-280). *)
Definition embedded_bytes (f : file) (k : ath) : list N * bool :=
  if compressed (k_flags k) then inflate_bytes f (k_pos k) (N.to_nat (k_bytes k))
  else (copy_bytes f (k_pos k) (N.to_nat (k_bytes k)), true).

(** at4block.cpp:263-269: the checksum of the file that has been written. *)
Definition check_md5 (k : ath) (bytes : list N) : bool :=
  if with_md5 (k_flags k)
  then match file_md5 bytes with Ok sum => bytes_eqb sum (k_md5 k) | _ => false end
  else true.

(** mdfreader.cpp:476-503 ExportAttachmentData to a file, at4block.cpp:235-270: the files afterwards
    and the result. *)
Definition export_file (fs : fsys) (f : file) (k : ath) (dest : path) : fsys * bool :=
  if embedded (k_flags k) then
    let '(bytes, ok) := embedded_bytes f k in
    (store fs dest bytes, ok && check_md5 k bytes)
  else
    match fs (k_name k) with
    | None =>
        (* nothing is copied onto itself; the checksum of a file that is not there is 16 times 255 *)
        (fs, bytes_eqb (k_name k) dest && (negb (with_md5 (k_flags k)) || bytes_eqb (repeat 255 16) (k_md5 k)))
    | Some bytes =>
        (if bytes_eqb (k_name k) dest then fs else store fs dest bytes, check_md5 k bytes)
    end.

(** mdfreader.cpp:505-532 ExportAttachmentData to a stream, at4block.cpp:272-295. *)
Definition export_stream (fs : fsys) (f : file) (k : ath) : list N * bool :=
  if embedded (k_flags k) then embedded_bytes f k
  else match fs (k_name k) with None => ([], false) | Some bytes => (bytes, true) end.

(** at4block.cpp:329-350 CopyFrom, mdfreader.cpp:567-592 ReadInDataBuffer (a file that ends too early
    leaves zeros); the comment goes through the comment classes and is [md] afterwards. *)
Definition copy_at (f : file) (k : ath) (md : option (list N)) : at4 :=
  let got := slice (k_pos k) (N.to_nat (k_bytes k)) f in
  mkAt (k_flags k) (k_creator k) (k_md5 k) (k_size k)
    (got ++ repeat 0 (N.to_nat (k_bytes k) - length got)) (k_name k) (k_type k) md.

End Zlib.
