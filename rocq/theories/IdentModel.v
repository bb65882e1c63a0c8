(** Model of the identification block of a file (mdflib/src/idblock.cpp), of the file as a whole
    (mdflib/src/mdf4file.cpp Write, ReadHeader and IsFinalized) and of the recognition of MDF files
    (mdflib/src/mdfreader.cpp IsMdfFile, VerifyMdfFile).

    Simplification: the header of a MDF3 file is not part of this file. *)
From Verif Require Import Base BlockModel MetaModel.
Local Open Scope N_scope.

(** idblock.h:35-47, byte_order_ and version_ of MdfBlock. *)
Record idb : Type := mkId {
  i_file : list N; i_format : list N; i_program : list N;
  i_order : N; i_float : N; i_version : N; i_code : N; i_standard : N; i_custom : N
}.

Definition txt_mdf : list N := [77; 68; 70; 32; 32; 32; 32; 32].            (* "MDF     " *)
Definition txt_unfin : list N := [85; 110; 70; 105; 110; 77; 70; 32].       (* "UnFinMF " *)
Definition txt_program : list N := [77; 100; 102; 87; 114; 105; 116; 101].  (* "MdfWrite" *)

(** idblock.h: the values of a new block. *)
Definition new_id : idb := mkId txt_mdf [52; 46; 50; 48] txt_program 0 0 420 0 0 0.

(** idblock.cpp:143-153 SetDefaultMdf3Values. *)
Definition new_id3 : idb := mkId txt_mdf [51; 46; 51; 48] txt_program 0 0 330 65001 0 0.

(** mdfblock.cpp:371. *)
Definition big_endian (order : N) : bool := negb (order =? 0).

Definition id_bytes (d : idb) : list N :=
  let n := num_bytes (big_endian (i_order d)) 2 in
  str_bytes 8 (i_file d) ++ str_bytes 8 (i_format d) ++ str_bytes 8 (i_program d)
  ++ n (i_order d) ++ n (i_float d) ++ n (i_version d) ++ n (i_code d)
  ++ repeat 0 28 ++ n (i_standard d) ++ n (i_custom d).

(** idblock.cpp:100-126 Write; [written] is FilePosition() == 0. *)
Definition write_id (written : bool) (d : idb) (f : file) : file :=
  if written then f else put f 0 (id_bytes d).

(** idblock.cpp:78-98 Read into a new block: the byte order is read as a little-endian number, what
    follows it in the order it says. *)
Definition read_id (f : file) : res idb :=
  let '(t1, p) := read_str 8 f 0 in
  let '(t2, p) := read_str 8 f p in
  let '(t3, p) := read_str 8 f p in
  let* '(order, p) := read_num false 2 f p in
  let big := big_endian order in
  let* '(fl, p) := read_num big 2 f p in
  let* '(ver, p) := read_num big 2 f p in
  let* '(code, p) := read_num big 2 f p in
  let* '(_, p) := read_num false 28 f p in
  let* '(std, p) := read_num big 2 f p in
  let* '(cust, p) := read_num big 2 f p in
  Ok (mkId t1 t2 t3 order fl ver code std cust).

(** idblock.cpp:182-203 IsFinalized(finalized, ...) and the block after it. *)
Definition mark_id (finalized : bool) (standard custom : N) (d : idb) : idb :=
  mkId (if finalized then txt_mdf else txt_unfin) (i_format d) (i_program d) (i_order d) (i_float d)
    (i_version d) (i_code d) (if finalized then 0 else standard) (if finalized then 0 else custom).
Definition mark_file (written finalized : bool) (standard custom : N) (d : idb) (f : file) : file :=
  if written then
    let d' := mark_id finalized standard custom d in
    let n := num_bytes (big_endian (i_order d)) 2 in
    put (put f 0 (str_bytes 8 (i_file d'))) 60 (n (i_standard d') ++ n (i_custom d'))
  else f.

(** idblock.cpp:205-210 IsFinalized. *)
Definition is_finalized (d : idb) : bool := match i_file d with 85 :: _ => false | _ => true end.

(** std::stoi of one character. *)
Definition stoi1 (s : list N) : res N :=
  match s with
  | [] => Ok 4
  | c :: _ => if (48 <=? c) && (c <=? 57) then Ok (c - 48) else Fail
  end.

(** The decimal digits of a number below 100. *)
Definition digits2 (n : N) : list N := if n <? 10 then [48 + n] else [48 + n / 10; 48 + n mod 10].

(** idblock.cpp:155-180 MinorVersion. *)
Definition minor_version (minor : Z) (d : idb) : res idb :=
  let* 'major := stoi1 (i_format d) in
  let m := if (minor <=? 0)%Z then 0
           else if (minor <? 10)%Z then Z.to_N (minor * 10)
           else if (minor <? 100)%Z then Z.to_N minor
           else Z.to_N (minor mod 100) in
  Ok (mkId (i_file d) ([48 + major; 46] ++ (if m =? 0 then [48; 48] else digits2 m)) (i_program d)
        (i_order d) (i_float d) (w16 (100 * major + m)) (i_code d) (i_standard d) (i_custom d)).

(** mdffile.cpp:24-34 MainVersion and 36-48 MinorVersion of a version text; 0 after an exception.
    Simplification: the text of the minor number does not start with white space or a sign. *)
Definition main_version (s : list N) : N :=
  match s with c :: _ => if (48 <=? c) && (c <=? 57) then c - 48 else 0 | [] => 0 end.
Fixpoint digits_num (acc : N) (s : list N) : N :=
  match s with
  | c :: r => if (48 <=? c) && (c <=? 57) then digits_num (10 * acc + (c - 48)) r else acc
  | [] => acc
  end.
Definition minor_number (s : list N) : N := digits_num 0 (skipn 2 s).

(** tolower in the C locale. *)
Definition lower (c : N) : N := if (65 <=? c) && (c <=? 90) then c + 32 else c.

(** Platform::strnicmp(s, t, length t) == 0 with a text [t] without NUL. *)
Fixpoint starts_nocase (t s : list N) : bool :=
  match t, s with
  | [], _ => true
  | _ :: _, [] => false
  | a :: t, b :: s => (lower a =? lower b) && starts_nocase t s
  end.

(** mdfreader.cpp:61-82 IsMdfFile. *)
Definition is_mdf (f : file) : bool :=
  match read_id f with
  | Ok d => starts_nocase [77; 68; 70] (i_file d) || starts_nocase [85; 110; 70; 105; 110; 77; 70] (i_file d)
  | _ => false
  end.

(** mdfreader.cpp:40-59 IsMdfFile of a file name. *)
Definition is_mdf_file (f : file) : bool := (64 <? N.of_nat (length f)) && is_mdf f.

(** mdfreader.cpp VerifyMdfFile: the class that reads the file. *)
Inductive mdf_class : Type := Mdf3 | Mdf4.
Definition file_class (f : file) : res mdf_class :=
  let* 'd := read_id f in Ok (if 400 <=? i_version d then Mdf4 else Mdf3).

(** mdf4file.cpp:172-188 Write of a new file. *)
Definition write_file (d : idb) (h : hd) (f : file) : res (file * blk) :=
  write_hd h (write_id false d f).

(** mdf4file.cpp ReadHeader, ReadEverythingButData: the ID block, then the HD block at 64. *)
Definition read_file (fuel : nat) (f : file) : res (idb * hd) :=
  let* 'd := read_id f in
  let* 'h := read_hd fuel f 64 in
  Ok (d, h).
