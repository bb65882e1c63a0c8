(** Model of the text conversions: mdflib/src/cutf.cpp (UTF-8, UTF-16 and UTF-32), mdfhelper.cpp
    (Latin1ToUtf8, Utf16ToUtf8, Utf8ToUtf16) and the text cases of cn4block.cpp GetTextValue.

    A string object of [n] characters is a memory of [n + 1] characters, the last one the
    terminating zero. Access beyond it is [UB]. Characters are numbers of the width of their type.
    Simplification: memory never runs out; sizes are below 2^64. *)
From Verif Require Import Base.
Local Open Scope N_scope.

(* ------------------------------------------------------------------ *)
(** ** Encoding *)

(** cutf.cpp:41-51 cutf_codepoint_length. *)
Definition cp_len (cp : N) : nat :=
  if cp <? 128 then 1 else if cp <? 2048 then 2 else if cp <? 65536 then 3 else 4.

(** cutf.cpp:216-238, the bytes stored by cutf_append (casts to uint8_t). *)
Definition cp_bytes (cp : N) : list N :=
  if cp <? 128 then [w8 cp]
  else if cp <? 2048 then
    [w8 (N.lor (N.shiftr cp 6) 192); w8 (N.lor (N.land cp 63) 128)]
  else if cp <? 65536 then
    [w8 (N.lor (N.shiftr cp 12) 224); w8 (N.lor (N.land (N.shiftr cp 6) 63) 128);
     w8 (N.lor (N.land cp 63) 128)]
  else
    [w8 (N.lor (N.shiftr cp 18) 240); w8 (N.lor (N.land (N.shiftr cp 12) 63) 128);
     w8 (N.lor (N.land (N.shiftr cp 6) 63) 128); w8 (N.lor (N.land cp 63) 128)].

(** An output buffer: the memory, the index [it] and the size [remain] handed on. The null pointer
    of the length estimation is the empty memory. *)
Record out8 : Type := mkOut { o_mem : list N; o_it : nat; o_remain : nat }.

(** cutf.cpp:203-240 cutf_append. *)
Definition append (cp : N) (o : out8) : res out8 :=
  if (o_remain o <? cp_len cp)%nat then Ok (mkOut (o_mem o) (o_it o + cp_len cp) 0)
  else
    match wr (o_mem o) (N.of_nat (o_it o)) (cp_bytes cp) with
    | None => UB
    | Some m => Ok (mkOut m (o_it o + cp_len cp) (o_remain o))
    end.

(** The terminator, cutf.cpp:307-311 and 347-351: written when [outsize] is not zero; the size
    returned counts it. *)
Definition finish_out (o : out8) : res (list N * nat) :=
  if (o_remain o =? 0)%nat then Ok (o_mem o, S (o_it o))
  else match wr (o_mem o) (N.of_nat (o_it o)) [0] with
       | None => UB
       | Some m => Ok (m, S (o_it o))
       end.

(** cutf.cpp:337-352 cutf_32to8. *)
Fixpoint to8_32 (cps : list N) (o : out8) : res out8 :=
  match cps with
  | [] => Ok o
  | cp :: r => bind (append cp o) (to8_32 r)
  end.

(** wcslen and strlen: the characters before the first zero. *)
Fixpoint before_nul (s : list N) : list N :=
  match s with
  | [] => []
  | c :: r => if c =? 0 then [] else c :: before_nul r
  end.

(** cutf.cpp:451-464 wchartoutf8 and 488-494 widetoutf8, wide characters of 32 bits: the length is
    estimated, a string of that length made and filled. *)
Definition wide32_to_utf8 (ws : list N) : res (list N) :=
  let units := before_nul ws in
  bind (bind (to8_32 units (mkOut [] 0 0)) finish_out) (fun '(_, n) =>
  let len := pred n in
  bind (bind (to8_32 units (mkOut (repeat 0 (S len)) 0 len)) finish_out) (fun '(mem, _) =>
  Ok (firstn len mem))).

(* ------------------------------------------------------------------ *)
(** ** Decoding *)

(** cutf.cpp:53-66 cutf_sequence_length. *)
Definition seq_len (lead : N) : nat :=
  if lead <? 128 then 1
  else if N.shiftr lead 5 =? 6 then 2
  else if N.shiftr lead 4 =? 14 then 3
  else if N.shiftr lead 3 =? 30 then 4
  else 0.

(** A byte of the memory. *)
Definition at_ (mem : list N) (i : nat) : res N :=
  match nth_error mem i with Some b => Ok b | None => UB end.

(** cutf.cpp:242-273 cutf_next: code point and next index. Only the announced length counts, the
    following bytes are not checked. A byte that starts no sequence stands for itself. *)
Definition next8 (mem : list N) (it : nat) : res (N * nat) :=
  bind (at_ mem it) (fun b0 =>
  match seq_len b0 with
  | 2%nat =>
      bind (at_ mem (it + 1)) (fun b1 =>
      Ok (N.land (N.shiftl b0 6) 2047 + N.land b1 63, (it + 2)%nat))
  | 3%nat =>
      bind (at_ mem (it + 1)) (fun b1 =>
      bind (at_ mem (it + 2)) (fun b2 =>
      Ok (N.land (N.shiftl b0 12) 65535 + N.land (N.shiftl b1 6) 4095 + N.land b2 63, (it + 3)%nat)))
  | 4%nat =>
      bind (at_ mem (it + 1)) (fun b1 =>
      bind (at_ mem (it + 2)) (fun b2 =>
      bind (at_ mem (it + 3)) (fun b3 =>
      Ok (N.land (N.shiftl b0 18) 2097151 + N.land (N.shiftl b1 12) 262143
          + N.land (N.shiftl b2 6) 4095 + N.land b3 63, (it + 4)%nat))))
  | _ => Ok (b0, (it + 1)%nat)
  end).

(** cutf.cpp:286-293 cutf_distance and 354-364 cutf_8to32: the code points from [it] on, while the
    index is before [end_]. An index grows with each step, [fuel] is the number of bytes. *)
Fixpoint points (fuel : nat) (mem : list N) (it end_ : nat) : res (list N) :=
  if (it <? end_)%nat then
    match fuel with
    | O => Ok []
    | S k => bind (next8 mem it) (fun '(cp, it) =>
             bind (points k mem it end_) (fun cps => Ok (cp :: cps)))
    end
  else Ok [].

(** Code points stored to a wide string, one each; the zero after the last one falls on the
    string's own terminator. *)
Fixpoint store32 (cps : list N) (mem : list N) (it : nat) : res (list N) :=
  match cps with
  | [] => match wr mem (N.of_nat it) [0] with Some m => Ok m | None => UB end
  | cp :: r => match wr mem (N.of_nat it) [cp] with
               | Some m => store32 r m (S it)
               | None => UB
               end
  end.

(** cutf.cpp:411-436 utf8towchar and 475-486 utf8towide, wide characters of 32 bits. The memory
    that may be read is that of the whole string with its terminator. *)
Definition utf8_to_wide32 (s : list N) : res (list N) :=
  let mem := s ++ [0] in
  let end_ := length (before_nul s) in
  bind (points end_ mem 0 end_) (fun cps =>
  let len := length cps in
  bind (store32 cps (repeat 0 (S len)) 0) (fun m => Ok (firstn len m))).

(* ------------------------------------------------------------------ *)
(** ** Wide characters of 16 bits *)

(** cutf.cpp:297-313 cutf_16to8, the loop over the units: after a lead surrogate the next unit is
    taken whatever it is. [None]: the index has passed the end, [start != end] stays true and the
    loop goes on behind the string. *)
Fixpoint points16 (fuel : nat) (mem : list N) (it end_ : nat) : res (list N) :=
  if (it =? end_)%nat then Ok []
  else if (end_ <? it)%nat then UB
  else match fuel with
  | O => Ok []
  | S k =>
      bind (at_ mem it) (fun u =>
      if (55296 <=? u) && (u <=? 56319) then
        bind (at_ mem (it + 1)) (fun t =>
        bind (points16 k mem (it + 2) end_) (fun cps =>
        (* CUTF_SURROGATE_OFFSET is unsigned *)
        Ok (w32 (w32 (N.shiftl u 10) + t + (2 ^ 32 + 65536 - N.shiftl 55296 10 - 56320)) :: cps)))
      else bind (points16 k mem (it + 1) end_) (fun cps => Ok (u :: cps)))
  end.

(** widetoutf8 with 16-bit wide characters. *)
Definition wide16_to_utf8 (ws : list N) : res (list N) :=
  let mem := ws ++ [0] in
  let end_ := length (before_nul ws) in
  bind (points16 end_ mem 0 end_) (fun cps =>
  bind (bind (to8_32 cps (mkOut [] 0 0)) finish_out) (fun '(_, n) =>
  let len := pred n in
  bind (bind (to8_32 cps (mkOut (repeat 0 (S len)) 0 len)) finish_out) (fun '(mem, _) =>
  Ok (firstn len mem)))).

(** cutf.cpp:315-335 cutf_8to16, the units of a code point. *)
Definition cp_units (cp : N) : list N :=
  if 65535 <? cp then [w16 (N.shiftr cp 10 + 55232); w16 (N.land cp 1023 + 56320)] else [w16 cp].

(** Units stored one after the other, then a zero when [outsize], of which the length of every
    sequence has been taken (modulo 2^64), is not zero. *)
Fixpoint store_units (us : list N) (mem : list N) (it : nat) : res (list N * nat) :=
  match us with
  | [] => Ok (mem, it)
  | u :: r => match wr mem (N.of_nat it) [u] with
              | Some m => store_units r m (S it)
              | None => UB
              end
  end.

(** utf8towide with 16-bit wide characters: the string gets one unit for each code point. The size
    left is zero when every sequence had one byte. Simplification: a byte that starts no sequence
    counts as one byte there. *)
Definition utf8_to_wide16 (s : list N) : res (list N) :=
  let mem := s ++ [0] in
  let end_ := length (before_nul s) in
  bind (points end_ mem 0 end_) (fun cps =>
  let len := length cps in
  bind (store_units (concat (map cp_units cps)) (repeat 0 (S len)) 0) (fun '(m, it) =>
  if (length (before_nul s) =? len)%nat then Ok (firstn len m)
  else match wr m (N.of_nat it) [0] with
       | None => UB
       | Some m => Ok (firstn len m)
       end)).

(* ------------------------------------------------------------------ *)
(** ** Helpers of the API *)

(** mdfhelper.cpp:307-319 Latin1ToUtf8. *)
Definition latin1_char (ch : N) : list N :=
  if ch <? 128 then [ch]
  else [w8 (N.lor 192 (N.shiftr ch 6)); w8 (N.lor 128 (N.land ch 63))].

Definition latin1_to_utf8 (s : list N) : list N := concat (map latin1_char s).

(** mdfhelper.cpp:321-329 (32-bit wide characters). *)
Definition utf16_to_utf8 (ws : list N) : res (list N) :=
  match ws with [] => Ok [] | _ => wide32_to_utf8 ws end.
Definition utf8_to_utf16 (s : list N) : res (list N) :=
  match s with [] => Ok [] | _ => utf8_to_wide32 s end.

(* ------------------------------------------------------------------ *)
(** ** Text values of a channel *)

(** 16-bit units of a byte array up to a zero unit, cn4block.cpp:715-724, 732-741. *)
Fixpoint units_of (big : bool) (l : list N) : list N :=
  match l with
  | a :: b :: r =>
      let u := if big then be_num [a; b] else le_num [a; b] in
      if u =? 0 then [] else u :: units_of big r
  | _ => []
  end.

(** cn4block.cpp:680-752, the conversion of the bytes of a text value by data type: 0 Latin-1, 1
    UTF-8, 2 UTF-16 little endian, 3 UTF-16 big endian (wide characters of 32 bits). *)
Definition text_of (type : N) (bytes : list N) : res (list N) :=
  match type with
  | 0 => Ok (latin1_to_utf8 (before_nul bytes))
  | 1 => Ok (before_nul bytes)
  | 2 => utf16_to_utf8 (units_of false bytes)
  | 3 => utf16_to_utf8 (units_of true bytes)
  | _ => Ok []
  end.
