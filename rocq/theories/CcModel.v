(** Model of conversion blocks in a file: mdflib/src/cc4block.cpp Write and Read with the texts and
    conversions a block refers to, and mdflib/src/cc3block.cpp Write and Read.

    Simplifications: name, unit, comment and inverse of a block are absent (links 0) and the range
    is 0; none of them changes a conversion. The objects are new (not yet written). *)
From Verif Require Import Base BlockModel ConvModel.
From Coq Require Import Reals.
From Flocq Require Import Core.Core IEEE754.BinarySingleNaN IEEE754.Binary IEEE754.Bits.
Local Open Scope N_scope.

(** The bytes of a double: IEEE 754 binary64 interchange format; a NaN is written with some payload
    and any payload is read as a NaN. *)
Definition bits_of_dbl (d : dbl) : N := Z.to_N (bits_of_b64 (BSN2B 53 1024 default_nan_pl64 d)).
Definition dbl_of_bits (n : N) : dbl := B2BSN 53 1024 (b64_of_bits (Z.of_N n)).

Definition ty_cc : list N := [35; 35; 67; 67].

(** cc4block.cpp:311-320. *)
Definition val_bits (v : pval) : N :=
  match v with
  | PD d => bits_of_dbl d
  | PU u => u
  end.

(** cc4block.cpp:303-320: the fields after the links. CcFlag::PrecisionValid is flag bit 0. *)
Definition cc4_body (c : conv) : list N :=
  let nval := w16 (N.of_nat (length (c_vals c))) in
  le_bytes 1 (c_type c)
  ++ le_bytes 1 (match c_decimals c with Some d => d | None => 0 end)
  ++ le_bytes 2 (match c_decimals c with Some _ => 1 | None => 0 end)
  ++ le_bytes 2 (w16 (N.of_nat (length (c_refs c))))
  ++ le_bytes 2 nval
  ++ le_bytes 8 0 ++ le_bytes 8 0
  ++ concat (map (fun v => le_bytes 8 (val_bits v)) (firstn (N.to_nat nval) (c_vals c))).

(** cc4block.cpp:279-323 Write of a new block: the references are written first, then the block;
    [len] as computed in 290-291. Result: the file and the position of the block. *)
Fixpoint write_conv (c : conv) (f : file) {struct c} : res (file * nat) :=
  match c with
  | mkConv mdf4 typ nof vals dt dec texts ranges refs =>
      let nref := N.to_nat (w16 (N.of_nat (length refs))) in
      let len := 24 + 32 + 8 * N.of_nat nref + 24 + 8 * w16 (N.of_nat (length vals)) in
      bind
        ((fix go (k : nat) (l : list cref) (f : file) {struct l} : res (file * list N) :=
            match l, k with
            | [], _ => Ok (f, [])
            | _ :: _, O => Ok (f, [])
            | r :: rest, S k' =>
                bind
                  (match r with
                   | RText _ t => bind (write_tx4 t f) (fun '(f, b) => Ok (f, N.of_nat (b_pos b)))
                   | RConv c' => bind (write_conv c' f) (fun '(f, p) => Ok (f, N.of_nat p))
                   | _ => Ok (f, 0)
                   end)
                  (fun '(f, l0) => bind (go k' rest f) (fun '(f, ls) => Ok (f, l0 :: ls)))
            end) nref refs f)
        (fun '(f, links) =>
           bind (write_block4 ty_cc len ([0; 0; 0; 0] ++ links)
                   (cc4_body (mkConv mdf4 typ nof vals dt dec texts ranges refs)) f)
                (fun '(f, b) => Ok (f, b_pos b)))
  end.

(** cc4block.cpp:224-234, the loop over the values. *)
Fixpoint read_vals (typ : N) (n : nat) (f : file) (p : nat) : res (list pval * nat) :=
  match n with
  | O => Ok ([], p)
  | S k =>
      bind (read_num false 8 f p) (fun '(u, p) =>
      bind (read_vals typ k f p) (fun '(vs, p) =>
      Ok ((if typ =? tBitText then PU u else PD (dbl_of_bits u)) :: vs, p)))
  end.

(** mdfblock.cpp:185-195 ReadBlockType. *)
Definition block_type (f : file) (pos : nat) : list N :=
  let '(a, p) := read_str 2 f pos in
  if list_eq_dec N.eq_dec a [35; 35] then fst (read_str 2 f p) else a.

(** cc4block.cpp:208-277 Read; [fuel] bounds the depth of nested conversions. *)
Fixpoint read_conv (fuel : nat) (dt : N) (f : file) (pos : nat) {struct fuel} : res conv :=
  match fuel with
  | O => Fail
  | S fu =>
      bind (read_header4 f pos) (fun '(b, p) =>
      bind (read_num false 1 f p) (fun '(typ, p) =>
      bind (read_num false 1 f p) (fun '(prec, p) =>
      bind (read_num false 2 f p) (fun '(flags, p) =>
      bind (read_num false 2 f p) (fun '(nref, p) =>
      bind (read_num false 2 f p) (fun '(nval, p) =>
      bind (read_num false 8 f p) (fun '(_, p) =>
      bind (read_num false 8 f p) (fun '(_, p) =>
      bind (read_vals typ (N.to_nat nval) f p) (fun '(vals, _) =>
      bind
        ((fix go (ls : list N) : res (list cref) :=
            match ls with
            | [] => Ok []
            | l :: rest =>
                bind
                  (if pos64 l then
                     let at_ := N.to_nat l in
                     let bt := block_type f at_ in
                     if list_eq_dec N.eq_dec bt [84; 88] then
                       bind (read_tx4 f at_) (fun t => Ok (RText BTx t))
                     else if list_eq_dec N.eq_dec bt [67; 67] then
                       bind (read_conv fu dt f at_) (fun c => Ok (RConv c))
                     else Ok RNone
                   else Ok RNone)
                  (fun r => bind (go rest) (fun rs => Ok (r :: rs)))
            end) (map (fun i => link b (4 + i)) (seq 0 (N.to_nat nref))))
        (fun refs =>
           Ok (mkConv true typ nval vals dt (if N.testbit flags 0 then Some prec else None)
                      [] [] refs)))))))))))
  end.

(* ------------------------------------------------------------------ *)
(** ** Version 3 *)

(** WriteNumber of a std::variant<uint64_t, double>: the sixteen bytes of the object, the value,
    the index of the alternative and seven bytes of padding that have no specified value. *)
Definition variant_bytes (pad : list N) (v : pval) : list N :=
  le_bytes 8 (val_bits v) ++ (match v with PU _ => 0 | PD _ => 1 end) :: firstn 7 pad.

(** The stored state of a version 3 block: type number of the format, parameters, formula, text
    table, text range table. *)
Record cc3 : Type := mkCc3 {
  k_type : N;
  k_vals : list pval;
  k_formula : list N;
  k_texts : list (dbl * list N);
  k_ranges : list (dbl * dbl * list N)
}.

(** cc3block.cpp:282-291: the text blocks of the range table; their text is never set. *)
Fixpoint write_range_texts (big : bool) (l : list (dbl * dbl * list N)) (f : file)
  : file * list N :=
  match l with
  | [] => (f, [])
  | (_, _, t) :: r =>
      match t with
      | [] => let '(f, ls) := write_range_texts big r f in (f, 0 :: ls)
      | _ =>
          let '(f, p) := write_tx3 big [] f in
          let '(f, ls) := write_range_texts big r f in (f, w32 (N.of_nat p) :: ls)
      end
  end.

(** cc3block.cpp:306-362: what follows the type number. [pads] are the padding bytes of the written
    objects. Little-endian file. *)
Definition cc3_tail (c : cc3) (pads : list (list N)) (links : list N) : list N :=
  let t := k_type c in
  if (t =? 0) || (t =? 6) || (t =? 7) || (t =? 8) || (t =? 9) then
    le_bytes 2 (w16 (N.of_nat (length (k_vals c))))
    ++ concat (map (fun '(v, p) => variant_bytes p v) (combine (k_vals c) pads))
  else if (t =? 1) || (t =? 2) then
    le_bytes 2 (w16 (N.of_nat (length (k_vals c) / 2)))
    ++ concat (map (fun '(v, p) => variant_bytes p v) (combine (k_vals c) pads))
  else if t =? 10 then
    le_bytes 2 (w16 (N.of_nat (length (k_formula c)))) ++ k_formula c
  else if t =? 11 then
    le_bytes 2 (w16 (N.of_nat (length (k_texts c))))
    ++ concat (map (fun '(v, s) => le_bytes 8 (bits_of_dbl v) ++ str_bytes 32 s) (k_texts c))
  else if t =? 12 then
    le_bytes 2 (w16 (N.of_nat (length (k_ranges c))))
    ++ concat (map (fun '((lo, hi, _), l) =>
                      le_bytes 8 (bits_of_dbl lo) ++ le_bytes 8 (bits_of_dbl hi) ++ le_bytes 4 l)
                   (combine (k_ranges c) links))
  else le_bytes 2 0.

(** cc3block.cpp:275-365 Write: the position of the block and the file. The size is the one set in
    293-294 until it is updated (mdfblock.cpp:769-777); the bytes of the formula are not counted
    (333). The range flag, minimum and maximum are 0 and the unit is empty. *)
Definition write_cc3 (c : cc3) (pads : list (list N)) (f : file) : res (file * nat) :=
  let '(f, links) := write_range_texts false (k_ranges c) f in
  let '(f, b, p) := write_header3 false (mkB 0 [67; 67] 46 []) f in
  let fixed := le_bytes 2 0 ++ le_bytes 8 0 ++ le_bytes 8 0 ++ str_bytes 20 [] ++ le_bytes 2 (k_type c) in
  let tail := cc3_tail c pads links in
  let f := put f p (fixed ++ tail) in
  let bytes := N.of_nat (4 + length fixed + length tail)
               - (if k_type c =? 10 then N.of_nat (length (k_formula c)) else 0) in
  bind (update_size3 false b bytes f) (fun '(f, b) => Ok (f, b_pos b)).

Fixpoint read_dbls (n : nat) (f : file) (p : nat) : res (list pval * nat) :=
  match n with
  | O => Ok ([], p)
  | S k =>
      bind (read_num false 8 f p) (fun '(u, p) =>
      bind (read_dbls k f p) (fun '(vs, p) => Ok (PD (dbl_of_bits u) :: vs, p)))
  end.

Fixpoint read_texts (n : nat) (f : file) (p : nat) : res (list (dbl * list N)) :=
  match n with
  | O => Ok []
  | S k =>
      bind (read_num false 8 f p) (fun '(u, p) =>
      let '(s, p) := read_str 32 f p in
      bind (read_texts k f p) (fun l => Ok ((dbl_of_bits u, s) :: l)))
  end.

Fixpoint read_ranges (n : nat) (f : file) (p : nat) : res (list (dbl * dbl * list N)) :=
  match n with
  | O => Ok []
  | S k =>
      bind (read_num false 8 f p) (fun '(lo, p) =>
      bind (read_num false 8 f p) (fun '(hi, p) =>
      bind (read_num false 4 f p) (fun '(l, p) =>
      bind (read_ranges k f p) (fun rest =>
      bind (if 0 <? l then tx3_text false f (N.to_nat l) else Ok []) (fun t =>
      Ok ((dbl_of_bits lo, dbl_of_bits hi, t) :: rest))))))
  end.

(** cc3block.cpp:188-273 Read, little-endian file; 44 bytes are read before the number of values
    (195). *)
Definition read_cc3 (f : file) (pos : nat) : res cc3 :=
  bind (read_header3 false 0 f pos) (fun '(b, p) =>
  bind (read_num false 2 f p) (fun '(_, p) =>
  bind (read_num false 8 f p) (fun '(_, p) =>
  bind (read_num false 8 f p) (fun '(_, p) =>
  let '(_, p) := read_str 20 f p in
  bind (read_num false 2 f p) (fun '(t, p) =>
  bind (if 44 <? b_len b then read_num false 2 f p else Ok (0, p)) (fun '(nof, p) =>
  let n := N.to_nat nof in
  if (t =? 0) || (t =? 6) || (t =? 7) || (t =? 8) || (t =? 9) then
    bind (read_dbls n f p) (fun '(vs, _) => Ok (mkCc3 t vs [] [] []))
  else if (t =? 1) || (t =? 2) then
    bind (read_dbls (2 * n) f p) (fun '(vs, _) => Ok (mkCc3 t vs [] [] []))
  else if t =? 10 then Ok (mkCc3 t [] (if (n =? 0)%nat then [] else fst (read_str n f p)) [] [])
  else if t =? 11 then bind (read_texts n f p) (fun l => Ok (mkCc3 t [] [] l []))
  else if t =? 12 then bind (read_ranges n f p) (fun l => Ok (mkCc3 t [] [] [] l))
  else Ok (mkCc3 t [] [] [] []))))))).
