(** Model of the conversion of channel values to engineering values:
    mdflib/src/ichannelconversion.cpp, include/mdf/ichannelconversion.h (the Convert templates) and
    the text conversions and CopyFrom of cc4block.cpp and cc3block.cpp.

    A C++ [double] is an IEEE 754 binary64 number with rounding to nearest, ties to even, as
    defined by Flocq's [BinarySingleNaN] (the payload of a NaN is not represented; no operation of
    the modelled code looks at it). std::pow(x, 2), std::log, std::exp and MdfHelper::FormatDouble
    are functions given from outside. Outcome: [Ok (Some v)] returns true with [v], [Ok None]
    returns false, [Fail] throws (std::bad_variant_access). *)
From Verif Require Import Base BlockModel.
From Coq Require Import Reals.
From Flocq Require Import Core.Core IEEE754.BinarySingleNaN.
Local Open Scope N_scope.

Definition dbl : Type := binary_float 53 1024.

#[export] Instance prec53 : Prec_gt_0 53.
Proof. exact (eq_refl Lt). Qed.
#[export] Instance emax1024 : Prec_lt_emax 53 1024.
Proof. exact (eq_refl Lt). Qed.

(** The operators of the C++ type. *)
Definition fadd (a b : dbl) : dbl := Bplus mode_NE a b.
Definition fsub (a b : dbl) : dbl := Bminus mode_NE a b.
Definition fmul (a b : dbl) : dbl := Bmult mode_NE a b.
Definition fdiv (a b : dbl) : dbl := Bdiv mode_NE a b.
Definition feq (a b : dbl) : bool := Beqb a b.
Definition flt (a b : dbl) : bool := Bltb a b.
Definition fle (a b : dbl) : bool := Bleb a b.

(** static_cast<double> of an integer. *)
Definition of_Z (z : Z) : dbl := binary_normalize 53 1024 prec53 emax1024 mode_NE z 0 false.
Definition fzero : dbl := of_Z 0.
Definition fhalf : dbl := fdiv (of_Z 1) (of_Z 2).

(** include/mdf/ichannelconversion.h:30-103 ConversionType. *)
Definition tNone : N := 0.
Definition tLinear : N := 1.
Definition tRational : N := 2.
Definition tAlgebraic : N := 3.
Definition tInterpolate : N := 4.
Definition tValue : N := 5.
Definition tRangeValue : N := 6.
Definition tText : N := 7.
Definition tRangeText : N := 8.
Definition tTextValue : N := 9.
Definition tTextText : N := 10.
Definition tBitText : N := 11.
Definition tPolynomial : N := 30.
Definition tExponential : N := 31.
Definition tLogarithmic : N := 32.

(** One entry of the parameter list (a variant). *)
Inductive pval : Type :=
| PU (u : N)
| PD (d : dbl).

(** The block type of a text block: empty in a new object, set when it is written or read
    (tx4block.cpp:16, 84-89: a text starting with '<' is written as an MD block). *)
Inductive tkind : Type := BNew | BTx | BMd.

(** The members of IChannelConversion and of the block classes the conversion depends on. The text
    list and range list belong to version 3, the references to version 4. [c_mdf4] is the class;
    [c_decimals] is [Some n] if IsDecimalUsed. *)
Inductive conv : Type :=
| mkConv (c_mdf4 : bool) (c_type : N) (c_nof : N) (c_vals : list pval) (c_dtype : N)
         (c_decimals : option N) (c_texts : list (dbl * list N))
         (c_ranges : list (dbl * dbl * list N)) (c_refs : list cref)
with cref : Type :=
| RNone                      (* null pointer *)
| RText (b : tkind) (t : list N)  (* Tx4Block *)
| RConv (c : conv)           (* CC block *)
| ROther.                    (* any other block *)

Definition c_mdf4 (c : conv) : bool := let '(mkConv a _ _ _ _ _ _ _ _) := c in a.
Definition c_type (c : conv) : N := let '(mkConv _ a _ _ _ _ _ _ _) := c in a.
Definition c_nof (c : conv) : N := let '(mkConv _ _ a _ _ _ _ _ _) := c in a.
Definition c_vals (c : conv) : list pval := let '(mkConv _ _ _ a _ _ _ _ _) := c in a.
Definition c_dtype (c : conv) : N := let '(mkConv _ _ _ _ a _ _ _ _) := c in a.
Definition c_decimals (c : conv) : option N := let '(mkConv _ _ _ _ _ a _ _ _) := c in a.
Definition c_texts (c : conv) : list (dbl * list N) :=
  let '(mkConv _ _ _ _ _ _ a _ _) := c in a.
Definition c_ranges (c : conv) : list (dbl * dbl * list N) :=
  let '(mkConv _ _ _ _ _ _ _ a _) := c in a.
Definition c_refs (c : conv) : list cref := let '(mkConv _ _ _ _ _ _ _ _ a) := c in a.

(** ichannelconversion.cpp:324-335 Parameter(index). The index is below 2^16 at every call. *)
Definition param (vals : list pval) (i : nat) : dbl :=
  match nth_error vals i with
  | Some (PD d) => d
  | Some (PU u) => of_Z (Z.of_N u)
  | None => fzero
  end.

Fixpoint replace_at {A} (i : nat) (v : A) (l : list A) : list A :=
  match l, i with
  | [], _ => []
  | _ :: r, O => v :: r
  | x :: r, S k => x :: replace_at k v r
  end.

(** ichannelconversion.cpp:317-322 Parameter(index, parameter); nof_values_ is not touched. *)
Definition set_param (vals : list pval) (i : nat) (d : dbl) : list pval :=
  replace_at i (PD d) (vals ++ repeat (PD fzero) (S i - length vals)).

(** std::get<double>(value_list_.back()), ichannelconversion.cpp:217, 257, 289. *)
Definition back (vals : list pval) : res (option dbl) :=
  match List.last vals (PU 0) with
  | PD d => Ok (Some d)
  | PU _ => Fail
  end.

(** ichannelconversion.cpp:40-46. *)
Definition is_integer (dt : N) : bool := dt <=? 3.
Definition is_float (dt : N) : bool := (3 <? dt) && (dt <=? 5).

Section Outside.
Variable fpow2 : dbl -> dbl.             (* std::pow(x, 2) *)
Variable flog fexponential : dbl -> dbl. (* std::log, std::exp *)
Variable fmt : dbl -> N -> list N.          (* MdfHelper::FormatDouble(value, decimals) *)

(** ichannelconversion.cpp:48-59. *)
Definition conv_linear (vals : list pval) (x : dbl) : res (option dbl) :=
  match vals with
  | [] => Ok None
  | [_] => Ok (Some (param vals 0))
  | _ => Ok (Some (fadd (param vals 0) (fmul (param vals 1) x)))
  end.

(** ichannelconversion.cpp:61-76. *)
Definition conv_rational (vals : list pval) (x : dbl) : res (option dbl) :=
  if (length vals <? 6)%nat then Ok None
  else
    let e := fadd (fadd (fmul (param vals 0) (fpow2 x)) (fmul (param vals 1) x)) (param vals 2) in
    let d := fadd (fadd (fmul (param vals 3) (fpow2 x)) (fmul (param vals 4) x)) (param vals 5) in
    if feq d fzero then Ok None else Ok (Some (fdiv e d)).

(** ichannelconversion.cpp:78-91. *)
Definition conv_polynomial (vals : list pval) (x : dbl) : res (option dbl) :=
  if (length vals <? 6)%nat then Ok None
  else
    let t := fsub (fsub x (param vals 4)) (param vals 5) in
    let e := fsub (param vals 1) (fmul (param vals 3) t) in
    let d := fsub (fmul (param vals 2) t) (param vals 0) in
    if feq d fzero then Ok None else Ok (Some (fdiv e d)).

(** ichannelconversion.cpp:93-132 (f = log) and 134-173 (f = exp). *)
Definition log_like (f : dbl -> dbl) (vals : list pval) (x : dbl) : res (option dbl) :=
  if (length vals <? 7)%nat then Ok None
  else if feq (param vals 3) fzero then
    if feq (param vals 0) fzero then Ok None
    else
      let e := f (fdiv (fsub (fmul (fsub x (param vals 6)) (param vals 5)) (param vals 2))
                       (param vals 0)) in
      if feq (param vals 1) fzero then Ok None else Ok (Some (fdiv e (param vals 1)))
  else if feq (param vals 0) fzero then
    let t := fsub x (param vals 6) in
    if feq t fzero then Ok None
    else
      let e := f (fdiv (fsub (fdiv (param vals 2) t) (param vals 5)) (param vals 3)) in
      if feq (param vals 4) fzero then Ok None else Ok (Some (fdiv e (param vals 4)))
  else Ok None.

(** ichannelconversion.cpp:187-216 (interpolating) and 227-256, the loop; [k] is the number of
    rounds left, [n] the counter. [None] means the loop ended without returning. *)
Fixpoint vv_loop (interp : bool) (vals : list pval) (x : dbl) (k n : nat)
  : option (option dbl) :=
  match k with
  | O => None
  | S k' =>
      if (length vals <=? 2 * n + 1)%nat then None
      else
        let key := param vals (2 * n) in
        let value := param vals (2 * n + 1) in
        if feq x key then Some (Some value)
        else if flt x key then
          if (n =? 0)%nat then Some (Some value)
          else
            let pkey := param vals (2 * n - 2) in
            let pvalue := param vals (2 * n + 1 - 2) in
            let krange := fsub key pkey in
            let vrange := fsub value pvalue in
            if feq krange fzero then Some None
            else
              let t := fdiv (fsub x pkey) krange in
              Some (Some (if interp then fadd pvalue (fmul t vrange)
                          else if fle t fhalf then pvalue else value))
        else vv_loop interp vals x k' (S n)
  end.

(** ichannelconversion.cpp:181-219 and 221-259. *)
Definition value_to_value (interp : bool) (nof : N) (vals : list pval) (x : dbl)
  : res (option dbl) :=
  if (length vals <? 2)%nat then Ok None
  else
    match vv_loop interp vals x (N.to_nat nof) 0 with
    | Some r => Ok r
    | None => back vals
    end.

(** The test of ichannelconversion.cpp:277-284, cc4block.cpp:407-417 and cc3block.cpp:399-409. *)
Definition in_range (dt : N) (x lo hi : dbl) : bool :=
  (is_integer dt && fle lo x && fle x hi) || (is_float dt && fle lo x && flt x hi).

(** ichannelconversion.cpp:267-288. *)
Fixpoint range_loop (dt : N) (vals : list pval) (x : dbl) (k n : nat) : option dbl :=
  match k with
  | O => None
  | S k' =>
      if (length vals <=? 3 * n + 2)%nat then None
      else if in_range dt x (param vals (3 * n)) (param vals (3 * n + 1))
      then Some (param vals (3 * n + 2))
      else range_loop dt vals x k' (S n)
  end.

(** ichannelconversion.cpp:261-291. *)
Definition range_to_value (dt nof : N) (vals : list pval) (x : dbl) : res (option dbl) :=
  match vals with
  | [] => Ok None
  | _ =>
      match range_loop dt vals x (N.to_nat nof) 0 with
      | Some v => Ok (Some v)
      | None => back vals
      end
  end.

(** include/mdf/ichannelconversion.h:338-432 Convert<T, double>, [x] being the channel value cast
    to double. Not modelled: the text types, whose text is parsed as a number there. *)
Definition convert_num (c : conv) (x : dbl) : res (option dbl) :=
  let vals := c_vals c in
  if c_type c =? tLinear then conv_linear vals x
  else if c_type c =? tRational then conv_rational vals x
  else if c_type c =? tAlgebraic then Ok None
  else if c_type c =? tInterpolate then value_to_value true (c_nof c) vals x
  else if c_type c =? tValue then value_to_value false (c_nof c) vals x
  else if c_type c =? tRangeValue then range_to_value (c_dtype c) (c_nof c) vals x
  else if c_type c =? tPolynomial then conv_polynomial vals x
  else if c_type c =? tExponential then log_like fexponential vals x
  else if c_type c =? tLogarithmic then log_like flog vals x
  else Ok (Some x).

(** cc4block.cpp:354-366, the reference chosen by a value. *)
Fixpoint text_index (vals : list pval) (x : dbl) (k n : nat) : option nat :=
  match k with
  | O => None
  | S k' =>
      if (length vals <=? n)%nat then None
      else if feq x (param vals n) then Some n
      else text_index vals x k' (S n)
  end.

(** cc4block.cpp:397-419, the reference chosen by a range. The two indices are uint16_t. *)
Fixpoint range_index (dt : N) (vals : list pval) (x : dbl) (k n : nat) : option nat :=
  match k with
  | O => None
  | S k' =>
      let lo := N.to_nat (w16 (N.of_nat (2 * n))) in
      let hi := N.to_nat (w16 (N.of_nat lo + 1)) in
      if (length vals <=? hi)%nat then None
      else if in_range dt x (param vals lo) (param vals hi) then Some n
      else range_index dt vals x k' (S n)
  end.

(** cc3block.cpp:381-390. *)
Fixpoint text3 (l : list (dbl * list N)) (x : dbl) : option (list N) :=
  match l with
  | [] => None
  | (v, t) :: r => if feq x v then Some t else text3 r x
  end.

(** cc3block.cpp:397-410, from index 1 on. *)
Fixpoint ranges3 (dt : N) (l : list (dbl * dbl * list N)) (x : dbl) : option (list N) :=
  match l with
  | [] => None
  | (lo, hi, t) :: r => if in_range dt x lo hi then Some t else ranges3 dt r x
  end.

(** FormatDouble of a numeric result, e.g. ichannelconversion.h:441-445. *)
Definition show (c : conv) (r : res (option dbl)) : res (option (list N)) :=
  match r with
  | Ok (Some v) => Ok (Some (fmt v (match c_decimals c with Some d => d | None => 6 end)))
  | Ok None => Ok None
  | Fail => Fail
  | UB => UB
  end.

(** include/mdf/ichannelconversion.h:434-541 Convert<T, std::string> with the overrides
    cc4block.cpp:349-389 ConvertValueToText, 391-442 ConvertValueRangeToText, and
    cc3block.cpp:381-414. The text of a nested CC block is that block's Convert. *)
Fixpoint convert_str (c : conv) (x : dbl) {struct c} : res (option (list N)) :=
  match c with
  | mkConv mdf4 typ nof vals dt dec texts ranges refs =>
      let shown :=
        (fix shown (l : list cref) : list (res (option (list N))) :=
           match l with
           | [] => []
           | r :: rest =>
               match r with
               | RNone => Ok (Some [])
               | RText BTx t => Ok (Some (trim t))
               | RText _ _ => Ok None
               | RConv c' => convert_str c' x
               | ROther => Ok None
               end :: shown rest
           end) refs in
      let pick (i : option nat) :=
        match refs with
        | [] => Ok None
        | _ =>
            let i := match i with Some i => i | None => (length refs - 1)%nat end in
            nth i shown (Ok None)
        end in
      if typ =? tText then
        if mdf4 then pick (text_index vals x (N.to_nat nof) 0) else Ok (text3 texts x)
      else if typ =? tRangeText then
        if mdf4 then pick (range_index dt vals x (N.to_nat nof) 0)
        else
          match ranges with
          | [] => Ok None
          | (_, _, t0) :: r =>
              match ranges3 dt r x with Some t => Ok (Some t) | None => Ok (Some t0) end
          end
      else show c (convert_num c x)
  end.

(** cc4block.cpp:449-470, the value chosen by a text; [None] is a return with false. *)
Fixpoint text_value_index (refs : list cref) (t : list N) (k n : nat) : option (option nat) :=
  match k with
  | O => Some None
  | S k' =>
      match nth_error refs n with
      | None => Some None
      | Some (RText BTx u) =>
          if list_eq_dec N.eq_dec (trim u) t then Some (Some n) else text_value_index refs t k' (S n)
      | Some _ => None
      end
  end.

(** cc4block.cpp:444-476 ConvertTextToValue. *)
Definition text_to_value (c : conv) (t : list N) : option dbl :=
  match c_vals c with
  | [] => None
  | vals =>
      if c_mdf4 c then
        match text_value_index (c_refs c) t (N.to_nat (c_nof c)) 0 with
        | None => None
        | Some i =>
            let i := match i with
                     | Some i => i
                     | None => N.to_nat (w16 (N.of_nat (length vals - 1)))
                     end in
            if (i <? length vals)%nat then Some (param vals i) else None
        end
      else None
  end.

(** cc4block.cpp:484-499, the loop over key and value references. *)
Fixpoint text_text_index (refs : list cref) (t : list N) (fuel i : nat) : option (option nat) :=
  match fuel with
  | O => Some None
  | S f =>
      if (i + 1 <? length refs)%nat then
        match nth_error refs i with
        | Some (RText BTx u) =>
            if list_eq_dec N.eq_dec (trim u) t then Some (Some (i + 1)%nat)
            else text_text_index refs t f (i + 2)
        | _ => None
        end
      else Some None
  end.

(** cc4block.cpp:478-520 ConvertTextToTranslation. *)
Definition text_to_text (c : conv) (t : list N) : option (list N) :=
  match c_refs c with
  | [] => None
  | refs =>
      if c_mdf4 c then
        match text_text_index refs t (length refs) 0 with
        | None => None
        | Some i =>
            let i := match i with Some i => i | None => (length refs - 1)%nat end in
            match nth_error refs i with
            | Some (RText BTx u) => Some (trim u)
            | _ => None
            end
        end
      else None
  end.

(** include/mdf/ichannelconversion.h:543-554 Convert(std::string, double&): the returned flag and
    the value variable, given its value before. Not modelled: std::stod of a channel without
    conversion. *)
Definition convert_text_num (c : conv) (t : list N) (before : dbl) : bool * dbl :=
  if c_type c =? tTextValue then
    (true, match text_to_value c t with Some v => v | None => before end)
  else (false, before).

(** include/mdf/ichannelconversion.h:272-284 Convert(std::string, std::string&). *)
Definition convert_text_text (c : conv) (t before : list N) : bool * list N :=
  if c_type c =? tTextText then
    (true, match text_to_text c t with Some u => u | None => before end)
  else if c_type c =? tNone then (true, t)
  else (false, before).

End Outside.

(* ------------------------------------------------------------------ *)
(** ** Copies *)

(** cc4block.cpp:568-589: the references appended by CopyFrom. A text whose block type is not "TX"
    (yet) is copied; a TX block takes the else branch, where it is not a CC block; a CC block takes
    the first branch, where it is not a text block. *)
Definition copy_ref (r : cref) : list cref :=
  match r with
  | RText BTx _ => []
  | RText _ t => [RText BNew (trim t)]
  | RNone | RConv _ | ROther => []
  end.

(** ichannelconversion.cpp:31-38, cc4block.cpp:547-590 and cc3block.cpp:367-379 CopyFrom of an
    object of the same class. *)
Definition copy_from (dst src : conv) : conv :=
  mkConv (c_mdf4 dst) (c_type src) (c_nof src) (c_vals src) (c_dtype src) (c_decimals src)
         (c_texts src) (c_ranges src)
         (if c_mdf4 dst then c_refs dst ++ flat_map copy_ref (c_refs src) else c_refs dst).

(** A new block: cc4block.h, cc3block.h member defaults. *)
Definition new_conv (mdf4 : bool) : conv := mkConv mdf4 tNone 0 [] 0 None [] [] [].

(** cc4block.cpp:597-611 Reference(index, text). *)
Definition set_ref (refs : list cref) (i : nat) (t : list N) : list cref :=
  replace_at i (RText BNew t) (refs ++ repeat RNone (S i - length refs)).

(** cc4block.cpp:279-321 and tx4block.cpp:79-96: what writing a version 4 block changes in the
    object: the number of values and the block types of the texts. *)
Fixpoint written (c : conv) : conv :=
  match c with
  | mkConv mdf4 typ nof vals dt dec texts ranges refs =>
      mkConv mdf4 typ (w16 (N.of_nat (length vals))) vals dt dec texts ranges
        ((fix go (l : list cref) : list cref :=
            match l with
            | [] => []
            | RText _ t :: r => RText (if (hd 0 t =? 60) then BMd else BTx) t :: go r
            | RConv c' :: r => RConv (written c') :: go r
            | x :: r => x :: go r
            end) refs)
  end.

(** cc4block.cpp:208-277 Read of a written block for a channel of data type [dt]: a reference to a
    block that is neither TX nor CC is read as a null pointer; a text ends at its first zero
    and is trimmed (mdfblock.cpp:230-248 ReadStr). Simplification: the alternative of each value is
    the one the type calls for. *)
Fixpoint cut0 (t : list N) : list N :=
  match t with
  | [] => []
  | b :: r => if b =? 0 then [] else b :: cut0 r
  end.

Fixpoint reread (dt : N) (c : conv) : conv :=
  match c with
  | mkConv mdf4 typ nof vals _ dec texts ranges refs =>
      mkConv mdf4 typ nof vals dt dec [] []
        ((fix go (l : list cref) : list cref :=
            match l with
            | [] => []
            | RText BTx t :: r => RText BTx (trim (cut0 t)) :: go r
            | RConv c' :: r => RConv (reread dt c') :: go r
            | _ :: r => RNone :: go r
            end) refs)
  end.
