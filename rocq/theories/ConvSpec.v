(** Vocabulary for the properties of conversions, on real numbers. *)
From Verif Require Import Base ConvModel.
From Coq Require Import Reals.
From Flocq Require Import Core.Core IEEE754.BinarySingleNaN.
Local Open Scope R_scope.

(** The real number of a finite double. *)
Definition finite (d : dbl) : Prop := is_finite d = true.
Definition rv (d : dbl) : R := B2R d.

(** The double nearest to a real number, ties to even: 53 bits, least exponent -1074. *)
Definition Rn (r : R) : R := round radix2 (FLT_exp (-1074) 53) ZnearestE r.
Definition is_double (r : R) : Prop := generic_format radix2 (FLT_exp (-1074) 53) r.

(** [d] is the integer [z]. *)
Definition is_int (d : dbl) (z : Z) : Prop := finite d /\ rv d = IZR z.

(** Exactly representable integers. *)
Definition big : Z := 2 ^ 53.

(** [d] is finite and at most 2^1022 in size: sums and differences cannot overflow. *)
Definition moderate (d : dbl) : Prop := finite d /\ Rabs (rv d) <= bpow radix2 1022.

(** The parameter list of a table of (key, value) pairs: Par(2n) key, Par(2n+1) value. *)
Definition pairs (tbl : list (dbl * dbl)) : list pval :=
  flat_map (fun e => [PD (fst e); PD (snd e)]) tbl.

(** Keys finite and strictly increasing. *)
Definition keys_increase (tbl : list (dbl * dbl)) : Prop :=
  Forall (fun e => finite (fst e)) tbl /\
  forall i j a b, (i < j)%nat -> nth_error tbl i = Some a -> nth_error tbl j = Some b ->
    rv (fst a) < rv (fst b).

(** The parameter list of a table of ranges: Par(3n) lower, Par(3n+1) upper, Par(3n+2) value, and
    the default value last. *)
Definition triples (tbl : list (dbl * dbl * dbl)) (dflt : dbl) : list pval :=
  flat_map (fun e => [PD (fst (fst e)); PD (snd (fst e)); PD (snd e)]) tbl ++ [PD dflt].

(** The parameter list of a range to text table: Par(2n) lower, Par(2n+1) upper. *)
Definition bounds (tbl : list (dbl * dbl)) : list pval := pairs tbl.

(** Integer channels (data types 0-3) include the upper bound, float channels (4, 5) do not. *)
Inductive channel_kind : Type := IntegerChannel | FloatChannel.
Definition kind_of (dt : N) (k : channel_kind) : Prop :=
  match k with
  | IntegerChannel => (dt <= 3)%N
  | FloatChannel => (dt = 4 \/ dt = 5)%N
  end.
Definition inside (k : channel_kind) (x lo hi : R) : Prop :=
  match k with
  | IntegerChannel => lo <= x <= hi
  | FloatChannel => lo <= x < hi
  end.

(** [i] is the first position of [l] with [P]; no position has it. *)
Definition first_at {A} (P : A -> Prop) (l : list A) (i : nat) (a : A) : Prop :=
  nth_error l i = Some a /\ P a /\
  forall j b, (j < i)%nat -> nth_error l j = Some b -> ~ P b.
Definition nowhere {A} (P : A -> Prop) (l : list A) : Prop := forall a, In a l -> ~ P a.
