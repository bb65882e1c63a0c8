(** Specification vocabulary for typed property values. *)
From Coq Require Import String.
From Verif Require Import Base TimeSpec XmlModel CommentModel.
Local Open Scope N_scope.
Local Open Scope list_scope.

(** The data types: 0 text, 1 decimal, 2 integer, 3 floating point, 4 boolean, 5 date, 6 time, 7 date and
    time, 8 hexadecimal integer. The types that keep a number as it is: *)
Definition exact_type (t : N) : Prop := t <= 3 \/ t = 8.
(** What is left of a number: nanoseconds lose what is below a millisecond. *)
Definition kept_number (t v : N) : N := if t =? 7 then v / 1000000 * 1000000 else v.

(** The seconds since 1970 of a time in nanoseconds, its day, and its milliseconds. *)
Definition seconds (v : N) : Z := Z.of_N v / 1000000000.
Definition day_of (v : N) : date := calendar (Z.to_nat (seconds v / 86400)).
Definition millis (v : N) : Z := (Z.of_N v / 1000000) mod 1000.
(** The texts of a date and of a time of day in UTC, ISO 8601. *)
Definition date_z (v : N) : list N := date_text true (day_of v) ++ [90].
Definition clock_z (v : N) : list N :=
  clock_text true (seconds v mod 86400 / 3600) (seconds v mod 3600 / 60) (seconds v mod 60) ++
  (if (0 <? millis v)%Z then 46 :: decimal 3 (millis v) else []) ++ [90].

(** A number as hexadecimal text: 0x and upper case digits without a leading zero. *)
Definition hex_char (c : N) (d : N) : Prop := (d < 10 /\ c = 48 + d) \/ (10 <= d < 16 /\ c = 65 + (d - 10)).
Inductive hex_of : list N -> N -> Prop :=
| hex_one : forall c d, hex_char c d -> hex_of [c] d
| hex_more : forall s v c d, hex_of s v -> 0 < v -> hex_char c d -> hex_of (s ++ [c]) (16 * v + d).
