(** What times and dates mean, without reference to the code: the Gregorian calendar, ISO 8601 texts,
    the CANopen formats. *)
From Verif Require Import Base.
Local Open Scope Z_scope.

(** A date: year, month 1..12, day 1..31. *)
Definition date : Type := (Z * Z * Z)%type.

(** The Gregorian calendar. *)
Definition leap_yearb (y : Z) : bool :=
  ((y mod 4 =? 0) && negb (y mod 100 =? 0)) || (y mod 400 =? 0).
Definition days_in_month (y m : Z) : Z :=
  if m =? 2 then (if leap_yearb y then 29 else 28)
  else if (m =? 4) || (m =? 6) || (m =? 9) || (m =? 11) then 30 else 31.
Definition next_day (x : date) : date :=
  let '(y, m, d) := x in
  if d <? days_in_month y m then (y, m, d + 1)
  else if m <? 12 then (y, m + 1, 1)
  else (y + 1, 1, 1).
(** The date [n] days after 1 January 1970. *)
Fixpoint calendar (n : nat) : date :=
  match n with O => (1970, 1, 1) | S k => next_day (calendar k) end.
(** The dates that exist, from 1970 on. *)
Definition real_date (y m d : Z) : Prop :=
  1970 <= y /\ 1 <= m <= 12 /\ 1 <= d <= days_in_month y m.

(** The decimal representation of [v] with [k] digits, as characters. *)
Fixpoint decimal (k : nat) (v : Z) : list N :=
  match k with
  | O => []
  | S j => decimal j (v / 10) ++ [Z.to_N (48 + v mod 10)]
  end.
Definition is_digit (c : N) : Prop := (48 <= c <= 57)%N.
(** The number written by a text of digits. *)
Fixpoint written (t : list N) : Z :=
  match t with
  | [] => 0
  | c :: r => (Z.of_N c - 48) * 10 ^ Z.of_nat (length r) + written r
  end.

(** ISO 8601: the date and the time of day in the extended ("2020-01-31", "12:30:00") or the basic form
    ("20200131", "123000"), a separator, a fraction of a second with any number of digits, an offset. *)
Inductive offset : Type :=
| OffNone                                    (* local to the reader: taken as UTC here *)
| OffZ                                       (* Z *)
| OffHours (east : bool) (h : Z)             (* +hh or -hh *)
| OffMinutes (east : bool) (h m : Z)         (* +hh:mm or -hh:mm *)
| OffBasic (east : bool) (h m : Z).          (* +hhmm or -hhmm *)
Definition sign_char (east : bool) : N := if east then 43%N else 45%N.
Definition offset_text (o : offset) : list N :=
  match o with
  | OffNone => []
  | OffZ => [90%N]
  | OffHours e h => sign_char e :: decimal 2 h
  | OffMinutes e h m => sign_char e :: decimal 2 h ++ [58%N] ++ decimal 2 m
  | OffBasic e h m => sign_char e :: decimal 2 h ++ decimal 2 m
  end.
(** The minutes local time is ahead of UTC. *)
Definition offset_minutes (o : offset) : Z :=
  match o with
  | OffNone | OffZ => 0
  | OffHours e h => if e then 60 * h else - (60 * h)
  | OffMinutes e h m | OffBasic e h m => if e then 60 * h + m else - (60 * h + m)
  end.
Definition offset_valid (o : offset) : Prop :=
  match o with
  | OffNone | OffZ => True
  | OffHours _ h => 0 <= h < 24
  | OffMinutes _ h m | OffBasic _ h m => 0 <= h < 24 /\ 0 <= m < 60
  end.
Definition date_text (extended : bool) (x : date) : list N :=
  let '(y, m, d) := x in
  if extended then decimal 4 y ++ [45%N] ++ decimal 2 m ++ [45%N] ++ decimal 2 d
  else decimal 4 y ++ decimal 2 m ++ decimal 2 d.
Definition clock_text (extended : bool) (h mi s : Z) : list N :=
  if extended then decimal 2 h ++ [58%N] ++ decimal 2 mi ++ [58%N] ++ decimal 2 s
  else decimal 2 h ++ decimal 2 mi ++ decimal 2 s.
Definition fraction_text (f : list N) : list N :=
  match f with [] => [] | _ => 46%N :: f end.
Definition iso_text (ed et : bool) (sep : N) (x : date) (h mi s : Z) (f : list N) (o : offset) : list N :=
  date_text ed x ++ [sep] ++ clock_text et h mi s ++ fraction_text f ++ offset_text o.
(** The fraction in nanoseconds; digits beyond the ninth are cut. *)
Definition fraction_ns (f : list N) : Z :=
  if Nat.leb (length f) 9 then written f * 10 ^ (9 - Z.of_nat (length f))
  else written f / 10 ^ (Z.of_nat (length f) - 9).
(** Nanoseconds from 1970-01-01T00:00:00Z to the instant: day [n], time of day, fraction, offset. *)
Definition instant (n : nat) (h mi s : Z) (f : list N) (o : offset) : Z :=
  (Z.of_nat n * 86400 + h * 3600 + mi * 60 + s - 60 * offset_minutes o) * 1000000000 + fraction_ns f.

(** Monday is 1, Sunday is 7; 1 January 1970 was a Thursday. *)
Fixpoint weekday (n : nat) : Z :=
  match n with O => 4 | S k => if weekday k =? 7 then 1 else weekday k + 1 end.

(** "DD:MM:YYYY", the date in the header of an MDF 3 file. *)
Definition dmy_text (x : date) : list N :=
  let '(y, m, d) := x in decimal 2 d ++ [58%N] ++ decimal 2 m ++ [58%N] ++ decimal 4 y.

(** What a caller asks for: the nanoseconds, the kind of time, the offset of the zone and of daylight saving
    time in minutes, all as a reader of the file should see them. *)
Inductive kind : Type := KUtc | KLocal | KZone.
